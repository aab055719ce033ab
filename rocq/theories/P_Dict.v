(** Nested dictionaries: lookups after updates.  Proof library for the decoders. *)
From Verif Require Import Py.

Lemma key_eqb_eq a b : key_eqb a b = true <-> a = b.
Proof.
  destruct a as [s|x], b as [t|y]; cbn [key_eqb]; try (split; intros H; discriminate H).
  - rewrite String.eqb_eq. split; intros H; [rewrite H; reflexivity | injection H; auto].
  - rewrite Z.eqb_eq. split; intros H; [rewrite H; reflexivity | injection H; auto].
Qed.
Lemma key_eqb_refl a : key_eqb a a = true. Proof. apply key_eqb_eq. reflexivity. Qed.
Lemma key_eqb_sym a b : key_eqb a b = key_eqb b a.
Proof.
  destruct (key_eqb a b) eqn:E, (key_eqb b a) eqn:F; try reflexivity.
  - apply key_eqb_eq in E. subst. rewrite key_eqb_refl in F. discriminate.
  - apply key_eqb_eq in F. subst. rewrite key_eqb_refl in E. discriminate.
Qed.
Lemma key_eqb_neq a b : key_eqb a b = false <-> a <> b.
Proof. rewrite <- key_eqb_eq. destruct (key_eqb a b); split; intros; congruence. Qed.

(** flat dictionaries *)
Lemma dget_dset k v d k' : dget k' (dset k v d) = if key_eqb k' k then Some v else dget k' d.
Proof.
  induction d as [|[a w] d IH]; cbn [dset dget].
  - reflexivity.
  - destruct (key_eqb k a) eqn:E; cbn [dget].
    + apply key_eqb_eq in E. subst a. destruct (key_eqb k' k) eqn:E'; reflexivity.
    + destruct (key_eqb k' a) eqn:E'.
      * apply key_eqb_eq in E'. subst a. rewrite key_eqb_sym, E. reflexivity.
      * exact IH.
Qed.
Lemma dset_same k v d : dget k d = Some v -> dset k v d = d.
Proof.
  induction d as [|[a w] d IH]; cbn [dset dget]; [discriminate|].
  destruct (key_eqb k a); intros H; [injection H as ->; reflexivity | rewrite IH by exact H; reflexivity].
Qed.
Lemma dset_dset k v w d : dset k w (dset k v d) = dset k w d.
Proof.
  induction d as [|[a x] d IH]; cbn [dset]; [rewrite key_eqb_refl; reflexivity|].
  destruct (key_eqb k a) eqn:E; cbn [dset]; rewrite E; [reflexivity | rewrite IH; reflexivity].
Qed.
Lemma dset_comm k v k' v' d : key_eqb k k' = false -> din k d = true -> din k' d = true ->
  dset k v (dset k' v' d) = dset k' v' (dset k v d).
Proof.
  intros N. unfold din. induction d as [|[a x] d IH]; cbn [dset dget]; [discriminate|].
  destruct (key_eqb k a) eqn:E, (key_eqb k' a) eqn:E'; intros H H'; cbn [dset]; rewrite ?E, ?E'.
  - apply key_eqb_eq in E, E'. subst. rewrite key_eqb_refl in N. discriminate.
  - reflexivity.
  - reflexivity.
  - rewrite IH by assumption. reflexivity.
Qed.
Lemma din_dset k v d k' : din k' (dset k v d) = key_eqb k' k || din k' d.
Proof. unfold din. rewrite dget_dset. destruct (key_eqb k' k); reflexivity. Qed.

(** prefix order on paths *)
Fixpoint pre (a b : path) : bool :=
  match a, b with
  | [], _ => true
  | x :: a', y :: b' => key_eqb x y && pre a' b'
  | _, [] => false
  end.
Definition incomp (a b : path) : bool := negb (pre a b) && negb (pre b a).

Lemma pre_app a s : pre a (a ++ s) = true.
Proof. induction a as [|k a IH]; cbn [pre app]; [reflexivity|]. rewrite key_eqb_refl. exact IH. Qed.
Lemma pre_inv a b : pre a b = true -> exists s, b = a ++ s.
Proof.
  revert b; induction a as [|k a IH]; intros b H; [exists b; reflexivity|].
  destruct b as [|k' b]; cbn [pre] in H; [discriminate|].
  apply andb_true_iff in H. destruct H as [E H]. apply key_eqb_eq in E. subst k'.
  destruct (IH b H) as (s & ->). exists s. reflexivity.
Qed.
Lemma pre_refl a : pre a a = true. Proof. rewrite <- (app_nil_r a) at 2. apply pre_app. Qed.
Lemma pre_trans a b c : pre a b = true -> pre b c = true -> pre a c = true.
Proof. intros H1 H2. apply pre_inv in H1, H2. destruct H1 as (s & ->), H2 as (t & ->). rewrite <- app_assoc. apply pre_app. Qed.
Lemma pre_antisym a b : pre a b = true -> pre b a = true -> a = b.
Proof.
  intros H1 H2. apply pre_inv in H1, H2. destruct H1 as (s & E), H2 as (t & F).
  rewrite F in E at 1. rewrite <- app_assoc in E. rewrite <- (app_nil_r b) in E at 1.
  apply app_inv_head in E. symmetry in E. apply app_eq_nil in E. destruct E as [-> _].
  rewrite F, app_nil_r. reflexivity.
Qed.

Lemma pget_app p q v : pget (p ++ q) v = match pget p v with Some w => pget q w | None => None end.
Proof.
  revert v; induction p as [|k p IH]; intros v; cbn [app pget]; [reflexivity|].
  destruct v; try reflexivity. destruct (dget k d); [apply IH | reflexivity].
Qed.

(** the dictionary at a path, and a total update of it *)
Definition known (p : path) (d : dict) : Prop := exists dd, dpget p d = Some (VDict dd).

Fixpoint umap (p : path) (g : dict -> dict) (d : dict) : dict :=
  match p with
  | [] => g d
  | k :: p' => match dget k d with
               | Some (VDict d1) => dset k (VDict (umap p' g d1)) d
               | _ => d
               end
  end.

Lemma known_nil d : known [] d. Proof. exists d. reflexivity. Qed.
Lemma known_cons k p d : known (k :: p) d <-> exists d1, dget k d = Some (VDict d1) /\ known p d1.
Proof.
  unfold known, dpget. cbn [pget]. split.
  - intros (dd & H). destruct (dget k d) as [v|]; [|discriminate].
    destruct v; try (destruct p; discriminate).
    + eexists. split; [reflexivity|]. eauto.
  - intros (d1 & -> & dd & H). eauto.
Qed.
Lemma upd_umap p g d : known p d -> upd_at p (fun d1 => Some (g d1)) d = Some (umap p g d).
Proof.
  revert d; induction p as [|k p IH]; intros d H; [reflexivity|].
  apply known_cons in H. destruct H as (d1 & E & K). cbn [upd_at umap]. rewrite E, (IH d1 K). reflexivity.
Qed.

(** lookups after umap *)
Lemma dpget_umap_below p g d s dd : dpget p d = Some (VDict dd) ->
  dpget (p ++ s) (umap p g d) = pget s (VDict (g dd)).
Proof.
  revert d; induction p as [|k p IH]; intros d H; unfold dpget in *; cbn [app pget umap] in *.
  - injection H as <-. reflexivity.
  - destruct (dget k d) as [v|] eqn:E; [|discriminate].
    destruct v; try (destruct p; discriminate).
    rewrite dget_dset, key_eqb_refl. apply IH. exact H.
Qed.
Lemma dpget_umap_incomp p g d q : incomp p q = true -> dpget q (umap p g d) = dpget q d.
Proof.
  unfold incomp. rewrite andb_true_iff, !negb_true_iff.
  revert d q; induction p as [|k p IH]; intros d q [H1 H2]; [discriminate|].
  destruct q as [|k' q]; [discriminate|]. cbn [pre] in *. unfold dpget. cbn [umap pget].
  destruct (dget k d) as [v|] eqn:E; [|reflexivity].
  destruct v; try reflexivity.
  rewrite dget_dset. destruct (key_eqb k' k) eqn:E'; [|reflexivity].
  apply key_eqb_eq in E'. subst k'. rewrite key_eqb_refl in *. cbn [andb] in *. rewrite E.
  apply (IH d0 q). auto.
Qed.
Lemma known_umap_above p g d q : known p d -> pre q p = true -> known q (umap p g d).
Proof.
  revert d q; induction p as [|k p IH]; intros d q K P.
  - destruct q; [apply known_nil | discriminate].
  - destruct q as [|k' q]; [apply known_nil|]. cbn [pre] in P. apply andb_true_iff in P. destruct P as [E P].
    apply key_eqb_eq in E. subst k'. apply known_cons in K. destruct K as (d1 & E & K).
    cbn [umap]. rewrite E. apply known_cons. exists (umap p g d1). rewrite dget_dset, key_eqb_refl.
    split; [reflexivity|]. apply IH; assumption.
Qed.
Lemma known_pre p q d : known p d -> pre q p = true -> known q d.
Proof.
  intros (dd & K) P. apply pre_inv in P. destruct P as (s & ->). unfold known, dpget in *.
  rewrite pget_app in K. destruct (pget q (VDict d)) as [w|]; [|discriminate].
  destruct w; try (destruct s; discriminate). eauto.
Qed.

(** write operations *)
Inductive op := OSet (p : path) (k : key) (v : pv) | ODef (p : path) (k : key) (v : pv).
Definition opath (o : op) := match o with OSet p _ _ | ODef p _ _ => p end.
Definition okey (o : op) := match o with OSet _ k _ | ODef _ k _ => k end.
Definition cell (o : op) := opath o ++ [okey o].
Definition ofun (o : op) : dict -> dict :=
  match o with
  | OSet _ k v => dset k v
  | ODef _ k v => fun d => if din k d then d else dset k v d
  end.
Definition ap (o : op) (d : dict) : dict := umap (opath o) (ofun o) d.
Fixpoint aps (l : list op) (d : dict) : dict :=
  match l with [] => d | o :: l' => aps l' (ap o d) end.
Lemma aps_app a b d : aps (a ++ b) d = aps b (aps a d).
Proof. revert d; induction a as [|o a IH]; intros d; [reflexivity | apply IH]. Qed.

Lemma assign_ap p k v d : known p d -> assign p k v d = (ap (OSet p k v) d, Ok tt).
Proof. intros K. unfold assign. rewrite (upd_umap p (dset k v) d K). reflexivity. Qed.
Lemma setdefault_ap p k v d : known p d -> setdefault p k v d = (ap (ODef p k v) d, Ok tt).
Proof. intros K. unfold setdefault. rewrite (upd_umap p (fun d1 => if din k d1 then d1 else dset k v d1) d K). reflexivity. Qed.

Lemma ofun_other o d k : key_eqb k (okey o) = false -> dget k (ofun o d) = dget k d.
Proof.
  destruct o as [p k' v|p k' v]; cbn [okey ofun]; intros N.
  - rewrite dget_dset, N. reflexivity.
  - destruct (din k' d); [reflexivity|]. rewrite dget_dset, N. reflexivity.
Qed.
Lemma pre_snoc p k q : pre (p ++ [k]) q = true -> pre p q = true.
Proof. intros H. apply pre_inv in H. destruct H as (s & ->). rewrite <- app_assoc. apply pre_app. Qed.

Lemma dpget_ap_incomp o d q : incomp (cell o) q = true -> dpget q (ap o d) = dpget q d.
Proof.
  unfold incomp, cell, ap. rewrite andb_true_iff, !negb_true_iff. intros [H1 H2].
  set (p := opath o) in *. set (k := okey o) in *.
  destruct (pre p q) eqn:E.
  - apply pre_inv in E. destruct E as (s & ->).
    destruct (pget p (VDict d)) as [w|] eqn:G.
    + destruct w as [| | | | | | |dd].
      all: try (assert (U : umap p (ofun o) d = d); [|rewrite U; reflexivity];
        clear - G; revert d G; induction p as [|a p IH]; intros d G; cbn [umap pget] in *; [discriminate|];
        destruct (dget a d) as [x|] eqn:E; [|discriminate]; destruct x; try reflexivity;
        rewrite (IH d0) by exact G; apply dset_same; exact E).
      rewrite (dpget_umap_below p (ofun o) d s dd G). unfold dpget. rewrite pget_app, G.
      destruct s as [|k' s].
      * exfalso. rewrite app_nil_r in *. clear - H2. rewrite pre_app in H2. discriminate.
      * cbn [pget]. rewrite ofun_other; [reflexivity|]. fold k.
        destruct (key_eqb k' k) eqn:E; [|reflexivity]. apply key_eqb_eq in E. subst k'.
        exfalso. clear - H1. replace (p ++ k :: s) with ((p ++ [k]) ++ s) in H1
          by (rewrite <- app_assoc; reflexivity). rewrite pre_app in H1. discriminate.
    + assert (U : umap p (ofun o) d = d); [|rewrite U; reflexivity].
      clear - G. revert d G. induction p as [|a p IH]; intros d G; cbn [umap pget] in *; [discriminate|].
      destruct (dget a d) as [x|] eqn:E; [|reflexivity]. destruct x; try reflexivity.
      rewrite (IH d0) by exact G. apply dset_same. exact E.
  - apply dpget_umap_incomp. unfold incomp. rewrite E. cbn [negb andb].
    destruct (pre q p) eqn:F; [|reflexivity]. exfalso. apply pre_inv in F. destruct F as (s & F).
    rewrite F in H2. rewrite <- app_assoc in H2. rewrite pre_app in H2. discriminate.
Qed.

Lemma dpget_set_below p k v d s : known p d ->
  dpget (p ++ k :: s) (ap (OSet p k v) d) = pget s v.
Proof.
  intros (dd & K). unfold ap. cbn [opath ofun].
  rewrite (dpget_umap_below p (dset k v) d (k :: s) dd K). cbn [pget].
  rewrite dget_dset, key_eqb_refl. reflexivity.
Qed.
Lemma dpget_def_below p k v d s : known p d ->
  dpget (p ++ k :: s) (ap (ODef p k v) d)
  = match dpget (p ++ [k]) d with Some w => pget s w | None => pget s v end.
Proof.
  intros (dd & K). unfold ap. cbn [opath ofun].
  rewrite (dpget_umap_below p _ d (k :: s) dd K). unfold dpget in *. rewrite pget_app, K. cbn [pget].
  unfold din. destruct (dget k dd) as [w|] eqn:E; [rewrite E; reflexivity|].
  rewrite dget_dset, key_eqb_refl. reflexivity.
Qed.

(** an existing value survives operations elsewhere and every setdefault that does not
    extend a dictionary above it *)
Definition skips (q : path) (o : op) : bool :=
  match o with
  | OSet p k v => incomp (p ++ [k]) q
  | ODef p k v => negb (pre q p)
  end.

Lemma path_cases o q :
  incomp (cell o) q = true
  \/ (exists s, q = opath o ++ okey o :: s)
  \/ pre q (opath o) = true.
Proof.
  unfold incomp. destruct (pre (cell o) q) eqn:E.
  - right; left. apply pre_inv in E. destruct E as (s & ->). unfold cell. exists s.
    rewrite <- app_assoc. reflexivity.
  - cbn [negb andb]. destruct (pre q (cell o)) eqn:F; [|left; reflexivity].
    right; right. apply pre_inv in F. destruct F as (s & F). unfold cell in *.
    destruct s as [|a s] using rev_ind.
    + rewrite app_nil_r in F. rewrite F, pre_refl in E. discriminate.
    + rewrite app_assoc in F. apply app_inj_tail in F. destruct F as [-> _]. apply pre_app.
Qed.

Lemma skips_some o d q v : known (opath o) d -> skips q o = true -> dpget q d = Some v -> dpget q (ap o d) = Some v.
Proof.
  intros K S G. destruct (path_cases o q) as [I|[(s & ->)|P]].
  - rewrite dpget_ap_incomp by exact I. exact G.
  - destruct o as [p k w|p k w]; cbn [skips opath okey] in *.
    + exfalso. unfold incomp in S. apply andb_true_iff in S. destruct S as [S _].
      replace (p ++ k :: s) with ((p ++ [k]) ++ s) in S by (rewrite <- app_assoc; reflexivity).
      rewrite pre_app in S. discriminate.
    + rewrite dpget_def_below by exact K. unfold dpget in G |- *.
      replace (p ++ k :: s) with ((p ++ [k]) ++ s) in G by (rewrite <- app_assoc; reflexivity).
      rewrite pget_app in G. destruct (pget (p ++ [k]) (VDict d)); [exact G | discriminate].
  - destruct o as [p k w|p k w]; cbn [skips opath okey] in *.
    + exfalso. unfold incomp in S. apply andb_true_iff in S. destruct S as [_ S].
      apply pre_inv in P. destruct P as (s & ->). rewrite <- app_assoc, pre_app in S. discriminate.
    + rewrite P in S. discriminate.
Qed.

(** the whole content at q is untouched *)
Definition leaves (q : path) (o : op) : bool :=
  incomp (cell o) q ||
  match o with
  | ODef p k (VDict []) => pre (p ++ [k]) q && negb (pre q (p ++ [k]))
  | _ => false
  end.
Lemma leaves_eq o d q : known (opath o) d -> leaves q o = true -> dpget q (ap o d) = dpget q d.
Proof.
  intros K L. unfold leaves in L. apply orb_true_iff in L. destruct L as [L|L]; [apply dpget_ap_incomp; exact L|].
  destruct o as [p k v|p k v]; [discriminate|]. destruct v; try discriminate. destruct d0; [|discriminate].
  apply andb_true_iff in L. destruct L as [L1 L2]. apply pre_inv in L1. destruct L1 as (s & ->).
  destruct s as [|a s]; [rewrite app_nil_r, pre_refl in L2; discriminate|].
  rewrite <- app_assoc. cbn [app opath] in *. rewrite dpget_def_below by exact K.
  unfold dpget. replace (p ++ k :: a :: s) with ((p ++ [k]) ++ a :: s) by (rewrite <- app_assoc; reflexivity).
  rewrite (pget_app (p ++ [k]) (a :: s)). destruct (pget (p ++ [k]) (VDict d)); reflexivity.
Qed.

(** a run in which every operation finds its dictionary *)
Fixpoint valid (l : list op) (d : dict) : Prop :=
  match l with [] => True | o :: l' => known (opath o) d /\ valid l' (ap o d) end.
Lemma valid_app a b d : valid (a ++ b) d <-> valid a d /\ valid b (aps a d).
Proof. revert d; induction a as [|o a IH]; intros d; cbn [app valid aps]; [tauto|]. rewrite IH. tauto. Qed.

Lemma aps_leaves l : forall d q, valid l d -> forallb (leaves q) l = true -> dpget q (aps l d) = dpget q d.
Proof.
  induction l as [|o l IH]; intros d q V L; [reflexivity|]. cbn [forallb valid aps] in *.
  apply andb_true_iff in L. rewrite IH by tauto. apply leaves_eq; tauto.
Qed.
Lemma aps_skips l : forall d q v, valid l d -> forallb (skips q) l = true -> dpget q d = Some v -> dpget q (aps l d) = Some v.
Proof.
  induction l as [|o l IH]; intros d q v V L G; [exact G|]. cbn [forallb valid aps] in *.
  apply andb_true_iff in L. apply IH; [tauto..|]. apply skips_some; tauto.
Qed.

(** value written last: [l] is reversed (latest first) *)
Fixpoint strip_pre (p q : path) : option path :=
  match p, q with
  | [], _ => Some q
  | a :: p', b :: q' => if key_eqb a b then strip_pre p' q' else None
  | _, [] => None
  end.
Lemma strip_pre_eq p q s : strip_pre p q = Some s -> q = p ++ s.
Proof.
  revert q; induction p as [|a p IH]; intros q H; cbn [strip_pre] in H; [injection H as ->; reflexivity|].
  destruct q as [|b q]; [discriminate|]. destruct (key_eqb a b) eqn:E; [|discriminate].
  apply key_eqb_eq in E. subst. cbn [app]. f_equal. apply IH. exact H.
Qed.
Fixpoint lastw (q : path) (r : list op) : option pv :=
  match r with
  | [] => None
  | o :: r' =>
      match o with
      | OSet p k v =>
          match strip_pre (p ++ [k]) q with
          | Some s => pget s v
          | None => if pre q p then None else lastw q r'
          end
      | ODef p k v => if pre q p then None else lastw q r'
      end
  end.
Lemma strip_pre_none p q : strip_pre p q = None -> pre p q = false.
Proof.
  revert q; induction p as [|a p IH]; intros q H; cbn [strip_pre pre] in *; [discriminate|].
  destruct q as [|b q]; [reflexivity|]. destruct (key_eqb a b); [cbn [andb]; apply IH; exact H | reflexivity].
Qed.
Lemma lastw_sound r : forall d q v, valid (rev r) d -> lastw q r = Some v -> dpget q (aps (rev r) d) = Some v.
Proof.
  induction r as [|o r IH]; intros d q v V L; cbn [lastw rev] in *; [discriminate|].
  rewrite aps_app. cbn [aps]. apply valid_app in V. destruct V as [V [K _]].
  destruct o as [p k w|p k w].
  - destruct (strip_pre (p ++ [k]) q) as [s|] eqn:E.
    + apply strip_pre_eq in E. subst q. rewrite <- app_assoc. cbn [app]. rewrite dpget_set_below by exact K. exact L.
    + destruct (pre q p) eqn:F; [discriminate|]. apply skips_some; [exact K| |apply IH; assumption].
      cbn [skips]. apply strip_pre_none in E. unfold incomp. rewrite E. cbn [negb andb].
      destruct (pre q (p ++ [k])) eqn:G; [|reflexivity]. exfalso.
      destruct (path_cases (OSet p k w) q) as [I|[(s & ->)|P]].
      * unfold incomp, cell in I. cbn [opath okey] in I. rewrite G, andb_false_r in I. discriminate.
      * cbn [opath okey] in *. replace (p ++ k :: s) with ((p ++ [k]) ++ s) in E by (rewrite <- app_assoc; reflexivity).
        rewrite pre_app in E. discriminate.
      * cbn [opath] in P. congruence.
  - destruct (pre q p) eqn:F; [discriminate|]. apply skips_some; [exact K| |apply IH; assumption].
    cbn [skips]. rewrite F. reflexivity.
Qed.
Lemma lastw_app q a b : forallb (skips q) a = true -> lastw q (a ++ b) = lastw q b.
Proof.
  induction a as [|o a IH]; cbn [forallb app lastw]; [reflexivity|].
  rewrite andb_true_iff. intros [S A]. destruct o as [p k v|p k v]; cbn [skips] in S.
  - unfold incomp in S. apply andb_true_iff in S. destruct S as [S1 S2].
    destruct (strip_pre (p ++ [k]) q) as [s|] eqn:E.
    + apply strip_pre_eq in E. subst q. rewrite pre_app in S1. discriminate.
    + destruct (pre q p) eqn:F; [|apply IH; exact A]. exfalso.
      apply pre_inv in F. destruct F as (s & ->). rewrite <- app_assoc, pre_app in S2. discriminate.
  - destruct (pre q p); [discriminate|]. apply IH; exact A.
Qed.
