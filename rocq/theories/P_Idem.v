(** Replaying a run of write operations on its own result changes nothing. *)
From Verif Require Import Py P_Dict.

Definition is_set (o : op) : bool := match o with OSet _ _ _ => true | _ => false end.

(** no operation works below a cell that another operation overwrites *)
Definition flat (l : list op) : Prop :=
  forall o o', In o l -> In o' l -> is_set o = true -> pre (cell o) (opath o') = false.

Definition has (q : path) (d : dict) : Prop := dpget q d <> None.
Definition there (o : op) (d : dict) : Prop := known (opath o) d /\ has (cell o) d.

Lemma umap_id p g d : (forall dd, dpget p d = Some (VDict dd) -> g dd = dd) -> umap p g d = d.
Proof.
  revert d; induction p as [|k p IH]; intros d H; cbn [umap].
  - apply H. reflexivity.
  - destruct (dget k d) as [v|] eqn:E; [|reflexivity]. destruct v; try reflexivity.
    rewrite (IH d0); [apply dset_same; exact E|]. intros dd G. apply H. unfold dpget. cbn [pget]. rewrite E. exact G.
Qed.

Lemma has_cell p k d dd : dpget p d = Some (VDict dd) -> has (p ++ [k]) d -> din k dd = true.
Proof. unfold has, dpget, din. rewrite pget_app. intros ->. cbn [pget]. destruct (dget k dd); [reflexivity|congruence]. Qed.

Lemma def_absorbed p k v d : there (ODef p k v) d -> ap (ODef p k v) d = d.
Proof.
  intros [K H]. unfold ap. cbn [opath ofun] in *. unfold cell in H. cbn [opath okey] in H.
  apply umap_id. intros dd G. rewrite (has_cell _ _ _ _ G H). reflexivity.
Qed.
Lemma set_absorbed p k v d : dpget (p ++ [k]) d = Some v -> ap (OSet p k v) d = d.
Proof.
  intros H. unfold ap. cbn [opath ofun]. apply umap_id. intros dd G. apply dset_same.
  unfold dpget in *. rewrite pget_app, G in H. cbn [pget] in H. destruct (dget k dd); [exact H|discriminate].
Qed.

Lemma umap_comp p g h d : umap p g (umap p h d) = umap p (fun x => g (h x)) d.
Proof.
  revert d; induction p as [|k p IH]; intros d; cbn [umap]; [reflexivity|].
  destruct (dget k d) as [v|] eqn:E; [|rewrite E; reflexivity].
  destruct v; try (rewrite E; reflexivity).
  rewrite dget_dset, key_eqb_refl, IH, dset_dset. reflexivity.
Qed.
Lemma umap_ext p g h d : (forall x, g x = h x) -> umap p g d = umap p h d.
Proof.
  intros H. revert d; induction p as [|k p IH]; intros d; cbn [umap]; [apply H|].
  destruct (dget k d) as [v|]; [|reflexivity]. destruct v; try reflexivity. rewrite IH. reflexivity.
Qed.
Lemma set_overwrites p k v w d : ap (OSet p k w) (ap (OSet p k v) d) = ap (OSet p k w) d.
Proof.
  unfold ap. cbn [opath ofun]. rewrite umap_comp. apply umap_ext. intros x. apply dset_dset.
Qed.

Lemma set_comm p k v p' k' v' d :
  there (OSet p k v) d -> there (OSet p' k' v') d -> incomp (p ++ [k]) (p' ++ [k']) = true ->
  ap (OSet p k v) (ap (OSet p' k' v') d) = ap (OSet p' k' v') (ap (OSet p k v) d).
Proof.
  unfold there, ap, cell, has. cbn [opath okey ofun]. unfold incomp. rewrite andb_true_iff, !negb_true_iff.
  revert p' d; induction p as [|a p IH]; intros p' d [K H] [K' H'] [I1 I2].
  - destruct p' as [|b p']; cbn [app pre umap] in *.
    + rewrite andb_true_r in *. unfold dpget in H, H'. cbn [pget] in H, H'.
      apply dset_comm; [exact I1|..]; unfold din; [destruct (dget k d) | destruct (dget k' d)]; congruence.
    + rewrite andb_true_r in I1. apply known_cons in K'. destruct K' as (d1 & E & K').
      rewrite E, dget_dset. rewrite key_eqb_sym, I1, E. apply dset_comm; [exact I1|..]; unfold din.
      * unfold dpget in H. cbn [pget] in H. destruct (dget k d); congruence.
      * rewrite E. reflexivity.
  - destruct p' as [|b p']; cbn [app pre umap] in *.
    + rewrite andb_true_r in I2. apply known_cons in K. destruct K as (d1 & E & K).
      rewrite E, dget_dset. rewrite key_eqb_sym, I2, E. symmetry. apply dset_comm; [exact I2|..]; unfold din.
      * unfold dpget in H'. cbn [pget] in H'. destruct (dget k' d); congruence.
      * rewrite E. reflexivity.
    + apply known_cons in K, K'. destruct K as (d1 & E & K), K' as (d2 & E' & K').
      rewrite E, E'. destruct (key_eqb a b) eqn:F.
      * apply key_eqb_eq in F. subst b. rewrite E in E'. injection E' as <-.
        rewrite !dget_dset, !key_eqb_refl, !dset_dset. rewrite key_eqb_refl in *. cbn [andb] in *.
        f_equal. f_equal. apply IH; [..|auto]; split; try assumption.
        -- unfold dpget in *. cbn [pget] in H. rewrite E in H. exact H.
        -- unfold dpget in *. cbn [pget] in H'. rewrite E in H'. exact H'.
      * rewrite !dget_dset. rewrite (key_eqb_sym b a), F, E, E'.
        apply dset_comm; [exact F|..]; unfold din; [rewrite E | rewrite E']; reflexivity.
Qed.

Lemma flat_incomp l o o' : flat l -> In o l -> In o' l -> is_set o = true -> is_set o' = true ->
  cell o <> cell o' -> incomp (cell o) (cell o') = true.
Proof.
  intros F I I' S S' N.
  assert (G : forall x y, In x l -> In y l -> is_set x = true -> cell x <> cell y -> pre (cell x) (cell y) = false).
  { intros x y X Y Sx Nxy. destruct (pre (cell x) (cell y)) eqn:E; [exfalso|reflexivity].
    destruct (path_cases y (cell x)) as [C|[(s & C)|C]].
    - unfold incomp in C. rewrite E, andb_false_r in C. discriminate.
    - apply Nxy. apply pre_antisym; [exact E|]. rewrite C. unfold cell.
      replace (opath y ++ okey y :: s) with ((opath y ++ [okey y]) ++ s) by (rewrite <- app_assoc; reflexivity).
      apply pre_app.
    - rewrite (F x y X Y Sx) in C. discriminate. }
  unfold incomp. rewrite (G o o'), (G o' o) by (auto; congruence). reflexivity.
Qed.

Lemma known_kept l o o' d : flat l -> In o l -> In o' l -> known (opath o) d -> known (opath o') d ->
  known (opath o) (ap o' d).
Proof.
  intros F I I' K K'. destruct (path_cases o' (opath o)) as [C|[(s & C)|C]].
  - unfold known in *. rewrite dpget_ap_incomp by exact C. exact K.
  - destruct o' as [p k v|p k v]; cbn [opath okey] in C, K'.
    + exfalso. pose proof (F _ _ I' I eq_refl) as N. unfold cell in N. cbn [opath okey] in N.
      rewrite C in N. replace (p ++ k :: s) with ((p ++ [k]) ++ s) in N by (rewrite <- app_assoc; reflexivity).
      rewrite pre_app in N. discriminate.
    + destruct K as (dd & K). unfold known. rewrite C in K |- *. rewrite dpget_def_below by exact K'.
      unfold dpget in *. replace (p ++ k :: s) with ((p ++ [k]) ++ s) in K by (rewrite <- app_assoc; reflexivity).
      rewrite pget_app in K. destruct (pget (p ++ [k]) (VDict d)); [eauto|discriminate].
  - apply known_umap_above; assumption.
Qed.

Lemma has_kept l o o' d : flat l -> In o l -> In o' l -> has (cell o) d -> known (opath o') d ->
  has (cell o) (ap o' d).
Proof.
  intros F I I' H K'. destruct (path_cases o' (cell o)) as [C|[(s & C)|C]].
  - unfold has in *. rewrite dpget_ap_incomp by exact C. exact H.
  - destruct o' as [p k v|p k v]; cbn [opath okey] in C, K'; unfold has in *; rewrite C in *.
    + rewrite dpget_set_below by exact K'. destruct s as [|a s].
      * discriminate.
      * exfalso. assert (P : pre (p ++ [k]) (opath o) = true).
        { unfold cell in C. destruct (exists_last (l := a :: s)) as (s0 & z & E); [discriminate|].
          rewrite E in C. change (k :: s0 ++ [z]) with ((k :: s0) ++ [z]) in C. rewrite app_assoc in C.
          apply app_inj_tail in C. destruct C as [-> _].
          replace (p ++ k :: s0) with ((p ++ [k]) ++ s0) by (rewrite <- app_assoc; reflexivity). apply pre_app. }
        pose proof (F _ _ I' I eq_refl) as N. unfold cell in N. cbn [opath okey] in N. congruence.
    + rewrite dpget_def_below by exact K'. unfold dpget in *.
      replace (p ++ k :: s) with ((p ++ [k]) ++ s) in H by (rewrite <- app_assoc; reflexivity).
      rewrite pget_app in H. destruct (pget (p ++ [k]) (VDict d)); [exact H|congruence].
  - unfold has. destruct (known_umap_above (opath o') (ofun o') d (cell o) K' C) as (dd & E).
    unfold ap. rewrite E. discriminate.
Qed.

Lemma there_kept l o o' d : flat l -> In o l -> In o' l -> there o d -> known (opath o') d -> there o (ap o' d).
Proof. intros F I I' [K H] K'. split; [eapply known_kept | eapply has_kept]; eauto. Qed.

Lemma there_after o d : known (opath o) d -> there o (ap o d).
Proof.
  intros K. split; [apply known_umap_above; [exact K|apply pre_refl]|].
  unfold has, cell. destruct o as [p k v|p k v]; cbn [opath okey] in *.
  - rewrite dpget_set_below by exact K. discriminate.
  - rewrite dpget_def_below by exact K. destruct (dpget (p ++ [k]) d); discriminate.
Qed.

Lemma all_there l : flat l -> forall a d, incl a l -> valid a d ->
  forall o, In o a -> there o (aps a d).
Proof.
  intros F a. induction a as [|x a IH] using rev_ind; intros d A V o I; [destruct I|].
  rewrite aps_app. cbn [aps]. apply valid_app in V. destruct V as [V [K _]].
  assert (A' : incl a l) by (intros y Y; apply A, in_or_app; auto).
  assert (X : In x l) by (apply A, in_or_app; right; left; reflexivity).
  apply in_app_or in I. destruct I as [I|[<-|[]]].
  - eapply there_kept; eauto.
  - apply there_after. exact K.
Qed.

Definition stays (l : list op) (d : dict) := forall o, In o l -> there o d.

Lemma stays_ap l o d : flat l -> In o l -> stays l d -> stays l (ap o d).
Proof. intros F I S x X. eapply there_kept; eauto. apply S; exact I. Qed.

Lemma path_eq_dec (a b : path) : {a = b} + {a <> b}.
Proof. decide equality. decide equality; [apply string_dec | apply Z.eq_dec]. Defined.

(** a write that is overwritten later has no effect *)
Lemma overwritten l : flat l -> forall a o d, incl a l -> In o l -> is_set o = true -> stays l d ->
  (exists o', In o' a /\ is_set o' = true /\ cell o' = cell o) ->
  aps a (ap o d) = aps a d.
Proof.
  intros F a. induction a as [|x a IH]; intros o d A I S ST (o' & I' & S' & C'); [destruct I'|].
  cbn [aps]. assert (X : In x l) by (apply A; left; reflexivity).
  assert (A' : incl a l) by (intros y Y; apply A; right; exact Y).
  destruct x as [p k v|p k v].
  - destruct (path_eq_dec (cell (OSet p k v)) (cell o)) as [E|N].
    + destruct o as [p0 k0 v0|]; [|discriminate]. unfold cell in E. cbn [opath okey] in E.
      apply app_inj_tail in E. destruct E as [<- <-]. rewrite set_overwrites. reflexivity.
    + destruct I' as [<-|I']; [congruence|].
      destruct o as [p0 k0 v0|]; [|discriminate].
      rewrite (set_comm p k v p0 k0 v0 d (ST _ X) (ST _ I)
                 (flat_incomp l (OSet p k v) (OSet p0 k0 v0) F X I eq_refl eq_refl N)).
      apply IH; try assumption; [apply stays_ap; assumption|]. exists o'. auto.
  - destruct I' as [<-|I']; [discriminate|].
    rewrite !def_absorbed; [| apply ST; exact X | apply (stays_ap l); [assumption..|exact X] ].
    apply IH; try assumption. exists o'. auto.
Qed.

Lemma last_value l : flat l -> forall b d o, incl b l -> In o l -> is_set o = true -> valid b d ->
  (forall o', In o' b -> is_set o' = true -> cell o' <> cell o) ->
  forall v, dpget (cell o) d = Some v -> dpget (cell o) (aps b d) = Some v.
Proof.
  intros F b d o B I S V N v G. apply aps_skips; [exact V| |exact G].
  apply forallb_forall. intros o' I'. destruct o' as [p k w|p k w]; cbn [skips].
  - pose proof (flat_incomp l (OSet p k w) o F (B _ I') I eq_refl S (N _ I' eq_refl)) as Q. exact Q.
  - pose proof (F o (ODef p k w) I (B _ I') S) as Q. cbn [opath] in Q. rewrite Q. reflexivity.
Qed.

(** Replaying a run on its own result changes nothing. *)
Theorem replay l d : flat l -> valid l d -> aps l (aps l d) = aps l d.
Proof.
  intros F V. set (d1 := aps l d).
  assert (ST : stays l d1) by (intros o I; apply (all_there l F l d (incl_refl l) V o I)).
  assert (G : forall a b, l = a ++ b -> aps b d1 = d1).
  { intros a b. revert a. induction b as [|o b IH]; intros a E; [reflexivity|]. cbn [aps].
    assert (Eb : aps b d1 = d1) by (apply (IH (a ++ [o])); rewrite <- app_assoc; exact E).
    assert (Io : In o l) by (rewrite E; apply in_or_app; right; left; reflexivity).
    assert (B : incl b l) by (intros y Y; rewrite E; apply in_or_app; right; right; exact Y).
    destruct o as [p k v|p k v].
    - destruct (Exists_dec (fun o' => is_set o' = true /\ cell o' = cell (OSet p k v)) b) as [X|X].
      { intros o'. destruct (is_set o') eqn:So; [|right; intros [? _]; discriminate].
        destruct (path_eq_dec (cell o') (cell (OSet p k v))); [left; auto | right; tauto]. }
      + apply Exists_exists in X. destruct X as (o' & X1 & X2).
        rewrite (overwritten l F b (OSet p k v) d1 B Io eq_refl ST); [exact Eb|]. exists o'. auto.
      + rewrite set_absorbed; [exact Eb|].
        assert (E1 : d1 = aps b (ap (OSet p k v) (aps a d))).
        { unfold d1. rewrite E, aps_app. reflexivity. }
        rewrite E in V. apply valid_app in V. destruct V as [_ [K V]].
        rewrite E1. apply (last_value l F b _ (OSet p k v) B Io eq_refl V).
        * intros o' I' S' C. apply X. apply Exists_exists. exists o'. auto.
        * unfold cell. cbn [opath okey]. rewrite dpget_set_below by exact K. reflexivity.
    - rewrite def_absorbed; [exact Eb|]. apply ST. exact Io. }
  apply (G [] l). reflexivity.
Qed.
