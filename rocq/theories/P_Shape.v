(** Well-shaped data is preserved by the decoders' operations; executions as lists of operations. *)
From Verif Require Import Py F64 Struct Utf Utility Const Enum Decode Shape P_Base P_Util P_Dict P_Idem.

Definition contb (q : path) : bool :=
  existsb (fun x => match snd x with KCont => matchp (fst x) q | _ => false end) table.

Fixpoint strip_pat (r : list pat) (c : path) {struct c} : option (list pat) :=
  match c with
  | [] => Some r
  | a :: c' =>
      match r with
      | PK k :: r' => if key_eqb k a then strip_pat r' c' else None
      | PAny :: r' => match a with KI _ => strip_pat r' c' | _ => None end
      | [] => None
      end
  end.
Lemma matchp_app r c s : matchp r (c ++ s) = match strip_pat r c with Some r' => matchp r' s | None => false end.
Proof.
  revert r; induction c as [|a c IH]; intros r; cbn [app strip_pat]; [reflexivity|].
  destruct r as [|[k|] r]; cbn [matchp]; [reflexivity|..].
  - destruct (key_eqb k a); cbn [andb]; [apply IH|reflexivity].
  - destruct a; [reflexivity|apply IH].
Qed.

Fixpoint below_ok (r : list pat) (k : kd) (v : pv) : bool :=
  match r with
  | [] => okkd k v
  | PK a :: r' => match v with
                  | VDict dd => match dget a dd with Some v' => below_ok r' k v' | None => true end
                  | _ => true
                  end
  | PAny :: r' => match v with
                  | VDict dd => forallb (fun x => match fst x with KI _ => below_ok r' k (snd x) | _ => true end) dd
                  | _ => true
                  end
  end.
Lemma dget_In a dd v : dget a dd = Some v -> In (a, v) dd.
Proof.
  induction dd as [|[b w] dd IH]; cbn [dget]; [discriminate|].
  destruct (key_eqb a b) eqn:E; intros H.
  - apply key_eqb_eq in E. injection H as ->. subst. left; reflexivity.
  - right. apply IH. exact H.
Qed.
Lemma below_sound r k : forall v s w, below_ok r k v = true -> matchp r s = true -> pget s v = Some w -> okkd k w = true.
Proof.
  induction r as [|[a|] r IH]; intros v s w B M G; destruct s as [|b s]; cbn [matchp] in M; try discriminate.
  - cbn in G. injection G as <-. exact B.
  - apply andb_true_iff in M. destruct M as [E M]. apply key_eqb_eq in E. subst b.
    cbn [pget below_ok] in *. destruct v; try discriminate. destruct (dget a d) as [x|]; [|discriminate].
    eapply IH; eauto.
  - destruct b as [b|z]; [discriminate|]. cbn [pget below_ok] in *. destruct v; try discriminate.
    destruct (dget (KI z) d) as [x|] eqn:E; [|discriminate]. apply dget_In in E.
    rewrite forallb_forall in B. specialize (B _ E). cbn [fst snd] in B. eapply IH; eauto.
Qed.
Definition sub_ok (c : path) (v : pv) : bool :=
  forallb (fun x => match strip_pat (fst x) c with Some r' => below_ok r' (snd x) v | None => true end) table.
Lemma sub_sound c v r k s w : sub_ok c v = true -> In (r, k) table -> matchp r (c ++ s) = true ->
  pget s v = Some w -> okkd k w = true.
Proof.
  intros S I M G. unfold sub_ok in S. rewrite forallb_forall in S. specialize (S _ I). cbn [fst snd] in S.
  rewrite matchp_app in M. destruct (strip_pat r c) as [r'|]; [|discriminate]. eapply below_sound; eauto.
Qed.

(** the table is closed under prefixes *)
Fixpoint pats_eqb (a b : list pat) : bool :=
  match a, b with
  | [], [] => true
  | PK x :: a', PK y :: b' => key_eqb x y && pats_eqb a' b'
  | PAny :: a', PAny :: b' => pats_eqb a' b'
  | _, _ => false
  end.
Lemma pats_eqb_eq a b : pats_eqb a b = true -> a = b.
Proof.
  revert b; induction a as [|[x|] a IH]; intros [|[y|] b] H; cbn [pats_eqb] in H; try discriminate; [reflexivity|..].
  - apply andb_true_iff in H. destruct H as [E H]. apply key_eqb_eq in E. subst. f_equal. apply IH. exact H.
  - f_equal. apply IH. exact H.
Qed.
Lemma table_closed : forallb (fun x => match snd x with
    | KCont => forallb (fun n => existsb (fun y => match snd y with KCont => pats_eqb (fst y) (firstn n (fst x)) | _ => false end) table)
                 (seq 0 (S (List.length (fst x))))
    | _ => true end) table = true.
Proof. vm_compute. reflexivity. Qed.
Lemma matchp_len r q : matchp r q = true -> List.length r = List.length q.
Proof.
  revert q; induction r as [|[k|] r IH]; intros [|a q] H; cbn [matchp List.length] in *; try discriminate; [reflexivity|..].
  - apply andb_true_iff in H. f_equal. apply IH. tauto.
  - destruct a; [discriminate|]. f_equal. apply IH. exact H.
Qed.
Lemma matchp_firstn r q s : matchp r (q ++ s) = true -> matchp (firstn (List.length q) r) q = true.
Proof.
  revert r; induction q as [|a q IH]; intros r H; cbn [List.length firstn app] in *; [reflexivity|].
  destruct r as [|[k|] r]; cbn [matchp] in *; [discriminate|..].
  - apply andb_true_iff in H. destruct H as [-> H]. cbn [andb]. apply IH. exact H.
  - destruct a; [discriminate|]. apply IH. exact H.
Qed.
Lemma contb_pre q s : contb (q ++ s) = true -> contb q = true.
Proof.
  unfold contb. rewrite !existsb_exists. intros ([r k] & I & M). cbn [fst snd] in M.
  pose proof table_closed as T. rewrite forallb_forall in T. specialize (T _ I). cbn [fst snd] in T.
  destruct k; try discriminate. rewrite forallb_forall in T.
  assert (L : In (List.length q) (seq 0 (S (List.length r)))).
  { apply in_seq. apply matchp_len in M. rewrite M, app_length. lia. }
  specialize (T _ L). apply existsb_exists in T. destruct T as ([r' k'] & I' & E). cbn [fst snd] in E.
  destruct k'; try discriminate. apply pats_eqb_eq in E. exists (r', KCont). split; [exact I'|]. cbn [fst snd].
  rewrite E. eapply matchp_firstn. exact M.
Qed.
Lemma contb_shape q v d : contb q = true -> Shape d -> dpget q d = Some v -> exists dd, v = VDict dd.
Proof.
  unfold contb. rewrite existsb_exists. intros ([r k] & I & M) Sh G. cbn [fst snd] in M. destruct k; try discriminate.
  specialize (Sh _ _ _ _ I M G). destruct v; try discriminate. eauto.
Qed.

Definition good (o : op) : bool :=
  match o with
  | OSet p k v => contb p && negb (contb (p ++ [k])) && sub_ok (p ++ [k]) v
  | ODef p k v => contb p && sub_ok (p ++ [k]) v
  end.

Lemma okkd_dict k a b : okkd k (VDict a) = okkd k (VDict b). Proof. destruct k; reflexivity. Qed.

Lemma good_shape o d : good o = true -> known (opath o) d -> Shape d -> Shape (ap o d).
Proof.
  intros G K Sh r k q v I M V. destruct (path_cases o q) as [C|[(s & ->)|C]].
  - rewrite dpget_ap_incomp in V by exact C. eapply Sh; eauto.
  - assert (S : sub_ok (opath o ++ [okey o]) (match o with OSet _ _ w | ODef _ _ w => w end) = true).
    { destruct o; cbn [good opath okey] in *; repeat rewrite andb_true_iff in G; tauto. }
    replace (opath o ++ okey o :: s) with ((opath o ++ [okey o]) ++ s) in M by (rewrite <- app_assoc; reflexivity).
    destruct o as [p a w|p a w]; cbn [opath okey] in *.
    + rewrite dpget_set_below in V by exact K. eapply sub_sound; eauto.
    + rewrite dpget_def_below in V by exact K. destruct (dpget (p ++ [a]) d) as [x|] eqn:E.
      * eapply (Sh r k ((p ++ [a]) ++ s) v I M). unfold dpget in *. rewrite pget_app, E. exact V.
      * eapply sub_sound; eauto.
  - pose proof (known_pre _ _ _ K C) as (dd & E).
    pose proof (Sh _ _ _ _ I M E) as O.
    destruct (known_umap_above (opath o) (ofun o) d q K C) as (dd' & E').
    unfold ap in V. rewrite E' in V. injection V as <-. rewrite (okkd_dict k dd' dd). exact O.
Qed.

Lemma good_known o d q : good o = true -> known (opath o) d -> contb q = true -> known q d -> known q (ap o d).
Proof.
  intros G K Cq Kq. destruct (path_cases o q) as [C|[(s & ->)|C]].
  - unfold known in *. rewrite dpget_ap_incomp by exact C. exact Kq.
  - destruct o as [p a w|p a w]; cbn [opath okey good] in *.
    + exfalso. replace (p ++ a :: s) with ((p ++ [a]) ++ s) in Cq by (rewrite <- app_assoc; reflexivity).
      apply contb_pre in Cq. rewrite Cq in G. cbn [negb] in G. rewrite andb_false_r in G. discriminate.
    + unfold known in *. rewrite dpget_def_below by exact K. destruct Kq as (dd & Kq).
      replace (p ++ a :: s) with ((p ++ [a]) ++ s) in Kq by (rewrite <- app_assoc; reflexivity).
      unfold dpget in *. rewrite pget_app in Kq. destruct (pget (p ++ [a]) (VDict d)); [eauto|discriminate].
  - apply known_umap_above; assumption.
Qed.

Lemma good_path_cont o : good o = true -> contb (opath o) = true.
Proof. destruct o; cbn [good opath]; repeat rewrite andb_true_iff; tauto. Qed.

Lemma good_flat l : forallb good l = true -> flat l.
Proof.
  intros G o o' I I' S. rewrite forallb_forall in G. pose proof (G _ I) as Go. pose proof (G _ I') as Go'.
  destruct o as [p k v|]; [|discriminate]. cbn [good] in Go. repeat rewrite andb_true_iff in Go.
  destruct Go as [[_ N] _]. destruct (pre (cell (OSet p k v)) (opath o')) eqn:E; [exfalso|reflexivity].
  apply pre_inv in E. destruct E as (s & E). apply good_path_cont in Go'. rewrite E in Go'. apply contb_pre in Go'.
  unfold cell in Go'. cbn [opath okey] in Go'. rewrite Go' in N. discriminate.
Qed.

Lemma goods_shape l : forall d, forallb good l = true -> valid l d -> Shape d -> Shape (aps l d).
Proof.
  induction l as [|o l IH]; intros d G V S; [exact S|]. cbn [forallb valid aps] in *.
  apply andb_true_iff in G. apply IH; [tauto..|]. apply good_shape; tauto.
Qed.
Lemma goods_known l : forall d q, forallb good l = true -> valid l d -> contb q = true -> known q d -> known q (aps l d).
Proof.
  induction l as [|o l IH]; intros d q G V C K; [exact K|]. cbn [forallb valid aps] in *.
  apply andb_true_iff in G. apply IH; [tauto..|]. apply good_known; tauto.
Qed.

(** ---- executions of decoder code as lists of operations ---- *)
Definition knows (K : list path) (d : dict) : Prop := forall p, In p K -> contb p = true /\ known p d.
Definition same (Q : list path) (d d' : dict) : Prop := forall q, In q Q -> dpget q d = dpget q d'.
Definition okop (Q : list path) (o : op) : bool := good o && forallb (fun q => leaves q o) Q.

Lemma knows_goods K l d : forallb good l = true -> valid l d -> knows K d -> knows K (aps l d).
Proof. intros G V H p I. destruct (H p I) as [C Kn]. split; [exact C|]. apply goods_known; assumption. Qed.
Lemma okops_good Q l : forallb (okop Q) l = true -> forallb good l = true.
Proof.
  rewrite !forallb_forall. intros H o I. specialize (H o I). unfold okop in H. apply andb_true_iff in H. tauto.
Qed.
Lemma okops_same Q l d : forallb (okop Q) l = true -> valid l d -> same Q d (aps l d).
Proof.
  intros H V q I. symmetry. apply aps_leaves; [exact V|]. rewrite forallb_forall in *. intros o Io.
  specialize (H o Io). unfold okop in H. apply andb_true_iff in H. destruct H as [_ H].
  rewrite forallb_forall in H. apply H. exact I.
Qed.

(** [m], run on well-shaped data where the dictionaries [K] exist, performs a list of
    operations (all [okop Q]) that depends on the data at the places [Q] only. *)
Definition traced (Q K : list path) {A} (m : DM A) (K' : list path) : Prop :=
  forall d, Shape d -> knows K d ->
  exists ops r, forallb (okop Q) ops = true
   /\ (forall d', Shape d' -> knows K d' -> same Q d d' ->
       valid ops d' /\ m d' = (aps ops d', r) /\ (forall a, r = Ok a -> knows K' (aps ops d'))).

Lemma same_refl Q d : same Q d d. Proof. intros q _. reflexivity. Qed.
Lemma same_trans Q a b c : same Q a b -> same Q b c -> same Q a c.
Proof. intros H1 H2 q I. rewrite (H1 q I). apply H2. exact I. Qed.
Lemma same_sym Q a b : same Q a b -> same Q b a.
Proof. intros H q I. symmetry. apply H. exact I. Qed.

Lemma tr_res Q K {A} (r : res A) K' : incl K' K -> traced Q K (dlift r) K'.
Proof.
  intros I d S Kn. exists [], r. split; [reflexivity|]. intros d' S' Kn' _. cbn [aps valid].
  split; [exact Logic.I|]. split; [reflexivity|]. intros _ _ p P. apply Kn'. apply I. exact P.
Qed.
Lemma tr_ret Q K {A} (a : A) K' : incl K' K -> traced Q K (dret a) K'.
Proof. intros I. apply (tr_res Q K (Ok a) K' I). Qed.
Lemma tr_rdata Q K {A} (f : dict -> res A) :
  (forall d d', Shape d -> Shape d' -> same Q d d' -> f d = f d') -> traced Q K (rdata f) K.
Proof.
  intros F d S Kn. exists [], (f d). split; [reflexivity|]. intros d' S' Kn' Sm. cbn [aps valid].
  split; [exact I|]. split; [|auto].
  unfold rdata, dbind, dread, dlift. rewrite (F d d') by assumption. reflexivity.
Qed.
Lemma okop_good Q o : okop Q o = true -> forallb good [o] = true.
Proof. unfold okop. intros H. apply andb_true_iff in H. destruct H as [H _]. cbn [forallb]. rewrite H. reflexivity. Qed.
Lemma tr_assign Q K p k v : In p K -> okop Q (OSet p k v) = true -> traced Q K (assign p k v) K.
Proof.
  intros P O d S Kn. exists [OSet p k v], (Ok tt). split; [cbn [forallb]; rewrite O; reflexivity|].
  intros d' S' Kn' _. destruct (Kn' p P) as [_ Kp].
  assert (V : valid [OSet p k v] d') by (cbn [valid opath]; auto).
  split; [exact V|]. split; [cbn [aps]; apply assign_ap; exact Kp|].
  intros _ _. apply knows_goods; [eapply okop_good; eauto|exact V|exact Kn'].
Qed.
Lemma tr_setdef_leaf Q K p k v : In p K -> okop Q (ODef p k v) = true -> traced Q K (setdefault p k v) K.
Proof.
  intros P O d S Kn. exists [ODef p k v], (Ok tt). split; [cbn [forallb]; rewrite O; reflexivity|].
  intros d' S' Kn' _. destruct (Kn' p P) as [_ Kp].
  assert (V : valid [ODef p k v] d') by (cbn [valid opath]; auto).
  split; [exact V|]. split; [cbn [aps]; apply setdefault_ap; exact Kp|].
  intros _ _. apply knows_goods; [eapply okop_good; eauto|exact V|exact Kn'].
Qed.
Lemma def_known p k dd d : contb (p ++ [k]) = true -> known p d -> Shape d ->
  known (p ++ [k]) (ap (ODef p k (VDict dd)) d).
Proof.
  intros C Kp S'. unfold known. rewrite dpget_def_below by exact Kp.
  destruct (dpget (p ++ [k]) d) as [w|] eqn:E; cbn [pget]; [|eauto].
  destruct (contb_shape _ _ _ C S' E) as (x & ->). eauto.
Qed.
Lemma tr_setdef Q K p k dd : In p K -> okop Q (ODef p k (VDict dd)) = true -> contb (p ++ [k]) = true ->
  traced Q K (setdefault p k (VDict dd)) ((p ++ [k]) :: K).
Proof.
  intros P O C d S Kn. exists [ODef p k (VDict dd)], (Ok tt). split; [cbn [forallb]; rewrite O; reflexivity|].
  intros d' S' Kn' _. destruct (Kn' p P) as [_ Kp].
  assert (V : valid [ODef p k (VDict dd)] d') by (cbn [valid opath]; auto).
  split; [exact V|]. split; [cbn [aps]; apply setdefault_ap; exact Kp|].
  intros _ _ x [<-|X].
  - split; [exact C|]. cbn [aps]. apply def_known; assumption.
  - revert x X. apply knows_goods; [eapply okop_good; eauto|exact V|exact Kn'].
Qed.
Lemma tr_bind Q K K' K'' {A B} (m : DM A) (f : A -> DM B) :
  traced Q K m K' -> (forall a, traced Q K' (f a) K'') -> traced Q K (dbind m f) K''.
Proof.
  intros M F d S Kn. destruct (M d S Kn) as (ops & r & O & R).
  destruct r as [a|e].
  - destruct (R d S Kn (same_refl Q d)) as (V & E & KK).
    destruct (F a (aps ops d)) as (ops2 & r2 & O2 & R2).
    { apply goods_shape; [eapply okops_good; eauto|exact V|exact S]. }
    { apply (KK a eq_refl). }
    exists (ops ++ ops2), r2. split; [rewrite forallb_app, O, O2; reflexivity|].
    intros d' S' Kn' Sm. destruct (R d' S' Kn' Sm) as (V' & E' & KK').
    destruct (R2 (aps ops d')) as (V2 & E2 & KK2).
    { apply goods_shape; [eapply okops_good; eauto|exact V'|exact S']. }
    { apply (KK' a eq_refl). }
    { eapply same_trans; [apply same_sym; apply okops_same; eassumption|].
      eapply same_trans; [exact Sm|]. apply okops_same; assumption. }
    rewrite aps_app. split; [apply valid_app; auto|]. split; [|exact KK2].
    unfold dbind. rewrite E'. exact E2.
  - exists ops, (Err e). split; [exact O|]. intros d' S' Kn' Sm. destruct (R d' S' Kn' Sm) as (V' & E' & KK').
    split; [exact V'|]. split; [unfold dbind; rewrite E'; reflexivity | discriminate].
Qed.
Lemma tr_weaken Q K {A} (m : DM A) K' K1 K2 : traced Q K m K' -> incl K K1 -> incl K2 K' -> traced Q K1 m K2.
Proof.
  intros M I1 I2 d S Kn. assert (Kn' : knows K d) by (intros p P; apply Kn, I1, P).
  destruct (M d S Kn') as (ops & r & O & R). exists ops, r. split; [exact O|].
  intros d' S' Kd Sm. destruct (R d' S') as (V & E & KK); [intros p P; apply Kd, I1, P|exact Sm|].
  split; [exact V|]. split; [exact E|]. intros a Ea p P. apply (KK a Ea), I2, P.
Qed.
Lemma tr_widen Q K {A} (m : DM A) K' K2 : traced Q K m K' -> incl K2 K' -> traced Q K m K2.
Proof. intros T I. eapply tr_weaken; [exact T | apply incl_refl | exact I]. Qed.
Lemma tr_dloop Q K n : forall i body off, (forall i off, traced Q K (body i off) K) ->
  traced Q K (dloop n i body off) K.
Proof.
  induction n as [|n IH]; intros i body off B; cbn [dloop].
  - apply tr_ret, incl_refl.
  - eapply tr_bind; [apply B|]. intros off'. apply IH. exact B.
Qed.

(** consequences for a whole decoder *)
Definition startK : list path := [[]].
Lemma startK_knows d : knows startK d.
Proof. intros p [<-|[]]. split; [vm_compute; reflexivity | apply known_nil]. Qed.

Lemma traced_shape Q {A} (m : DM A) K' d : traced Q startK m K' -> Shape d -> Shape (fst (m d)).
Proof.
  intros T S. destruct (T d S (startK_knows d)) as (ops & r & O & R).
  destruct (R d S (startK_knows d) (same_refl Q d)) as (V & E & _). rewrite E. cbn [fst].
  apply goods_shape; [eapply okops_good; eauto|exact V|exact S].
Qed.
Lemma traced_idem Q {A} (m : DM A) K' d : traced Q startK m K' -> Shape d ->
  m (fst (m d)) = m d.
Proof.
  intros T S. destruct (T d S (startK_knows d)) as (ops & r & O & R).
  destruct (R d S (startK_knows d) (same_refl Q d)) as (V & E & _). rewrite E. cbn [fst].
  destruct (R (aps ops d)) as (_ & E2 & _).
  - apply goods_shape; [eapply okops_good; eauto|exact V|exact S].
  - apply startK_knows.
  - apply okops_same; assumption.
  - rewrite E2. f_equal. apply replay; [apply good_flat; eapply okops_good; eauto | exact V].
Qed.
