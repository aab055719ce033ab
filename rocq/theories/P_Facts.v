(** Successful executions with the facts they establish and the places they may change. *)
From Verif Require Import Py F64 Struct Utf Utility Const Enum Decode Spec Messages Shape P_Base P_Util P_Str P_Time P_Dict P_Idem P_Shape P_Trace P_Does.

Definition within1 (U : list path) (o : op) : bool :=
  match o with
  | OSet p k _ => existsb (fun u => pre u (p ++ [k])) U
  | ODef p k (VDict []) => existsb (fun u => pre u (p ++ [k]) || pre (p ++ [k]) u) U
  | ODef p k _ => existsb (fun u => pre u (p ++ [k])) U
  end.
Definition within (U : list path) (l : list op) : Prop := forallb (within1 U) l = true.
Definition off_all (U : list path) (q : path) : bool := forallb (fun u => incomp u q) U.
Definition apart (U : list path) (F : list (path * pv)) : Prop := forallb (fun f => off_all U (fst f)) F = true.

Lemma incomp_pre u c q : pre u c = true -> incomp u q = true -> incomp c q = true.
Proof.
  unfold incomp. rewrite !andb_true_iff, !negb_true_iff. intros P [A B].
  split; [destruct (pre c q) eqn:E; [|reflexivity]; rewrite (pre_trans _ _ _ P E) in A; discriminate|].
  destruct (pre q c) eqn:E; [|reflexivity]. exfalso. apply pre_inv in P, E. destruct P as (s & ->), E as (t & E).
  clear - A B E. revert u q E A B. induction u as [|a u IH]; intros q E A B; [discriminate|].
  destruct q as [|b q]; [discriminate|]. cbn [pre app] in *. injection E as -> E. rewrite key_eqb_refl in *.
  cbn [andb] in *. eapply IH; eauto.
Qed.
Lemma within_leaves U l q : within U l -> off_all U q = true -> forallb (leaves q) l = true.
Proof.
  unfold within, off_all. intros W O. rewrite forallb_forall in *. intros o I. specialize (W o I).
  assert (H : forall u c, In u U -> pre u c = true -> incomp c q = true).
  { intros u c Iu P. eapply incomp_pre; [exact P|]. apply O. exact Iu. }
  unfold leaves, cell. destruct o as [p k v|p k v]; cbn [within1 opath okey] in *.
  - apply existsb_exists in W. destruct W as (u & Iu & P). rewrite (H u _ Iu P). reflexivity.
  - assert (G : (exists u, In u U /\ pre u (p ++ [k]) = true) \/
               (v = VDict [] /\ exists u, In u U /\ pre (p ++ [k]) u = true)).
    { destruct v; try (left; apply existsb_exists in W; exact W). destruct d; [|left; apply existsb_exists in W; exact W].
      apply existsb_exists in W. destruct W as (u & Iu & P). apply orb_true_iff in P. destruct P as [P|P]; eauto. }
    destruct G as [(u & Iu & P)|(-> & u & Iu & P)]; [rewrite (H u _ Iu P); reflexivity|].
    specialize (O u Iu). unfold incomp in *. rewrite andb_true_iff, !negb_true_iff in O. destruct O as [A B].
    assert (E : pre q (p ++ [k]) = false).
    { destruct (pre q (p ++ [k])) eqn:E; [|reflexivity]. rewrite (pre_trans _ _ _ E P) in B. discriminate. }
    rewrite E. destruct (pre (p ++ [k]) q); reflexivity.
Qed.
Lemma leaves_skips q o : leaves q o = true -> skips q o = true.
Proof.
  unfold leaves, cell. intros H. apply orb_true_iff in H. destruct o as [p k v|p k v]; cbn [opath okey skips] in *.
  - destruct H as [H|H]; [exact H|discriminate].
  - assert (E : pre q (p ++ [k]) = false).
    { destruct H as [H|H].
      - unfold incomp in H. rewrite andb_true_iff, !negb_true_iff in H. tauto.
      - destruct v; try discriminate. destruct d; [|discriminate]. rewrite andb_true_iff, negb_true_iff in H. tauto. }
    destruct (pre q p) eqn:F; [|reflexivity]. apply pre_inv in F. destruct F as (s & ->).
    rewrite <- app_assoc, pre_app in E. discriminate.
Qed.
Lemma within_skips U l q : within U l -> off_all U q = true -> forallb (skips q) l = true.
Proof.
  intros W O. pose proof (within_leaves U l q W O) as H. rewrite forallb_forall in *. intros o I.
  apply leaves_skips, H, I.
Qed.
Lemma forallb_rev {A} (f : A -> bool) l : forallb f (rev l) = forallb f l.
Proof. induction l as [|a l IH]; [reflexivity|]. cbn [rev forallb]. rewrite forallb_app, IH. cbn. rewrite andb_true_r. apply andb_comm. Qed.
Lemma lastw_some q a b v : lastw q a = Some v -> lastw q (a ++ b) = Some v.
Proof.
  induction a as [|o a IH]; cbn [lastw app]; [discriminate|].
  destruct o as [p k w|p k w].
  - destruct (strip_pre (p ++ [k]) q); [auto|]. destruct (pre q p); auto.
  - destruct (pre q p); auto.
Qed.
Lemma finals_r a b F : finals b F -> finals (a ++ b) F.
Proof.
  unfold finals. intros H. eapply Forall_impl; [|exact H]. intros [q v] L. cbn [fst snd] in *.
  rewrite rev_app_distr. apply lastw_some. exact L.
Qed.
Lemma finals_l a b F U : finals a F -> within U b -> apart U F -> finals (a ++ b) F.
Proof.
  unfold finals, apart. intros H W A. rewrite Forall_forall in *. rewrite forallb_forall in A. intros f I.
  specialize (H f I). specialize (A f I). rewrite rev_app_distr, lastw_app; [exact H|].
  rewrite forallb_rev. eapply within_skips; eauto.
Qed.
Lemma finals_app l F G : finals l F -> finals l G -> finals l (F ++ G).
Proof. unfold finals. intros A B. apply Forall_app. auto. Qed.
Lemma finals_incl l F G : finals l F -> incl G F -> finals l G.
Proof. unfold finals. rewrite !Forall_forall. auto. Qed.
Lemma within_app U V a b : within U a -> within V b -> within (U ++ V) (a ++ b).
Proof.
  unfold within. rewrite forallb_app, andb_true_iff, !forallb_forall. intros A B. split; intros o I.
  - specialize (A o I). destruct o as [p k v|p k v]; cbn [within1] in *; [|destruct v; [..|destruct d]];
      rewrite existsb_app, A; reflexivity.
  - specialize (B o I). destruct o as [p k v|p k v]; cbn [within1] in *; [|destruct v; [..|destruct d]];
      rewrite existsb_app, B; apply orb_true_r.
Qed.
Lemma within_incl U V l : within U l -> incl U V -> within V l.
Proof.
  unfold within. rewrite !forallb_forall. intros A I o O. specialize (A o O).
  destruct o as [p k v|p k v]; cbn [within1] in *; [|destruct v; [..|destruct d]];
    rewrite existsb_exists in *; destruct A as (u & Iu & P); exists u; auto.
Qed.

Definition doesf (W : list (path * option pv)) (K : list path) {A} (m : DM A) (a : A) (K' : list path)
  (F : list (path * pv)) (U : list path) : Prop :=
  exists l, does W K m l a K' /\ finals l F /\ within U l.

Lemma doesf_bind W K K' K'' {A B} (m : DM A) (f : A -> DM B) a b F G U V :
  doesf W K m a K' F U -> doesf W K' (f a) b K'' G V -> apart V F ->
  doesf W K (dbind m f) b K'' (F ++ G) (U ++ V).
Proof.
  intros (l & D & Fi & Wi) (l' & D' & Fi' & Wi') Ap. exists (l ++ l').
  split; [eapply does_bind; eassumption|]. split; [|apply within_app; assumption].
  apply finals_app; [eapply finals_l; eassumption | apply finals_r; exact Fi'].
Qed.
(** a bind where some of the first part's facts are dropped *)
Lemma doesf_sub W K {A} (m : DM A) a K' K2 F G U V :
  doesf W K m a K' F U -> incl G F -> incl U V -> incl K2 K' -> doesf W K m a K2 G V.
Proof.
  intros (l & D & Fi & Wi) I J L. exists l. split; [eapply does_forget; eauto|].
  split; [eapply finals_incl; eauto | eapply within_incl; eauto].
Qed.
Lemma doesf_of W K {A} (m : DM A) l a K' F U : does W K m l a K' -> finals l F -> within U l -> doesf W K m a K' F U.
Proof. intros. exists l. auto. Qed.

Lemma doesf_run W {A} (m : DM A) a K' F U d : doesf W startK m a K' F U -> Shape d -> views W d ->
  exists d', m d = (d', Ok a) /\ all_hold d' F /\ forall q, off_all U q = true -> dpget q d' = dpget q d.
Proof.
  intros (l & [O M] & Fi & Wi) S V. destruct (M d S V (startK_knows d)) as (Va & E & _). exists (aps l d).
  split; [exact E|]. split.
  - unfold all_hold, finals in *. eapply Forall_impl; [|exact Fi]. intros [q v] L. cbn [fst snd] in *. apply after; assumption.
  - intros q Q. apply aps_leaves; [exact Va|]. eapply within_leaves; eauto.
Qed.

(** loops *)
Section Loop.
Context {X : Type} (facts : Z -> X -> list (path * pv)) (U : Z -> X -> list path).
Fixpoint loopU (i : Z) (l : list X) : list path :=
  match l with [] => [] | x :: r => U i x ++ loopU (i + 1) r end.
(** what survives the later rounds *)
Fixpoint loopF (i : Z) (l : list X) : list (path * pv) :=
  match l with
  | [] => []
  | x :: r => filter (fun f => off_all (loopU (i + 1) r) (fst f)) (facts i x) ++ loopF (i + 1) r
  end.
Lemma doesf_loop (W : list (path * option pv)) (K : list path) (buff : bytes) (body : Z -> Z -> DM Z)
  (wire : X -> bytes) (ok : X -> Prop) : (forall i x off rest, ok x -> at_ buff off (wire x ++ rest) ->
    doesf W K (body i off) (off + zlen (wire x)) K (facts i x) (U i x)) ->
  forall l i off rest, Forall ok l -> at_ buff off (List.concat (map wire l) ++ rest) ->
  doesf W K (dloop (List.length l) i body off) (off + zlen (List.concat (map wire l))) K (loopF i l) (loopU i l)
  /\ at_ buff (off + zlen (List.concat (map wire l))) rest.
Proof.
  intros B l. induction l as [|x l IH]; intros i off rest Ok At; cbn [List.length dloop map List.concat loopF loopU] in *.
  - replace (off + zlen (@nil Z)) with off by (unfold zlen; cbn; lia).
    split; [|exact At]. exists []. split; [apply does_ret|]. split; [constructor|reflexivity].
  - inversion Ok as [|? ? Ox Ol]; subst. rewrite <- app_assoc in At.
    destruct (IH (i + 1) (off + zlen (wire x)) rest Ol (at_step _ _ _ _ At)) as [D At'].
    replace (off + zlen (wire x ++ List.concat (map wire l)))
      with (off + zlen (wire x) + zlen (List.concat (map wire l))) by (unfold zlen; rewrite app_length; lia).
    split; [|exact At'].
    eapply doesf_bind; [eapply doesf_sub; [eapply B; eassumption | | apply incl_refl | apply incl_refl] | exact D |].
    + intros f I. apply filter_In in I. exact (proj1 I).
    + unfold apart. apply forallb_forall. intros f I. apply filter_In in I. exact (proj2 I).
Qed.
Lemma loopF_in a x b i f : In f (facts (i + zlen a) x) ->
  off_all (loopU (i + zlen a + 1) b) (fst f) = true -> In f (loopF i (a ++ x :: b)).
Proof.
  revert i; induction a as [|y a IH]; intros i I O; cbn [app loopF].
  - replace (i + zlen (@nil X)) with i in * by (unfold zlen; cbn; lia).
    apply in_or_app. left. apply filter_In. auto.
  - apply in_or_app. right. apply IH.
    + replace (i + 1 + zlen a) with (i + zlen (y :: a)); [exact I|]. unfold zlen. cbn [List.length]. lia.
    + replace (i + 1 + zlen a + 1) with (i + zlen (y :: a) + 1); [exact O|]. unfold zlen. cbn [List.length]. lia.
Qed.
Lemma loopU_off l : forall i q, (forall j x, In x l -> i <= j < i + zlen l -> off_all (U j x) q = true) -> off_all (loopU i l) q = true.
Proof using X U.
  clear facts.
  unfold off_all. induction l as [|x l IH]; intros i q H; cbn [loopU]; [reflexivity|].
  rewrite forallb_app, andb_true_iff. split.
  - apply H; [left; reflexivity|]. unfold zlen. cbn [List.length]. lia.
  - apply IH. intros j y I L. apply H; [right; exact I|]. unfold zlen in *. cbn [List.length]. lia.
Qed.
End Loop.

Lemma off_app U V q : off_all (U ++ V) q = off_all U q && off_all V q.
Proof. apply forallb_app. Qed.
Lemma all_hold_app d F G : all_hold d (F ++ G) <-> all_hold d F /\ all_hold d G.
Proof. apply Forall_app. Qed.
Lemma all_hold_incl d F G : all_hold d F -> incl G F -> all_hold d G.
Proof. unfold all_hold. rewrite !Forall_forall. auto. Qed.
