(** Proof machinery for Client.v: the listener table (C69, C70, C74). *)
From Verif Require Import Py F64 Struct Utf Utility Const Decode World Client P_Client.
From Coq Require Import Lia Permutation.

(** ---- dictionaries *)
Section T.
Context {A : Type}.
Implicit Types (T : list (Z * A)).
Lemma tget_in k v T : tget k T = Some v -> In (k, v) T.
Proof. induction T as [|[k' v'] T IH]; cbn; [discriminate|]. destruct (Z.eqb_spec k k'); [intros E; injection E as ->; subst; auto|auto]. Qed.
Lemma tget_none k T : tget k T = None -> forall v, ~ In (k, v) T.
Proof. induction T as [|[k' v'] T IH]; cbn; [auto|]. destruct (Z.eqb_spec k k'); [discriminate|]. intros E v [H|H]; [injection H as -> _; auto|eapply IH; eauto]. Qed.
Lemma in_tget k v T : NoDup (map fst T) -> In (k, v) T -> tget k T = Some v.
Proof.
  induction T as [|[k' v'] T IH]; cbn; [intros _ []|]. intros N [H|H].
  - injection H as -> ->. rewrite Z.eqb_refl. auto.
  - apply NoDup_cons_iff in N. destruct N as [N1 N2]. destruct (Z.eqb_spec k k'); [subst; exfalso; apply N1; apply (in_map fst) in H; exact H|auto].
Qed.
Lemma tget_tset k v k' T : tget k' (tset k v T) = if k' =? k then Some v else tget k' T.
Proof.
  induction T as [|[k1 v1] T IH]; cbn; [reflexivity|]. destruct (Z.eqb_spec k k1); cbn.
  - subst. destruct (k' =? k1); auto.
  - destruct (Z.eqb_spec k' k1); [subst; destruct (Z.eqb_spec k1 k); [lia|auto]|auto].
Qed.
Lemma tset_new k v T : tget k T = None -> tset k v T = T ++ [(k, v)].
Proof. induction T as [|[k1 v1] T IH]; cbn; [auto|]. destruct (k =? k1); [discriminate|]. intros H. rewrite IH; auto. Qed.
Lemma tget_tdel k k' T : tget k' (tdel k T) = if k' =? k then None else tget k' T.
Proof.
  unfold tdel. induction T as [|[k1 v1] T IH]; cbn; [destruct (k' =? k); auto|].
  destruct (Z.eqb_spec k1 k); cbn; rewrite ?IH; destruct (Z.eqb_spec k' k1), (Z.eqb_spec k' k); subst; auto; try lia.
Qed.
Lemma in_tdel e k T : In e (tdel k T) <-> In e T /\ fst e <> k.
Proof. unfold tdel. rewrite filter_In. destruct (Z.eqb_spec (fst e) k); cbn; intuition congruence. Qed.
Lemma nodup_tdel {B} (f : Z * A -> B) k T : NoDup (map f T) -> NoDup (map f (tdel k T)).
Proof.
  induction T as [|e T IH]; cbn; auto. intros N; apply NoDup_cons_iff in N; destruct N as [N1 N2]. destruct (negb _); auto. cbn. constructor; auto.
  rewrite in_map_iff. intros (x & E & H). apply in_tdel in H. apply N1. rewrite <- E. apply in_map. tauto.
Qed.
End T.
Lemma mem_in x l : mem x l = true <-> In x l.
Proof. unfold mem. rewrite existsb_exists. split; [intros (y & H & E); apply Nat.eqb_eq in E; subst; auto|]. intros H; exists x. rewrite Nat.eqb_refl; auto. Qed.

(** ---- tables *)
Definition lis (T : list (Z * nat)) (S : list (list nat)) (code : Z) (cb : nat) : Prop :=
  exists st, tget code T = Some st /\ In cb (nth st S []).
Definition owns (T : list (Z * nat)) (S : list (list nat)) (code : Z) (st : nat) : Prop :=
  (st < List.length S)%nat /\ forall code', In (code', st) T -> code' = code.
Record tok (T : list (Z * nat)) (S : list (list nat)) : Prop := mkTok {
  tk_codes : NoDup (map fst T);
  tk_ids : NoDup (map snd T);
  tk_live : forall code st, In (code, st) T -> (st < List.length S)%nat /\ nth st S [] <> [];
  tk_dead : forall st, nth st S [] <> [] -> exists code, In (code, st) T;
  tk_nodup : forall st, NoDup (nth st S []) }.

Lemma tok_owner T S code code' st : tok T S -> In (code, st) T -> In (code', st) T -> code = code'.
Proof.
  intros K H1 H2. pose proof (tk_ids _ _ K) as N. clear K. induction T as [|[c i] T IH]; [destruct H1|]. cbn in N. apply NoDup_cons_iff in N. destruct N as [N1 N2].
  destruct H1 as [E1|H1], H2 as [E2|H2].
  - congruence.
  - exfalso. apply N1. injection E1 as -> ->. apply (in_map snd) in H2. exact H2.
  - exfalso. apply N1. injection E2 as -> ->. apply (in_map snd) in H1. exact H1.
  - auto.
Qed.
Lemma tok_owns T S code st : tok T S -> In (code, st) T -> owns T S code st.
Proof. intros K H. split; [apply (tk_live _ _ K _ _ H)|]. intros. eapply tok_owner; eauto. Qed.

(** adding *)
Definition add_id (code : Z) (T : list (Z * nat)) (S : list (list nat)) : nat :=
  match tget code T with Some st => st | None => List.length S end.
Definition add_T (code : Z) (T : list (Z * nat)) (S : list (list nat)) :=
  match tget code T with Some _ => T | None => tset code (List.length S) T end.
Definition add_S0 (code : Z) (T : list (Z * nat)) (S : list (list nat)) :=
  match tget code T with Some _ => S | None => S ++ [[]] end.
Definition add_S (cb : nat) (code : Z) (T : list (Z * nat)) (S : list (list nat)) :=
  let S1 := add_S0 code T S in let st := add_id code T S in
  if mem cb (nth st S1 []) then S1 else lset st (nth st S1 [] ++ [cb]) S1.

Lemma nth_S0 code T S st : nth st (add_S0 code T S) [] = nth st S [].
Proof.
  unfold add_S0. destruct (tget code T); auto. destruct (Nat.lt_ge_cases st (List.length S)).
  - rewrite app_nth1 by auto. auto.
  - rewrite app_nth2 by lia. rewrite (nth_overflow S) by lia. destruct (st - List.length S)%nat as [|[|?]]; auto.
Qed.
Lemma add_id_lt code T S : tok T S -> (add_id code T S < List.length (add_S0 code T S))%nat.
Proof.
  intros K. unfold add_id, add_S0. destruct (tget code T) eqn:E.
  - apply tget_in in E. apply (tk_live _ _ K _ _ E).
  - rewrite app_length. cbn. lia.
Qed.
Lemma nth_add cb code T S st : tok T S ->
  nth st (add_S cb code T S) [] =
  if Nat.eqb st (add_id code T S) then (if mem cb (nth st S []) then nth st S [] else nth st S [] ++ [cb]) else nth st S [].
Proof.
  intros K. unfold add_S. cbv zeta. rewrite nth_S0.
  destruct (Nat.eqb_spec st (add_id code T S)) as [->|N].
  - destruct (mem cb (nth (add_id code T S) S [])); [apply nth_S0|]. rewrite xnth_lset by (apply add_id_lt; auto). rewrite Nat.eqb_refl. auto.
  - destruct (mem cb (nth (add_id code T S) S [])); [apply nth_S0|]. rewrite xnth_lset by (apply add_id_lt; auto).
    destruct (Nat.eqb_spec st (add_id code T S)); [lia|]. apply nth_S0.
Qed.
Lemma len_add_S cb code T S : List.length (add_S cb code T S) = List.length (add_S0 code T S).
Proof. unfold add_S. cbv zeta. destruct (mem _ _); auto. apply xlset_length. Qed.
Lemma len_add_S0 code T S : (List.length S <= List.length (add_S0 code T S))%nat.
Proof. unfold add_S0. destruct (tget _ _); [lia|]. rewrite app_length. lia. Qed.
Lemma get_add_T code T S code' : tget code' (add_T code T S) = if code' =? code then Some (add_id code T S) else tget code' T.
Proof.
  unfold add_T, add_id. destruct (tget code T) eqn:E.
  - destruct (Z.eqb_spec code' code); subst; auto.
  - apply tget_tset.
Qed.
Lemma in_add_T code T S code' st : In (code', st) (add_T code T S) <->
  In (code', st) T \/ (tget code T = None /\ code' = code /\ st = List.length S).
Proof.
  unfold add_T. destruct (tget code T) eqn:E.
  - intuition congruence.
  - rewrite (tset_new _ _ _ E), in_app_iff. cbn. intuition congruence.
Qed.
Lemma add_self cb code T S : tok T S -> lis (add_T code T S) (add_S cb code T S) code cb.
Proof.
  intros K. exists (add_id code T S). rewrite get_add_T, Z.eqb_refl. split; auto. rewrite nth_add by auto. rewrite Nat.eqb_refl.
  destruct (mem cb _) eqn:M; [apply mem_in; auto|]. rewrite in_app_iff. right; left; auto.
Qed.
Lemma add_id_fresh code T S st code' : tok T S -> In (code', st) T -> code' <> code -> st <> add_id code T S.
Proof.
  intros K H N E. unfold add_id in E. destruct (tget code T) eqn:G.
  - subst. apply tget_in in G. apply N. eapply tok_owner; eauto.
  - apply (tk_live _ _ K) in H. lia.
Qed.
Lemma tok_add cb code T S : tok T S -> tok (add_T code T S) (add_S cb code T S).
Proof.
  intros K. constructor.
  - unfold add_T. destruct (tget code T) eqn:E; [apply K|]. rewrite (tset_new _ _ _ E), map_app. cbn.
    apply (Permutation_NoDup (Permutation_app_comm [code] (map fst T))). cbn. constructor; [|apply K].
    rewrite in_map_iff. intros ([c i] & Ec & Hc). cbn in Ec. subst. eapply tget_none; eauto.
  - unfold add_T. destruct (tget code T) eqn:E; [apply K|]. rewrite (tset_new _ _ _ E), map_app. cbn.
    apply (Permutation_NoDup (Permutation_app_comm [List.length S] (map snd T))). cbn. constructor; [|apply K].
    rewrite in_map_iff. intros ([c i] & Ec & Hc). cbn in Ec. subst. apply (tk_live _ _ K) in Hc. lia.
  - intros c st H. apply in_add_T in H. rewrite len_add_S, nth_add by auto. destruct H as [H|(E & -> & ->)].
    + destruct (tk_live _ _ K _ _ H) as [L N]. split; [pose proof (len_add_S0 code T S); lia|].
      destruct (Nat.eqb _ _); auto. destruct (mem _ _); auto. intros Q. apply app_eq_nil in Q. destruct Q; discriminate.
    + unfold add_S0, add_id. rewrite E, app_length. cbn. split; [lia|]. rewrite Nat.eqb_refl. rewrite nth_overflow by lia. cbn. discriminate.
  - intros i H. rewrite nth_add in H by auto. destruct (Nat.eqb_spec i (add_id code T S)) as [Q|N]; [subst i|].
    + exists code. apply tget_in. rewrite get_add_T, Z.eqb_refl. auto.
    + destruct (tk_dead _ _ K _ H) as [c Hc]. exists c. apply in_add_T. auto.
  - intros st. rewrite nth_add by auto. destruct (Nat.eqb _ _); [|apply K]. destruct (mem cb (nth st S [])) eqn:M; [apply K|].
    apply (Permutation_NoDup (Permutation_app_comm [cb] (nth st S []))). cbn. constructor; [|apply K].
    intros Q. apply mem_in in Q. congruence.
Qed.
Lemma lis_add cb code T S code' cb' : tok T S -> (code', cb') <> (code, cb) ->
  (lis (add_T code T S) (add_S cb code T S) code' cb' <-> lis T S code' cb').
Proof.
  intros K N. unfold lis. rewrite get_add_T. destruct (Z.eqb_spec code' code) as [->|Nc].
  - assert (cb' <> cb) by congruence.
    split; intros (st & E & I).
    + injection E as <-. rewrite nth_add, Nat.eqb_refl in I by auto.
      assert (I' : In cb' (nth (add_id code T S) S [])).
      { destruct (mem cb _); auto. apply in_app_iff in I. destruct I as [|[|[]]]; [auto|congruence]. }
      unfold add_id in *. destruct (tget code T); [eauto|]. rewrite nth_overflow in I' by lia. destruct I'.
    + exists st. unfold add_id. rewrite E. split; auto. rewrite nth_add by auto. unfold add_id. rewrite E, Nat.eqb_refl.
      destruct (mem cb _); auto. apply in_app_iff; auto.
  - split; intros (st & E & I); exists st; (split; [exact E|]); pose proof (tget_in _ _ _ E) as G;
      pose proof (add_id_fresh code T S st code' K G Nc) as F; rewrite nth_add in * by auto;
      destruct (Nat.eqb_spec st (add_id code T S)); auto; contradiction.
Qed.
Lemma owns_add cb code T S c st : tok T S -> owns T S c st -> owns (add_T code T S) (add_S cb code T S) c st.
Proof.
  intros K [L O]. split; [rewrite len_add_S; pose proof (len_add_S0 code T S); lia|].
  intros c' H. apply in_add_T in H. destruct H as [H|(E & -> & ->)]; [auto|lia].
Qed.
Lemma owns_added cb code T S : tok T S -> owns (add_T code T S) (add_S cb code T S) code (add_id code T S).
Proof.
  intros K. apply tok_owns; [apply tok_add; auto|]. apply tget_in. rewrite get_add_T, Z.eqb_refl. auto.
Qed.
(** a set whose callback is gone stays without it while other (callback, code) are added *)
Lemma out_add cb code T S cb0 code0 st : tok T S -> owns T S code0 st -> (code, cb) <> (code0, cb0) ->
  ~ In cb0 (nth st S []) -> ~ In cb0 (nth st (add_S cb code T S) []).
Proof.
  intros K [L O] N H. rewrite nth_add by auto. destruct (Nat.eqb_spec st (add_id code T S)) as [E|]; auto.
  destruct (mem cb _); auto. rewrite in_app_iff. intros [|[<-|[]]]; auto.
  assert (code <> code0) by congruence.
  unfold add_id in E. destruct (tget code T) eqn:G; [|lia]. subst. apply tget_in in G. apply O in G. congruence.
Qed.

(** removing *)
Definition rem_set (cb st : nat) (S : list (list nat)) := filter (fun x => negb (Nat.eqb x cb)) (nth st S []).
Definition rem_S (cb st : nat) (S : list (list nat)) := if mem cb (nth st S []) then lset st (rem_set cb st S) S else S.
Definition rem_T (cb : nat) (code : Z) (st : nat) (T : list (Z * nat)) (S : list (list nat)) :=
  if mem cb (nth st S []) then match rem_set cb st S with [] => tdel code T | _ => T end else T.
Lemma in_rem cb st S x : In x (rem_set cb st S) <-> In x (nth st S []) /\ x <> cb.
Proof. unfold rem_set. rewrite filter_In. destruct (Nat.eqb_spec x cb); cbn; intuition congruence. Qed.
Lemma mem_lt cb st S : mem cb (nth st S []) = true -> (st < List.length S)%nat.
Proof. intros M. destruct (Nat.lt_ge_cases st (List.length S)); auto. rewrite nth_overflow in M by lia. discriminate. Qed.
Lemma nth_rem cb st S st' : nth st' (rem_S cb st S) [] = if Nat.eqb st' st && mem cb (nth st S []) then rem_set cb st S else nth st' S [].
Proof.
  unfold rem_S. destruct (mem cb (nth st S [])) eqn:M; [|rewrite andb_false_r; auto].
  rewrite xnth_lset by (eapply mem_lt; eauto). rewrite andb_true_r. auto.
Qed.
Lemma len_rem cb st S : List.length (rem_S cb st S) = List.length S.
Proof. unfold rem_S. destruct (mem _ _); auto. apply xlset_length. Qed.
Lemma tok_rem cb code st T S : tok T S -> owns T S code st -> tok (rem_T cb code st T S) (rem_S cb st S).
Proof.
  intros K [L O]. unfold rem_T. destruct (mem cb (nth st S [])) eqn:M.
  2:{ unfold rem_S. rewrite M. auto. }
  assert (Tin : In (code, st) T).
  { assert (nth st S [] <> []) by (intros Q; rewrite Q in M; discriminate). destruct (tk_dead _ _ K _ H) as [c Hc]. pose proof (O _ Hc). subst. auto. }
  constructor.
  - destruct (rem_set cb st S); [apply nodup_tdel|]; apply K.
  - destruct (rem_set cb st S); [apply nodup_tdel|]; apply K.
  - intros c i H. rewrite len_rem, nth_rem, M, andb_true_r.
    destruct (rem_set cb st S) eqn:R.
    + apply in_tdel in H. cbn in H. destruct H as [H Nc]. destruct (tk_live _ _ K _ _ H). split; auto.
      destruct (Nat.eqb_spec i st); auto. subst. exfalso. apply Nc. auto.
    + destruct (tk_live _ _ K _ _ H). split; auto. destruct (Nat.eqb i st); [discriminate|auto].
  - intros i H. rewrite nth_rem, M, andb_true_r in H.
    destruct (Nat.eqb_spec i st) as [Q|Ni]; [subst i|].
    + destruct (rem_set cb st S) eqn:R; [congruence|]. exists code. auto.
    + destruct (tk_dead _ _ K _ H) as [c Hc]. exists c. destruct (rem_set cb st S); auto.
      apply in_tdel. split; auto. cbn. intros ->. apply Ni.
      pose proof (in_tget _ _ _ (tk_codes _ _ K) Hc) as G1. pose proof (in_tget _ _ _ (tk_codes _ _ K) Tin) as G2. congruence.
  - intros i. rewrite nth_rem. destruct (_ && _); [|apply K]. unfold rem_set. apply NoDup_filter. apply K.
Qed.
Lemma owns_rem cb code st T S c i : owns T S c i -> owns (rem_T cb code st T S) (rem_S cb st S) c i.
Proof.
  intros [L O]. split; [rewrite len_rem; auto|]. intros c' H. apply O. unfold rem_T in H.
  destruct (mem _ _); auto. destruct (rem_set _ _ _); auto. apply in_tdel in H. tauto.
Qed.
Lemma lis_rem cb code st T S code' cb' : tok T S -> owns T S code st ->
  (lis (rem_T cb code st T S) (rem_S cb st S) code' cb' <->
   lis T S code' cb' /\ ~ (code' = code /\ cb' = cb /\ tget code T = Some st)).
Proof.
  intros K [L O]. unfold rem_T. destruct (mem cb (nth st S [])) eqn:M.
  2:{ unfold rem_S. rewrite M. split; [|tauto]. intros H. split; auto. intros (-> & -> & G).
      destruct H as (i & E & I). rewrite G in E. injection E as <-. apply mem_in in I. congruence. }
  assert (Tin : In (code, st) T).
  { assert (nth st S [] <> []) by (intros Q; rewrite Q in M; discriminate). destruct (tk_dead _ _ K _ H) as [c Hc]. pose proof (O _ Hc). subst. auto. }
  pose proof (in_tget _ _ _ (tk_codes _ _ K) Tin) as G.
  assert (J : forall i, In cb' (nth i (rem_S cb st S) []) <-> In cb' (nth i S []) /\ ~ (i = st /\ cb' = cb)).
  { intros i. rewrite nth_rem, M, andb_true_r. destruct (Nat.eqb_spec i st); [subst; rewrite in_rem; intuition congruence|intuition congruence]. }
  assert (U : forall i, tget code' T = Some i -> i = st -> code' = code).
  { intros i E ->. apply tget_in in E. auto. }
  unfold lis. split.
  - intros (i & E & I).
    assert (E' : tget code' T = Some i).
    { destruct (rem_set cb st S); auto. rewrite tget_tdel in E. destruct (code' =? code); [discriminate|auto]. }
    apply J in I. destruct I as [I1 I2]. split; [exists i; auto|]. intros (-> & -> & _). apply I2. split; auto. congruence.
  - intros ((i & E & I) & N). exists i.
    assert (I' : In cb' (nth i (rem_S cb st S) [])).
    { apply J. split; auto. intros [-> ->]. apply N. split; [|split; auto]. eapply U; eauto. }
    split; auto. destruct (rem_set cb st S) eqn:R; auto. rewrite tget_tdel. destruct (Z.eqb_spec code' code); auto.
    subst. rewrite G in E. injection E as <-. rewrite nth_rem, M, Nat.eqb_refl in I'. cbn in I'. rewrite R in I'. destruct I'.
Qed.
Lemma out_rem cb st S cb0 st0 : ~ In cb0 (nth st0 S []) -> ~ In cb0 (nth st0 (rem_S cb st S) []).
Proof. intros H. rewrite nth_rem. destruct (Nat.eqb_spec st0 st); cbn; auto. subst. destruct (mem _ _); auto. rewrite in_rem. tauto. Qed.
Lemma rem_self cb st S : ~ In cb (nth st (rem_S cb st S) []).
Proof. rewrite nth_rem, Nat.eqb_refl. cbn. destruct (mem cb _) eqn:M; [rewrite in_rem; tauto|]. intros H. apply mem_in in H. congruence. Qed.
