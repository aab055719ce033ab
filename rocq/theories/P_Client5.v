(** Proof machinery for Client.v: handling a push message (C70, C74). *)
From Verif Require Import Py F64 Struct Utf Utility Const Decode World Client P_Client P_Client2 P_Client3 P_Client4.
From Coq Require Import Lia Permutation.

Lemma call_data r s : x_data (call_closure r s) = x_data s.
Proof. unfold call_closure. destruct (nth_error _ _); auto. apply (r_data' _ _ _ (remove_spec c s)). Qed.
Lemma call_log r s : x_log (call_closure r s) = x_log s.
Proof. unfold call_closure. destruct (nth_error _ _); auto. apply (r_log _ _ _ (remove_spec c s)). Qed.
Lemma call_pushes r s : x_pushes (call_closure r s) = x_pushes s.
Proof. unfold call_closure. destruct (nth_error _ _); auto. apply (r_pushes _ _ _ (remove_spec c s)). Qed.
Lemma calls_frame l : forall s, let s' := fold_left (fun s r => call_closure r s) l s in
  x_data s' = x_data s /\ x_log s' = x_log s /\ x_closures s' = x_closures s /\ x_pushes s' = x_pushes s.
Proof.
  induction l as [|r l IH]; intros s; cbn; auto. destruct (IH (call_closure r s)) as (A & B & C & D).
  rewrite A, B, C, D, call_data, call_log, calls_clos, call_pushes. auto.
Qed.

(** Who is called: a prefix of the order, with the data of the beginning. *)
Lemma notify_log react code st n order : forall s,
  let s' := notify react code st n order s in
  x_data s' = x_data s /\ x_pushes s' = x_pushes s /\
  exists called rest, order = called ++ rest /\
    ((rest = [] /\ x_log s' = x_log s ++ map (fun cb => Called cb code (x_data s)) called) \/
     exists e, x_log s' = x_log s ++ map (fun cb => Called cb code (x_data s)) called ++ [Failed e]).
Proof.
  induction order as [|cb order IH]; intros s; cbn [notify]; cbv zeta.
  - destruct (negb _); split; [reflexivity|split; [reflexivity|]|reflexivity|split; [reflexivity|]]; exists [], [].
    + split; auto. right. eexists. reflexivity.
    + split; auto. left. rewrite app_nil_r. auto.
  - destruct (negb _).
    + split; [reflexivity|]. split; [reflexivity|]. exists [], (cb :: order). split; auto. right. eexists. reflexivity.
    + set (s0 := sx_log _ s). set (s1 := fold_left _ _ s0).
      destruct (calls_frame (fst (react cb)) s0) as (A & B & C & P). fold s1 in A, B, C, P.
      destruct (snd (react cb)).
      * split; [exact A|]. split; [exact P|]. exists [cb], order. split; auto. right. eexists.
        cbn [x_log sx_log]. rewrite B. unfold s0. cbn [x_log sx_log map]. rewrite <- app_assoc. reflexivity.
      * destruct (IH s1) as (A1 & P1 & called & rest & O & D). split; [rewrite A1; exact A|]. split; [rewrite P1; exact P|].
        exists (cb :: called), rest. split; [rewrite O; auto|].
        assert (L1 : x_log s1 = x_log s ++ [Called cb code (x_data s)]) by (rewrite B; reflexivity).
        assert (D1 : x_data s1 = x_data s) by (rewrite A; reflexivity). rewrite L1, D1 in D.
        destruct D as [[R D]|[e D]]; [left|right].
        -- split; auto. rewrite D. cbn. rewrite <- app_assoc. reflexivity.
        -- exists e. rewrite D. cbn. rewrite <- app_assoc. reflexivity.
Qed.

(** Undisturbed: no reaction raises or unsubscribes somebody from this code. *)
Lemma undisturbed_call code st r s : linv s -> tget code (x_table s) = Some st ->
  (forall c, nth_error (x_closures s) r = Some c -> c_code c <> code) ->
  tget code (x_table (call_closure r s)) = Some st /\ get_set st (call_closure r s) = get_set st s.
Proof.
  intros L G N. unfold call_closure. destruct (nth_error (x_closures s) r) as [c|] eqn:E; auto.
  pose proof (N _ eq_refl) as NC. pose proof (remove_spec c s) as R. apply nth_error_In in E.
  pose proof (l_kind _ L _ _ _ (from_kind _ _ (l_clos _ L _ E))) as [_ O].
  unfold get_set. rewrite (r_table _ _ _ R), (r_sets _ _ _ R). split.
  - unfold rem_T. destruct (mem _ _); auto. destruct (rem_set _ _ _); auto. rewrite tget_tdel. destruct (Z.eqb_spec code (c_code c)); auto. congruence.
  - rewrite nth_rem. destruct (Nat.eqb_spec st (c_set c)) as [Q|]; auto. subst st. exfalso. apply NC. symmetry. apply O. apply tget_in; auto.
Qed.
Lemma undisturbed_calls code st l : forall s, linv s -> tget code (x_table s) = Some st ->
  (forall r c, In r l -> nth_error (x_closures s) r = Some c -> c_code c <> code) ->
  let s' := fold_left (fun s r => call_closure r s) l s in
  linv s' /\ tget code (x_table s') = Some st /\ get_set st s' = get_set st s.
Proof.
  induction l as [|r l IH]; intros s L G N; cbn [fold_left]; cbv zeta; auto.
  destruct (undisturbed_call code st r s L G) as [G1 S1]; [intros; apply (N r); [left|]; auto|].
  destruct (IH (call_closure r s)) as (A & B & C); auto; [apply linv_call; auto|intros r' c I; rewrite calls_clos; apply N; right; auto|].
  split; [auto|split; [auto|]]. rewrite C. auto.
Qed.
Lemma notify_all react code st order : forall s, linv s -> tget code (x_table s) = Some st ->
  (forall cb, In cb order -> snd (react cb) = false) ->
  (forall r c, may_call order react r -> nth_error (x_closures s) r = Some c -> c_code c <> code) ->
  x_log (notify react code st (List.length (get_set st s)) order s) = x_log s ++ map (fun cb => Called cb code (x_data s)) order.
Proof.
  induction order as [|cb order IH]; intros s L G N1 N2; cbn [notify].
  - rewrite Nat.eqb_refl. cbn. rewrite app_nil_r. auto.
  - rewrite Nat.eqb_refl. cbn [negb]. cbv zeta. rewrite (N1 cb) by (left; auto).
    set (s0 := sx_log _ s).
    destruct (calls_frame (fst (react cb)) s0) as (A & B & C & _).
    destruct (undisturbed_calls code st (fst (react cb)) s0) as (L1 & G1 & S1);
      [apply linv_log; auto|auto|intros r c I; apply N2; exists cb; split; [left|]; auto|].
    set (s1 := fold_left _ _ s0) in *.
    change (get_set st s0) with (get_set st s) in S1. rewrite <- S1.
    rewrite IH; auto.
    + rewrite B, A. unfold s0. cbn. rewrite <- app_assoc. reflexivity.
    + intros cb' I. apply N1. right; auto.
    + intros r c (cb' & I & J). rewrite C. apply N2. exists cb'. split; [right; auto|auto].
Qed.

Lemma nodup_b_spec l : nodup_b l = true -> NoDup l.
Proof.
  induction l as [|x l IH]; cbn; intros H; [constructor|]. apply andb_true_iff in H. destruct H as [H1 H2]. constructor; auto.
  intros I. apply mem_in in I. rewrite I in H1. discriminate.
Qed.
Lemma perm_b_spec a b : NoDup b -> perm_b a b = true -> NoDup a /\ (forall x, In x a <-> In x b).
Proof.
  unfold perm_b. intros Nb H. apply andb_true_iff in H. destruct H as [H H3]. apply andb_true_iff in H. destruct H as [H1 H2].
  apply Nat.eqb_eq in H1. apply nodup_b_spec in H2. rewrite forallb_forall in H3. split; auto.
  assert (I : incl a b) by (intros x Hx; apply mem_in; auto). intros x. split; [apply I|].
  apply (NoDup_length_incl H2); auto. lia.
Qed.

(** the head of the queue is what is handled, and only that *)
Lemma handle_unfold s code m q order react s' : x_pushes s = (HClient code, m) :: q ->
  xstep s (EHandle order react) = Some s' ->
  s' = common_callback react order code m (sx_pushes q s) /\
  (forall st, tget code (x_table s) = Some st -> perm_b order (get_set st s) = true).
Proof.
  intros P E. cbn [xstep] in E. rewrite P in E. destruct (tget code (x_table s)) as [st|].
  - destruct (perm_b order (get_set st s)) eqn:B; [|discriminate]. injection E as <-. split; auto. intros st' Q. injection Q as <-. auto.
  - injection E as <-. split; auto. discriminate.
Qed.
