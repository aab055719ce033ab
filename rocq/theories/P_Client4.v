(** Proof machinery for Client.v: how a listener stays or leaves (C69). *)
From Verif Require Import Py F64 Struct Utf Utility Const Decode World Client P_Client P_Client2 P_Client3.
From Coq Require Import Lia Permutation.

(** which unsubscribe functions an event calls *)
Definition may_call (order : list nat) (react : nat -> list nat * bool) (r : nat) : Prop :=
  exists cb, In cb order /\ In r (fst (react cb)).

Section Handle.
Variable I : cstate -> Prop.
Hypothesis Ilog : forall v s, I s -> I (sx_log v s).
Hypothesis Idata : forall v s, I s -> I (sx_data v s).
Lemma calls_inv l s : (forall r s, In r l -> I s -> I (call_closure r s)) -> I s -> I (fold_left (fun s r => call_closure r s) l s).
Proof.
  revert s; induction l as [|r l IH]; intros s C H; cbn; auto. apply IH; [intros; apply C; auto; right; auto|]. apply C; auto. left; auto.
Qed.
Lemma notify_inv react code st n order s :
  (forall r s, may_call order react r -> I s -> I (call_closure r s)) -> I s -> I (notify react code st n order s).
Proof.
  revert s; induction order as [|cb order IH]; intros s C H; cbn [notify]; destruct (negb _); auto.
  cbv zeta. set (s1 := fold_left _ _ _). assert (H1 : I s1).
  { apply calls_inv; auto. intros r s0 Hr. apply C. exists cb. split; [left; auto|auto]. }
  destruct (snd (react cb)); auto. apply IH; auto. intros r s0 (cb' & A & B). apply C. exists cb'. split; [right; auto|auto].
Qed.
Lemma common_inv react order code m s :
  (forall r s, may_call order react r -> I s -> I (call_closure r s)) -> I s -> I (common_callback react order code m s).
Proof.
  intros C H. unfold common_callback.
  destruct (match push_decoder code with Some dec => dec m (x_data s) | None => (x_data s, Ok tt) end) as [d r].
  cbv zeta. destruct r; [|auto]. destruct (tget code _); [|auto]. apply notify_inv; auto.
Qed.
End Handle.

Lemma calls_clos r s : x_closures (call_closure r s) = x_closures s.
Proof. unfold call_closure. destruct (nth_error _ _); auto. apply (r_clos _ _ _ (remove_spec c s)). Qed.

(** (callback, code) is in set object [st] *)
Definition sits (cb : nat) (code : Z) (st : nat) (s : cstate) : Prop :=
  linv s /\ owns (x_table s) (x_sets s) code st /\ In cb (get_set st s).
Definition gone (cb : nat) (code : Z) (st : nat) (s : cstate) : Prop :=
  linv s /\ owns (x_table s) (x_sets s) code st /\ ~ In cb (get_set st s).

Lemma sits_tget cb code st s : sits cb code st s -> tget code (x_table s) = Some st.
Proof.
  intros (L & O & H). assert (N : nth st (x_sets s) [] <> []) by (intros Q; unfold get_set in H; rewrite Q in H; destruct H).
  destruct (tk_dead _ _ (l_tok _ L) _ N) as [c Hc]. pose proof (proj2 O _ Hc). subst. apply in_tget; auto. apply (l_tok _ L).
Qed.
Lemma sits_call cb code st r s :
  (forall c, nth_error (x_closures s) r = Some c -> ~ (c_cb c = cb /\ c_code c = code)) ->
  sits cb code st s -> sits cb code st (call_closure r s).
Proof.
  intros N S. pose proof (sits_tget _ _ _ _ S) as G. destruct S as (L & O & H).
  split; [apply linv_call; auto|]. unfold call_closure. destruct (nth_error (x_closures s) r) as [c|] eqn:E; [|split; auto].
  pose proof (N _ eq_refl) as NC. pose proof (remove_spec c s) as R. apply nth_error_In in E. pose proof (l_clos _ L _ E) as F.
  rewrite (r_table _ _ _ R). unfold get_set in *. rewrite (r_sets _ _ _ R). split; [apply owns_rem; auto|].
  rewrite nth_rem. destruct (Nat.eqb_spec st (c_set c)) as [Q|]; cbn; auto. destruct (mem _ _) eqn:M; auto.
  apply in_rem. rewrite <- Q. split; auto. intros ->. apply NC. split; auto.
  pose proof (l_kind _ L _ _ _ (from_kind _ _ F)) as [_ U]. symmetry. apply U. rewrite <- Q. apply tget_in. auto.
Qed.
Lemma gone_call cb code st r s : gone cb code st s -> gone cb code st (call_closure r s).
Proof.
  intros (L & O & H). split; [apply linv_call; auto|]. unfold call_closure. destruct (nth_error (x_closures s) r) as [c|] eqn:E; [|split; auto].
  pose proof (remove_spec c s) as R. rewrite (r_table _ _ _ R). unfold get_set in *. rewrite (r_sets _ _ _ R). split; [apply owns_rem; auto|].
  apply out_rem; auto.
Qed.

Definition calls (e : event) (r : nat) : Prop :=
  match e with EUnsubscribe r' => r' = r | EHandle order react => may_call order react r | _ => False end.

Lemma sits_step cb code st s e s' : sits cb code st s -> xstep s e = Some s' ->
  (forall r c, calls e r -> nth_error (x_closures s) r = Some c -> ~ (c_cb c = cb /\ c_code c = code)) ->
  sits cb code st s'.
Proof.
  intros S E N. pose proof (linv_step _ _ _ (proj1 S) E) as L'. pose proof (grow_step _ _ _ E) as G.
  assert (D : grow s s' -> sits cb code st s').
  { intros [G1 G2 _ _ _ _]. split; auto. destruct S as (_ & O & H). unfold get_set. rewrite G1, G2. auto. }
  destruct e; auto; clear G D; cbn [xstep] in E.
  - injection E as <-. destruct (x_attached s) eqn:A; [|unfold subscribe; rewrite A; auto].
    pose proof (subscribe_spec cb0 code0 s A) as Q. destruct S as (L & O & H). split; auto. unfold get_set in *.
    rewrite (a_table _ _ _ _ Q), (a_sets _ _ _ _ Q). split; [apply owns_add; auto; apply L|].
    rewrite nth_add by apply L. destruct (Nat.eqb _ _); auto. destruct (mem _ _); auto. apply in_app_iff. auto.
  - destruct (Nat.ltb _ _); [|discriminate]. injection E as <-. apply sits_call; auto. intros c Hc. apply (N r c); cbn; auto.
  - assert (W : forall code0 m q, sits cb code st (common_callback react order code0 m (sx_pushes q s))).
    { intros code0 m q.
      apply (common_inv (fun s1 => x_closures s1 = x_closures s /\ sits cb code st s1)).
      - intros v s1 [A (B1 & B2 & B3)]. split; auto. split; auto using linv_log.
      - intros v s1 [A (B1 & B2 & B3)]. split; auto. split; auto using linv_data.
      - intros r s1 M [A B]. split; [rewrite calls_clos; auto|]. apply sits_call; auto. intros c Hc. rewrite A in Hc. apply (N r c); auto.
      - split; auto. destruct S as (B1 & B2 & B3). split; auto using linv_pushes. }
    destruct (x_pushes s) as [|[[code0|n] m] q]; [discriminate| |injection E as <-; destruct S as (B1 & B2 & B3); split; auto].
    destruct (tget code0 (x_table s)) as [st0|]; [destruct (perm_b _ _); [|discriminate]|]; injection E as <-; apply W.
Qed.
Lemma gone_step cb code st s e s' : gone cb code st s -> xstep s e = Some s' -> e <> ESubscribe cb code -> gone cb code st s'.
Proof.
  intros S E N. pose proof (linv_step _ _ _ (proj1 S) E) as L'. pose proof (grow_step _ _ _ E) as G.
  assert (D : grow s s' -> gone cb code st s').
  { intros [G1 G2 _ _ _ _]. split; auto. destruct S as (_ & O & H). unfold get_set. rewrite G1, G2. auto. }
  destruct e; auto; clear G D; cbn [xstep] in E.
  - injection E as <-. destruct (x_attached s) eqn:A; [|unfold subscribe; rewrite A; auto].
    pose proof (subscribe_spec cb0 code0 s A) as Q. destruct S as (L & O & H). split; auto. unfold get_set in *.
    rewrite (a_table _ _ _ _ Q), (a_sets _ _ _ _ Q). split; [apply owns_add; auto; apply L|].
    eapply out_add; eauto; [apply L|congruence].
  - destruct (Nat.ltb _ _); [|discriminate]. injection E as <-. apply gone_call; auto.
  - assert (W : forall code0 m q, gone cb code st (common_callback react order code0 m (sx_pushes q s))).
    { intros code0 m q.
      apply (common_inv (gone cb code st)).
      - intros v s1 (B1 & B2 & B3). split; auto using linv_log.
      - intros v s1 (B1 & B2 & B3). split; auto using linv_data.
      - intros r s1 M B. apply gone_call; auto.
      - destruct S as (B1 & B2 & B3). split; auto using linv_pushes. }
    destruct (x_pushes s) as [|[[code0|n] m] q]; [discriminate| |injection E as <-; destruct S as (B1 & B2 & B3); split; auto].
    destruct (tget code0 (x_table s)) as [st0|]; [destruct (perm_b _ _); [|discriminate]|]; injection E as <-; apply W.
Qed.

(** tasks are only added *)
Lemma kinds_call r s : exists ks, kinds (call_closure r s) = kinds s ++ ks.
Proof.
  unfold call_closure. destruct (nth_error _ _); [|exists []; rewrite app_nil_r; auto].
  destruct (r_kinds _ _ _ (remove_spec c s)) as (ks & K & _). eauto.
Qed.
Lemma kinds_step s e s' : xstep s e = Some s' -> exists ks, kinds s' = kinds s ++ ks.
Proof.
  intros E. pose proof (grow_step _ _ _ E) as G.
  assert (D : grow s s' -> exists ks, kinds s' = kinds s ++ ks) by (intros [_ _ _ _ (ks & K & _) _]; eauto).
  destruct e; auto; clear G D; cbn [xstep] in E.
  - injection E as <-. destruct (x_attached s) eqn:A; [|unfold subscribe; rewrite A; exists []; rewrite app_nil_r; auto].
    rewrite (a_kinds _ _ _ _ (subscribe_spec cb code s A)). eauto.
  - destruct (Nat.ltb _ _); [|discriminate]. injection E as <-. apply kinds_call.
  - assert (W : forall code0 m q, exists ks, kinds (common_callback react order code0 m (sx_pushes q s)) = kinds s ++ ks).
    { intros code0 m q. apply (common_inv (fun s1 => exists ks, kinds s1 = kinds s ++ ks)); auto.
      - intros r s1 _ (ks & K). destruct (kinds_call r s1) as (ks' & K'). exists (ks ++ ks'). rewrite K', K, app_assoc. auto.
      - exists []. rewrite app_nil_r. auto. }
    destruct (x_pushes s) as [|[[code0|n] m] q]; [discriminate| |injection E as <-; exists []; rewrite app_nil_r; auto].
    destruct (tget code0 (x_table s)) as [st0|]; [destruct (perm_b _ _); [|discriminate]|]; injection E as <-; apply W.
Qed.
Lemma kinds_run es : forall s s', xrun s es = Some s' -> exists ks, kinds s' = kinds s ++ ks.
Proof.
  induction es as [|e es IH]; intros s s'; cbn [xrun].
  - intros E; injection E as ->. exists []. rewrite app_nil_r; auto.
  - destruct (xstep s e) eqn:E; [|discriminate]. intros R. destruct (kinds_step _ _ _ E) as [k1 K1]. destruct (IH _ _ R) as [k2 K2].
    exists (k1 ++ k2). rewrite K2, K1, app_assoc. auto.
Qed.

Lemma sits_run cb code st es : forall s s', sits cb code st s -> xrun s es = Some s' ->
  (forall ea e eb sm r c, es = ea ++ e :: eb -> xrun s ea = Some sm -> calls e r -> nth_error (x_closures sm) r = Some c -> ~ (c_cb c = cb /\ c_code c = code)) ->
  sits cb code st s'.
Proof.
  induction es as [|e es IH]; intros s s' H; cbn [xrun].
  - intros E; injection E as <-. auto.
  - destruct (xstep s e) as [s1|] eqn:E; [|discriminate]. intros R N.
    apply (IH s1); auto.
    + eapply sits_step; eauto. intros r c Hr Hc. apply (N [] e es s r c); auto.
    + intros ea e' eb sm r c Q X. apply (N (e :: ea) e' eb sm r c); [rewrite Q; auto|]. cbn. rewrite E. auto.
Qed.
Lemma gone_run cb code st es : forall s s', gone cb code st s -> xrun s es = Some s' -> ~ In (ESubscribe cb code) es -> gone cb code st s'.
Proof.
  induction es as [|e es IH]; intros s s' H; cbn [xrun].
  - intros E; injection E as <-. auto.
  - destruct (xstep s e) as [s1|] eqn:E; [|discriminate]. intros R N.
    apply (IH s1); auto; [|intros Q; apply N; right; auto]. eapply gone_step; eauto. intros ->. apply N. left; auto.
Qed.
Lemma sits_call_self c r s : linv s -> nth_error (x_closures s) r = Some c -> gone (c_cb c) (c_code c) (c_set c) (call_closure r s).
Proof.
  intros L E. split; [apply linv_call; auto|]. unfold call_closure. rewrite E. pose proof (remove_spec c s) as R.
  apply nth_error_In in E. pose proof (l_kind _ L _ _ _ (from_kind _ _ (l_clos _ L _ E))) as O.
  rewrite (r_table _ _ _ R). unfold get_set. rewrite (r_sets _ _ _ R). split; [apply owns_rem; auto|apply rem_self].
Qed.
Lemma call_gone c r s : gone (c_cb c) (c_code c) (c_set c) s -> nth_error (x_closures s) r = Some c -> call_closure r s = s.
Proof.
  intros (L & O & H) E. unfold call_closure. rewrite E. destruct c as [i cb code st]. cbn in *. unfold remove_listener.
  destruct (mem cb (get_set st s)) eqn:M; auto. apply mem_in in M. contradiction.
Qed.
Lemma clos_step s e s' : xstep s e = Some s' -> exists ext, x_closures s' = x_closures s ++ ext.
Proof.
  intros E. pose proof (grow_step _ _ _ E) as G.
  assert (D : grow s s' -> exists ks, x_closures s' = x_closures s ++ ks) by (intros [_ _ _ _ _ (ks & K & _)]; eauto).
  destruct e; auto; clear G D; cbn [xstep] in E.
  - injection E as <-. destruct (x_attached s) eqn:A; [|unfold subscribe; rewrite A; exists []; rewrite app_nil_r; auto].
    destruct (a_clos _ _ _ _ (subscribe_spec cb code s A)) as (ext & X & _). eauto.
  - destruct (Nat.ltb _ _); [|discriminate]. injection E as <-. exists []. rewrite app_nil_r. apply calls_clos.
  - exists []. rewrite app_nil_r.
    assert (W : forall code0 m q, x_closures (common_callback react order code0 m (sx_pushes q s)) = x_closures s).
    { intros code0 m q. apply (common_inv (fun s1 => x_closures s1 = x_closures s)); auto.
      intros r s1 _ K. rewrite calls_clos. auto. }
    destruct (x_pushes s) as [|[[code0|n] m] q]; [discriminate| |injection E as <-; auto].
    destruct (tget code0 (x_table s)) as [st0|]; [destruct (perm_b _ _); [|discriminate]|]; injection E as <-; apply W.
Qed.
Lemma clos_run es : forall s s', xrun s es = Some s' -> exists ext, x_closures s' = x_closures s ++ ext.
Proof.
  induction es as [|e es IH]; intros s s'; cbn [xrun].
  - intros E; injection E as ->. exists []. rewrite app_nil_r; auto.
  - destruct (xstep s e) eqn:E; [|discriminate]. intros R. destruct (clos_step _ _ _ E) as [k1 K1]. destruct (IH _ _ R) as [k2 K2].
    exists (k1 ++ k2). rewrite K2, K1, app_assoc. auto.
Qed.
