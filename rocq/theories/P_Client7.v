(** Proof machinery for Client.v: which handlers the connections carry (C70). *)
From Verif Require Import Py F64 Struct Utf Utility Const Decode World Client P_Client P_Client2 P_Client3 P_Client4 P_Client5 P_Client6.
From Coq Require Import Lia Permutation.

(** a client handler is registered under its own code *)
Definition own (h : list (Z * handler)) : Prop := forall c c', tget c h = Some (HClient c') -> c' = c.
Definition handlers_ok (s : cstate) : Prop := forall q, In q (x_protos s) -> own (q_handlers q).

Lemma own_tset c h l : own l -> (forall c', h = HClient c' -> c' = c) -> own (tset c h l).
Proof. intros O H k k'. rewrite tget_tset. destruct (Z.eqb_spec k c); [intros E; injection E as E; subst; auto|apply O]. Qed.
Lemma own_tdel c l : own l -> own (tdel c l).
Proof. intros O k k'. rewrite tget_tdel. destruct (k =? c); [discriminate|apply O]. Qed.
Lemma own_nil : own []. Proof. intros k k'. discriminate. Qed.
Lemma handlers_upd p f s : handlers_ok s -> (forall q, own (q_handlers q) -> own (q_handlers (f q))) -> handlers_ok (upd_proto p f s).
Proof.
  intros H F q I. unfold upd_proto in I. cbn [x_protos sx_protos] in I. apply in_lset in I. destruct I as [->|I]; auto. apply F.
  unfold get_proto. destruct (Nat.lt_ge_cases p (List.length (x_protos s))) as [L|L]; [apply H, nth_In; auto|]. rewrite nth_overflow by auto. apply own_nil.
Qed.
Lemma handlers_same s s' : x_protos s' = x_protos s -> handlers_ok s -> handlers_ok s'.
Proof. unfold handlers_ok. intros ->. auto. Qed.
Lemma handlers_on_cur f s : (forall p s, handlers_ok s -> handlers_ok (f p s)) -> handlers_ok s -> handlers_ok (on_cur f s).
Proof. intros F H. unfold on_cur. destruct (x_cur s); auto. Qed.
Lemma handlers_register p c h s : (forall c', h = HClient c' -> c' = c) -> handlers_ok s -> handlers_ok (p_register p c h s).
Proof. intros E H. apply handlers_upd; auto. intros q O. cbn. apply own_tset; auto. Qed.
Lemma handlers_unregister p c s : handlers_ok s -> handlers_ok (p_unregister p c s).
Proof. intros H. apply handlers_upd; auto. intros q O. cbn. apply own_tdel; auto. Qed.
Lemma handlers_clear p s : handlers_ok s -> handlers_ok (p_clear p s).
Proof. intros H. apply handlers_upd; auto. intros q O. apply own_nil. Qed.
Lemma handlers_ka b p s : handlers_ok s -> handlers_ok (p_keepalive b p s).
Proof. intros H. apply handlers_upd; auto. Qed.
Lemma handlers_returned i s : handlers_ok s -> handlers_ok (returned i s).
Proof. apply handlers_same. apply (sconn_returned i s). Qed.
Lemma handlers_enter_unsub i s : handlers_ok s -> handlers_ok (enter_unsub i s).
Proof.
  intros H. unfold enter_unsub. destruct (x_client s); [|apply handlers_returned; auto].
  eapply handlers_same; [reflexivity|]. apply handlers_on_cur; [intros; apply handlers_clear; auto|].
  apply handlers_on_cur; [intros; apply handlers_ka; auto|]. auto.
Qed.
Lemma handlers_begin_unsub i s : handlers_ok s -> handlers_ok (begin_unsub i s).
Proof.
  intros H. unfold begin_unsub. destruct (x_attached s); [|apply handlers_returned; auto]. destruct (lock_free s); auto.
  apply handlers_enter_unsub. auto.
Qed.
Lemma handlers_begin_sub i s : handlers_ok s -> handlers_ok (begin_sub i s).
Proof. apply handlers_same. apply (sconn_begin_sub i s). Qed.
Lemma handlers_subscribe cb code s : handlers_ok s -> handlers_ok (subscribe cb code s).
Proof.
  intros H. unfold subscribe. destruct (x_attached s); auto.
  destruct (match tget code (x_table s) with Some st => (st, s) | None => _ end) as [st s1] eqn:E1.
  assert (H1 : handlers_ok s1). { destruct (tget code (x_table s)); injection E1 as <- <-; auto. }
  set (s2 := if mem cb (get_set st s1) then s1 else _). assert (H2 : handlers_ok s2) by (unfold s2; destruct (mem _ _); auto).
  clearbody s2. set (s3 := on_cur _ s2).
  assert (H3 : handlers_ok s3) by (apply handlers_on_cur; auto; intros; apply handlers_register; auto; intros c' E; injection E as ->; auto).
  clearbody s3. cbv zeta. destruct (x_needed _); [apply handlers_begin_sub; auto|apply handlers_returned; auto].
Qed.
Lemma handlers_remove c s : handlers_ok s -> handlers_ok (remove_listener c s).
Proof.
  intros H. unfold remove_listener. destruct c as [i cb code st]. destruct (mem _ _); auto. cbv zeta.
  destruct (filter _ _); auto. destruct (tget code _); auto. destruct (x_attached _); auto.
  set (s2 := on_cur _ _). assert (H2 : handlers_ok s2) by (apply handlers_on_cur; auto; intros; apply handlers_unregister; auto).
  clearbody s2. destruct (x_table s2); auto.
Qed.
Lemma handlers_call r s : handlers_ok s -> handlers_ok (call_closure r s).
Proof. intros H. unfold call_closure. destruct (nth_error _ _); auto. apply handlers_remove; auto. Qed.
Lemma handlers_attach i p s : handlers_ok s -> handlers_ok (attach_to i p s).
Proof.
  intros H. unfold attach_to. cbv zeta. destruct (x_needed _); [|apply handlers_returned; auto].
  apply handlers_begin_sub. set (s1 := p_clear p _). assert (H1 : handlers_ok s1) by (apply handlers_clear; auto). clearbody s1.
  generalize (map fst (x_table s1)). intros l. revert s1 H1. induction l as [|c l IH]; intros s1 H1; cbn [fold_left]; auto.
  apply IH. apply handlers_register; auto. intros c' E; injection E as ->; auto.
Qed.
Lemma handlers_by_task who k f s s' : (forall i s, handlers_ok s -> handlers_ok (f i s)) -> handlers_ok s -> by_task who k f s = Some s' -> handlers_ok s'.
Proof.
  intros F H. unfold by_task. destruct who as [i|].
  - destruct (top i s) as [[| | | |]|]; try discriminate. intros E; injection E as <-. auto.
  - intros E; injection E as <-. apply F. auto.
Qed.
Lemma handlers_step s e s' : handlers_ok s -> xstep s e = Some s' -> handlers_ok s'.
Proof.
  intros H. destruct e as [cb code|r|who| |who p|p|i|i|i|i|i|i|p code h|p code|p code m|order react]; cbn [xstep].
  - intros E; injection E as <-. apply handlers_subscribe; auto.
  - destruct (Nat.ltb _ _); [|discriminate]. intros E; injection E as <-. apply handlers_call; auto.
  - apply handlers_by_task; auto. intros i s1 H1. destruct (x_is_client s1); auto. apply handlers_begin_unsub; auto.
  - intros E; injection E as <-. intros q I. cbn [x_protos sx_protos] in I. apply in_app_iff in I. destruct I as [I|[<-|[]]]; [apply H; auto|apply own_nil].
  - destruct (Nat.ltb _ _); [|discriminate]. apply handlers_by_task; auto. intros; apply handlers_attach; auto.
  - destruct (q_up _); [|discriminate]. intros E; injection E as <-. apply handlers_upd; auto.
  - destruct (top i s) as [[| | | |]|]; try discriminate. intros E; injection E as <-. apply handlers_begin_unsub; auto.
  - destruct (top i s) as [[| | | |]|]; try discriminate; intros E; injection E as <-; auto.
  - destruct (x_locked s); [discriminate|]. destruct (x_queue s) as [|j q]; [discriminate|]. destruct (Nat.eqb i j); [|discriminate].
    destruct (top i s) as [[| | | |]|]; try discriminate; intros E; injection E as <-.
    + eapply handlers_same; [apply sconn_enter_sub|]. auto.
    + apply handlers_enter_unsub; auto.
  - destruct (top i s) as [[| | | |]|]; try discriminate; intros E; injection E as <-. apply handlers_returned.
    set (s1 := on_cur _ _). assert (H1 : handlers_ok s1) by (apply handlers_on_cur; [intros; apply handlers_ka; auto|auto]). auto.
  - destruct (top i s) as [[| | | |]|]; try discriminate; intros E; injection E as <-; auto.
  - destruct (top i s) as [[| | | |]|]; try discriminate; intros E; injection E as <-. apply handlers_returned; auto.
  - intros E; injection E as <-. apply handlers_register; auto. discriminate.
  - intros E; injection E as <-. apply handlers_unregister; auto.
  - destruct (q_up _); [|discriminate]. destruct (tget code _); intros E; injection E as <-; auto.
  - assert (W : forall code0 m q, handlers_ok (common_callback react order code0 m (sx_pushes q s))).
    { intros code0 m q. apply (common_inv handlers_ok); auto. intros r s1 _ H1. apply handlers_call; auto. }
    destruct (x_pushes s) as [|[[code0|n] m] q]; [discriminate| |intros E; injection E as <-; auto].
    destruct (tget code0 (x_table s)) as [st0|]; [destruct (perm_b _ _); [|discriminate]|]; intros E; injection E as <-; apply W.
Qed.
Lemma handlers_run es s : xrun client_init es = Some s -> handlers_ok s.
Proof. apply (run_inv handlers_ok); [intros; eapply handlers_step; eauto|]. intros q []. Qed.
Lemma push_code s p code h : handlers_ok s -> q_up (get_proto p s) = true -> tget code (q_handlers (get_proto p s)) = Some h ->
  forall c, h = HClient c -> c = code.
Proof.
  intros H U T c ->. unfold get_proto in *. destruct (Nat.lt_ge_cases p (List.length (x_protos s))) as [L|L].
  - apply (H _ (nth_In _ no_proto L)); auto.
  - rewrite nth_overflow in U by auto. discriminate.
Qed.

(** what an unsubscribe function leaves alone *)
Definition leaves (code : Z) (s s' : cstate) : Prop :=
  x_client s' = x_client s /\ x_cur s' = x_cur s /\ x_locked s' = x_locked s /\ x_queue s' = x_queue s /\
  forall p, q_up (get_proto p s') = q_up (get_proto p s) /\ q_ka (get_proto p s') = q_ka (get_proto p s) /\
    forall code', code' <> code -> tget code' (q_handlers (get_proto p s')) = tget code' (q_handlers (get_proto p s)).
Lemma leaves_refl code s : leaves code s s. Proof. unfold leaves. auto 10. Qed.
Lemma remove_leaves c s : leaves (c_code c) s (remove_listener c s).
Proof.
  unfold remove_listener. destruct c as [i cb code st]. cbn [c_code]. destruct (mem _ _); [|apply leaves_refl]. cbv zeta.
  destruct (filter _ _); [|unfold leaves; auto 10]. destruct (tget code _); [|unfold leaves; auto 10]. destruct (x_attached _); [|unfold leaves; auto 10].
  set (s1 := sx_table _ _). set (s2 := on_cur _ s1).
  assert (H : leaves code s s2).
  { unfold s2, on_cur. destruct (x_cur s1) as [p|]; [|unfold leaves, s1; auto 10]. unfold leaves.
    split; [reflexivity|]. split; [reflexivity|]. split; [reflexivity|]. split; [reflexivity|]. intros q.
    destruct (Nat.lt_ge_cases p (List.length (x_protos s1))) as [L|L].
    - unfold p_unregister. rewrite get_upd by auto. destruct (Nat.eqb_spec q p); [|auto 10]. subst q. cbn [q_up q_ka q_handlers].
      split; [reflexivity|]. split; [reflexivity|]. intros c' N. rewrite tget_tdel. destruct (Z.eqb_spec c' code); [contradiction|reflexivity].
    - unfold p_unregister, upd_proto. rewrite xlset_out by auto. auto 10. }
  clearbody s2. destruct (x_table s2); exact H.
Qed.
Lemma call_leaves r c s : nth_error (x_closures s) r = Some c -> leaves (c_code c) s (call_closure r s).
Proof. intros E. unfold call_closure. rewrite E. apply remove_leaves. Qed.
