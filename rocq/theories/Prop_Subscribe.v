(** Theorems about subscribing as seen by one task (C68, C72, C73).

    Vocabulary: Api.v ([session n w l w']), Gateway.v ([async_subscribe_client n cb code],
    [is_connected] and [is_client], the properties of that name), World.v ([Stuck y]: the
    call never ends; [Blocked]: it waits for a lock it holds itself).  Connections are
    numbered in the order in which they were opened; [get_conn c w] is connection [c].
    Several tasks at once are the subject of Prop_Client.v. *)
From Verif Require Import Py F64 Struct Utf Utility Const Spec Enum Decode World Request Gateway Traces Paths Api Hostile
  P_Base P_Request P_Sat P_Gw1 P_Gw6 P_Cm P_Cm2 P_Cm3 Prop_Request Prop_Gateway Prop_Connect.

(** [w] is a state of a gateway between calls: some calls, all of which returned or
    raised, were made on a new gateway *)
Definition between_calls (w : world) : Prop :=
  exists n client_id mr rnd env h w0 l, new_gateway client_id mr rnd env h = Ok w0 /\ session n w0 l w.

Lemma between_follows w : between_calls w -> follows w /\ m_locked (w_cm w) = false.
Proof. intros (n & a & b & r & e & h & w0 & l & E & S). eapply session_follows; eassumption. Qed.

(** running calls one after the other, for the examples *)
Fixpoint played (n : nat) (w : world) (cs : list api_call) : option (list step_of * world) :=
  match cs with
  | [] => Some ([], w)
  | c :: cs' =>
      match perform n c w with
      | (_, _, Stuck _) => None
      | (t, w1, o) => match played n w1 cs' with Some (l, w2) => Some (Called c t o :: l, w2) | None => None end
      end
  end.
Lemma played_session n cs : forall w l w', played n w cs = Some (l, w') -> session n w l w'.
Proof.
  induction cs as [|c cs IH]; intros w l w' E; cbn [played] in E; [injection E as <- <-; constructor|].
  destruct (perform n c w) as [[t w1] o] eqn:P. destruct o as [a|e|y]; [..|discriminate];
    (destruct (played n w1 cs) as [[l2 w2]|] eqn:Q; [|discriminate]; injection E as <- <-; eapply S_call; [exact P|discriminate|apply IH, Q]).
Qed.

(** C73. *)
Theorem C73_no_effect n cb code w : between_calls w -> is_connected w = false ->
  async_subscribe_client n cb code w = ([], w, Val None).
Proof.
  intros B U. apply between_follows in B. destruct B as [F _]. unfold async_subscribe_client. rewrite P_Monad.bind_get.
  rewrite (not_attached w F U). reflexivity.
Qed.
Print Assumptions C73_no_effect.
(** in particular nothing is sent and the listener is not remembered: a later connect does
    not serve it *)
Example C73_nonvacuous : exists w, between_calls w /\ is_connected w = false /\ w_proto w = Some 0%nat /\ m_proto (w_cm w) = Some 0%nat /\
  async_subscribe_client 1 7 12500 w = ([], w, Val None).
Proof.
  destruct (new_gateway (Some 777) (Some 1) 0 (welcome ++ [config_answer; ok; ok]) its_host) as [w0|] eqn:E0; [|exfalso; vm_compute in E0; discriminate].
  destruct (played 3 w0 [Connect to_adapter; Disconnect false]) as [[l w]|] eqn:E; [|exfalso; revert E; vm_compute in E0; injection E0 as <-; vm_compute; discriminate].
  exists w. split; [do 8 eexists; split; [exact E0|eapply played_session; exact E]|].
  vm_compute in E0. injection E0 as <-. vm_compute in E. injection E as _ <-. vm_compute. auto.
Qed.

(** C68 is false of the code.  The lock of the client manager is held while the add-client
    request is made; when that request fails, the gateway reconnects inside it, and the
    reconnect, finding a listener and no client, registers again: it waits for the same
    lock.  Here the adapter does not answer the add-client request twice (one retry) and
    answers everything else. *)
Theorem C68_refuted : exists w t w', between_calls w /\ async_subscribe_client 3 7 12500 w = (t, w', Stuck Blocked) /\
  In (Send 0 12522 [0; 0; 0; 0; 9; 3; 0; 0]) t /\ w_env w' = [ok; ok; ok].
Proof.
  destruct (new_gateway (Some 777) (Some 1) 0 (welcome ++ [config_answer; says KTimeout; ok; says KTimeout; ok; ok; ok] ++ welcome ++ [config_answer; ok; ok; ok]) its_host) as [w0|] eqn:E0;
    [|exfalso; vm_compute in E0; discriminate].
  destruct (played 3 w0 [Connect to_adapter]) as [[l w]|] eqn:E; [|exfalso; revert E; vm_compute in E0; injection E0 as <-; vm_compute; discriminate].
  destruct (async_subscribe_client 3 7 12500 w) as [[t w'] o] eqn:Es.
  exists w, t, w'. split; [do 8 eexists; split; [exact E0|eapply played_session; exact E]|].
  vm_compute in E0. injection E0 as <-. vm_compute in E. injection E as _ <-. vm_compute in Es. injection Es as <- <- <-.
  split; [reflexivity|]. split; [left; reflexivity|reflexivity].
Qed.
Print Assumptions C68_refuted.
(** Without a reconnect it only ever waits for the adapter, the network and its own timers:
    [Waiting] is the end of the script of the environment, [Unfit] an answer to a wait that
    cannot be one.  ([n] is the fuel of connects: 1 suffices here.) *)
Theorem C68_partial n cb code w t w' o : between_calls w -> async_subscribe_client (S n) cb code w = (t, w', o) -> opens t = [] ->
  (exists r, o = Val r) \/ (exists e, o = Exc e) \/ o = Stuck Waiting \/ o = Stuck Unfit.
Proof.
  intros B E O. apply between_follows in B. destruct B as [_ L]. destruct o as [r|e|y]; eauto.
  right; right. destruct (sub_noopen n cb code w t w' y E L O) as [->| ->]; auto.
Qed.
Print Assumptions C68_partial.
(** and the lock is free again after every call that ended, so the next call does not wait for it *)
Theorem C68_lock_free_partial w : between_calls w -> m_locked (w_cm w) = false.
Proof. intros B. apply between_follows in B. apply B. Qed.
Print Assumptions C68_lock_free_partial.
Example C68_nonvacuous : exists w t w' t2 w2, between_calls w /\
  async_subscribe_client 1 7 12500 w = (t, w', Val (Some tt)) /\ opens t = [] /\ In (Send 0 12522 [0; 0; 0; 0; 9; 3; 0; 0]) t /\
  async_subscribe_client 1 8 12500 w' = (t2, w2, Val (Some tt)) /\ t2 = [].
Proof.
  destruct (new_gateway (Some 777) (Some 1) 0 (welcome ++ [config_answer; says (KReply 12523 [])]) its_host) as [w0|] eqn:E0;
    [|exfalso; vm_compute in E0; discriminate].
  destruct (played 3 w0 [Connect to_adapter]) as [[l w]|] eqn:E; [|exfalso; revert E; vm_compute in E0; injection E0 as <-; vm_compute; discriminate].
  destruct (async_subscribe_client 1 7 12500 w) as [[t w'] o] eqn:Es. destruct (async_subscribe_client 1 8 12500 w') as [[t2 w2] o2] eqn:Es2.
  exists w, t, w', t2, w2. split; [do 8 eexists; split; [exact E0|eapply played_session; exact E]|].
  vm_compute in E0. injection E0 as <-. vm_compute in E. injection E as _ <-. vm_compute in Es. injection Es as <- <- <-.
  vm_compute in Es2. injection Es2 as <- <- <-. split; [reflexivity|]. split; [reflexivity|]. split; [left; reflexivity|]. split; reflexivity.
Qed.

(** C72.  A connect of a gateway that was not connected and has listeners, once it returned
    True: if the connection is still up, it is a new one, the push handlers on it are
    exactly those of the codes that have listeners, an add-client request with the client
    id was made on it and the gateway is registered as client. *)
Theorem C72_reconnect n x w t w' : between_calls w -> is_connected w = false -> m_listeners (w_cm w) <> [] ->
  async_connect n x w = (t, w', Val true) -> is_connected w' = true ->
  exists c, w_proto w' = Some c /\ (List.length (w_conns w) <= c)%nat /\
    (forall code h, In (code, h) (c_handlers (get_conn c w')) <-> h = HClient code /\ exists cbs, In (code, cbs) (m_listeners (w_cm w))) /\
    In (Send c 12522 (u32le 0 ++ u32le (m_id (w_cm w)))) t /\
    is_client w' = true /\ c_keepalive (get_conn c w') = true /\
    m_listeners (w_cm w') = m_listeners (w_cm w) /\ m_id (w_cm w') = m_id (w_cm w).
Proof.
  intros B U Ls E U'. apply between_follows in B. destruct B as [F L].
  assert (H : high w w') by (eapply connect_high; [exact E|discriminate]). destruct H as (H1 & _ & H2 & _).
  apply connect_served in E; auto. destruct E as (c & A1 & A2 & A3 & A4 & A5 & A6). exists c. repeat (split; [assumption|]).
  split; [|auto 10]. intros code h. rewrite A5. split.
  - intros [-> I]. split; [reflexivity|]. apply in_map_iff in I. destruct I as ([k s] & Ek & I). cbn in Ek. subst k. eauto.
  - intros [-> (s & I)]. split; [reflexivity|]. apply in_map_iff. exists (code, s). auto.
Qed.
Print Assumptions C72_reconnect.
Example C72_nonvacuous : exists w t w', between_calls w /\ is_connected w = false /\ m_listeners (w_cm w) = [(12500, [7%nat]); (12505, [8%nat])] /\
  async_connect 2 no_args w = (t, w', Val true) /\ is_connected w' = true /\ w_proto w' = Some 1%nat.
Proof.
  destruct (new_gateway (Some 777) (Some 1) 0 (welcome ++ [config_answer; says (KReply 12523 []); says (KReply 12525 []); ok; ok] ++ welcome ++ [config_answer; says (KReply 12523 [])]) its_host) as [w0|] eqn:E0;
    [|exfalso; vm_compute in E0; discriminate].
  destruct (played 3 w0 [Connect to_adapter; Subscribe 7 12500; Subscribe 8 12505; Disconnect false]) as [[l w]|] eqn:E; [|exfalso; revert E; vm_compute in E0; injection E0 as <-; vm_compute; discriminate].
  destruct (async_connect 2 no_args w) as [[t w'] o] eqn:Es.
  exists w, t, w'. split; [do 8 eexists; split; [exact E0|eapply played_session; exact E]|].
  vm_compute in E0. injection E0 as <-. vm_compute in E. injection E as _ <-. vm_compute in Es. injection Es as <- <- <-. vm_compute. auto 10.
Qed.
