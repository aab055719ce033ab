(** Property theorems C04, C05, C17-C26, C87: the connection protocol (requests/protocol.py).

    A history is a list of events (Protocol.v): bytes arriving, requests, cancellations,
    closes, loss of the connection, registrations, timer expiries, in any order.  [reachable]
    states are those some history leads to from a new protocol object.  [frames ms] is the
    concatenation of the frames (Spec.v) of [ms]; [messages_of log] are the delivered
    messages in order; request number [f] is the f-th call of await_send_message. *)
From Verif Require Import Py F64 Struct Utf Utility Spec P_Base P_Util Protocol P_Proto1 P_Proto2 P_Proto3 P_Proto4 P_Proto5.

(** C04. Any way of cutting a stream into non-zero chunks gives the state one chunk gives:
    same messages delivered in the same order, same buffer, same everything. *)
Theorem C04_chunking s chunks : reachable s -> chunks <> [] -> Forall wf_bytes chunks ->
  prun s (map EvData chunks) = prun s [EvData (List.concat chunks)].
Proof. intros R N F. apply chunks_once; auto. apply reach_inv. exact R. Qed.
Print Assumptions C04_chunking.
Example C04_nonvacuous :
  let s := prun (p_init true) [EvMade; EvRequest 12526 []] in
  p_log (prun s (map EvData [[0;0]; [239;48;1]; []; [0;0;0]; [42; 7]])) =
  p_log s ++ [OutCompleted 0 (0, 12527, [42])].
Proof. (vm_compute; reflexivity). Qed.

(** C05. The bytes accepted in a history determine the messages delivered and the bytes kept. *)
Theorem C05_reassembly cb es ms rest : history es ->
  accepted (p_init cb) es = frames ms ++ rest -> Forall wf_msg ms -> incomplete rest ->
  messages_of (p_log (prun (p_init cb) es)) = ms /\ p_buff (prun (p_init cb) es) = rest.
Proof. exact (stream_all cb es ms rest). Qed.
Print Assumptions C05_reassembly.
(** ... and every stream of bytes has exactly one such decomposition *)
Theorem C05_decomposition b : wf_bytes b -> exists ms rest,
  b = frames ms ++ rest /\ Forall wf_msg ms /\ incomplete rest /\
  forall ms' rest', b = frames ms' ++ rest' -> Forall wf_msg ms' -> incomplete rest' -> ms' = ms /\ rest' = rest.
Proof.
  intros W. destruct (cm_decompose (List.length b) b (le_n _) W) as (ms & rest & E & F & I & _). exists ms, rest.
  repeat (split; [assumption|]). intros ms' rest' E' F' I'. apply frames_unique; auto. congruence.
Qed.
Print Assumptions C05_decomposition.
Example C05_nonvacuous :
  let es := [EvMade; EvData [5;128;1;0;0]; EvData [0;0;0;6;128;2]; EvTick 3; EvData [0;1;0;0;0;9;1]] in
  accepted (p_init false) es = frames [(32773, 1, []); (32774, 2, [9])] ++ [1]
  /\ messages_of (p_log (prun (p_init false) es)) = [(32773, 1, []); (32774, 2, [9])].
Proof. split; (vm_compute; reflexivity). Qed.

(** C17. *)
Theorem C17_message_ids s : reachable s ->
  (forall k f id, nth_error (requests_of (p_log s)) k = Some (f, id) -> 0 <= id <= 32766) /\
  (forall j k f g id1 id2, (j < k)%nat -> Z.of_nat k < Z.of_nat j + 32767 ->
     nth_error (requests_of (p_log s)) j = Some (f, id1) ->
     nth_error (requests_of (p_log s)) k = Some (g, id2) -> id1 <> id2).
Proof. exact (ids_ok s). Qed.
Print Assumptions C17_message_ids.
(** the id is the one on the wire: what a request writes is the frame with that id *)
Theorem C17_id_on_wire s code data : reachable s -> p_transport s = TUp -> p_closing s = false ->
  is_u16 code -> zlen data < 4294967296 ->
  let s' := pstep s (EvRequest code data) in
  let f := List.length (p_futs s) in
  p_log s' = p_log s ++ [OutRequest f (Z.of_nat f mod 32767) code data; OutWrite (frame (Z.of_nat f mod 32767, code, data))].
Proof.
  intros R T C Hc Hd s' f. destruct (reach_inv s R) as (I & _). destruct I as [_ Nx _ _ _ _].
  unfold s'. cbn [pstep]. unfold await_send_message. cbn [up_log up_futs up_next p_closing]. rewrite C.
  unfold send_message. cbn [up_log up_futs up_next p_transport]. rewrite T.
  assert (M : makeMessage (p_next s) code data = Ok (frame (p_next s, code, data))).
  { rewrite makeMessage_spec. unfold is_u16 in *. rewrite Nx. unfold kth_id. clear - Hc Hd.
    assert (0 <= Z.of_nat (List.length (p_futs s)) mod 32767 < 32767) by (apply Z.mod_pos_bound; reflexivity).
    replace (_ && _) with true by lia. reflexivity. }
  rewrite M. cbn [fst].
  match goal with |- context [up_last ?a ?x] => set (s1 := up_last a x) end.
  assert (L : p_log (match p_ka s1 with Some _ => set_keepalive s1 | None => s1 end) = p_log s1).
  { destruct (p_ka s1); [|reflexivity]. apply set_keepalive_frame. }
  transitivity (p_log s1); [exact L|]. unfold s1. cbn [up_last up_log up_futs up_next p_log].
  rewrite <- app_assoc. cbn [app]. rewrite Nx. reflexivity.
Qed.
Print Assumptions C17_id_on_wire.
Example C17_nonvacuous :
  p_log (prun (p_init false) [EvMade; EvRequest 8120 []; EvRequest 16 [1]]) =
  [OutRequest 0 0 8120 []; OutWrite [0;0;184;31;0;0;0;0]; OutRequest 1 1 16 [1]; OutWrite [1;0;16;0;1;0;0;0;1]].
Proof. (vm_compute; reflexivity). Qed.

(** C18. Completion only by a message carrying the request's id ... *)
Theorem C18_only_own_reply s f m : reachable s -> fget f (p_futs s) = FDone m ->
  In (OutCompleted f m) (p_log s) /\ In (f, msg_id m) (requests_of (p_log s)) /\ NoDup (map fst (completions_of (p_log s))).
Proof.
  intros R D. split; [apply done_completed; assumption|]. split; [|apply completed_once; assumption].
  eapply completed_ids; eauto. apply done_completed; assumption.
Qed.
Print Assumptions C18_only_own_reply.
(** ... once resolved, nothing that happens later changes the outcome ... *)
Theorem C18_outcome_final s es f : reachable s -> history es -> (f < List.length (p_futs s))%nat ->
  fget f (p_futs s) <> FPending -> fget f (p_futs (prun s es)) = fget f (p_futs s).
Proof. exact (resolved_stable s es f). Qed.
Print Assumptions C18_outcome_final.
(** ... one delivered message has at most one effect (so it completes at most one request) ... *)
Theorem C18_one_effect s b : reachable s -> wf_bytes b ->
  exists os, p_log (pstep s (EvData b)) = p_log s ++ os /\ List.length (messages_of os) = List.length os.
Proof.
  intros R W. destruct (reach_inv s R) as (I & Wb & _). cbn [pstep].
  destruct (data_received_spec s b I Wb W) as (_ & _ & _ & os & L & N & _).
  destruct (p_transport s); [exists []; rewrite app_nil_r; auto|exists os; auto..|exists []; rewrite app_nil_r; auto].
Qed.
Print Assumptions C18_one_effect.
(** ... and the reply of a pending request does complete it ([current]: its id has not been
    handed out again, which takes 32767 more requests). *)
Theorem C18_reply_completes s f m : reachable s -> up s = true -> p_closing s = false -> p_buff s = [] -> wf_msg m ->
  fget f (p_futs s) = FPending -> current s f -> msg_id m = Z.of_nat f mod 32767 ->
  let s' := pstep s (EvData (frame m)) in
  fget f (p_futs s') = FDone m /\ p_log s' = p_log s ++ [OutCompleted f m].
Proof. exact (reply_completes s f m). Qed.
Print Assumptions C18_reply_completes.
Example C18_nonvacuous :
  let s := prun (p_init false) [EvMade; EvRequest 8120 []; EvRequest 16 []; EvRequest 14 []; EvCancel 1] in
  p_log (prun s [EvData (frame (2, 15, [5])); EvData (frame (1, 17, [])); EvData (frame (0, 8121, [])); EvData (frame (2, 15, [6]))])
  = p_log s ++ [OutCompleted 2 (2, 15, [5]); OutDropped (1, 17, []); OutCompleted 0 (0, 8121, []); OutDropped (2, 15, [6])].
Proof. (vm_compute; reflexivity). Qed.

(** C19. *)
Theorem C19_adapter_messages s f m : reachable s -> In (OutCompleted f m) (p_log s) -> 0 <= msg_id m <= 32766.
Proof. intros R H. apply (completed_ids s f m R H). Qed.
Print Assumptions C19_adapter_messages.
Theorem C19_to_handler s m : reachable s -> up s = true -> p_closing s = false -> p_buff s = [] -> wf_msg m ->
  32767 <= msg_id m ->
  let s' := pstep s (EvData (frame m)) in
  p_futs s' = p_futs s /\
  p_log s' = p_log s ++ [match zget (msg_code m) (p_cbs s) with Some h => OutHandler h m | None => OutDropped m end].
Proof. exact (unsolicited s m). Qed.
Print Assumptions C19_to_handler.
Example C19_nonvacuous :
  let s := prun (p_init false) [EvMade; EvRegister 12500 3; EvRequest 8120 []] in
  p_log (pstep s (EvData (frame (32768, 12500, [1;2])))) = p_log s ++ [OutHandler 3 (32768, 12500, [1;2])].
Proof. (vm_compute; reflexivity). Qed.

(** C20. Each message of the stream, in order, has exactly one effect: the completion of a
    request, one run of the handler registered for its code, or a drop if there is none. *)
Theorem C20_dispatch s b : reachable s -> wf_bytes b -> up s = true -> p_closing s = false ->
  exists os, p_log (pstep s (EvData b)) = p_log s ++ os /\
  frames (messages_of os) ++ p_buff (pstep s (EvData b)) = p_buff s ++ b /\
  Forall (fun o => exists m,
      (exists f, o = OutCompleted f m)
      \/ (exists h, zget (msg_code m) (p_cbs s) = Some h /\ o = OutHandler h m)
      \/ (zget (msg_code m) (p_cbs s) = None /\ o = OutDropped m)) os.
Proof. exact (dispatch s b). Qed.
Print Assumptions C20_dispatch.
(** a message that is not the reply of a pending request goes to the handler: its id is not
    the id of a pending request *)
Theorem C20_non_reply s m : reachable s -> up s = true -> p_closing s = false -> p_buff s = [] -> wf_msg m ->
  (forall f, fget f (p_futs s) = FPending -> Z.of_nat f mod 32767 <> msg_id m) ->
  let s' := pstep s (EvData (frame m)) in
  p_futs s' = p_futs s /\
  p_log s' = p_log s ++ [match zget (msg_code m) (p_cbs s) with Some h => OutHandler h m | None => OutDropped m end].
Proof.
  intros R U C B W N s'. destruct (reach_inv s R) as (I & _). unfold s'. rewrite (one_message s m R U C B W).
  destruct (InvF_mark_done s m I) as (s1 & b & Em & _ & Cb & Ht & Hf).
  unfold deliver. rewrite Em. destruct b.
  - destruct (Ht eq_refl) as (f & _ & Hid & P & _). exfalso. apply (N f P). exact Hid.
  - destruct (Hf eq_refl) as (L & F & _). rewrite Cb. destruct (zget (msg_code m) (p_cbs s)); cbn [up_buff up_log p_futs p_log]; rewrite L, F; auto.
Qed.
Print Assumptions C20_non_reply.
Example C20_nonvacuous :
  let s := prun (p_init false) [EvMade; EvRegister 12500 3; EvRegister 12505 4; EvRequest 8120 []] in
  p_log (pstep s (EvData (frame (9, 12505, [1]) ++ frame (0, 8121, [2]) ++ frame (32768, 12500, []) ++ frame (32769, 9, []))))
  = p_log s ++ [OutHandler 4 (9, 12505, [1]); OutCompleted 0 (0, 8121, [2]); OutHandler 3 (32768, 12500, []); OutDropped (32769, 9, [])].
Proof. (vm_compute; reflexivity). Qed.

(** C21. From the call of async_close on: incoming bytes change nothing, every request comes
    back cancelled, nothing is written or delivered ([quiet]: none of the observable effects
    is a write, a completion, a handler run or a drop).  [direct_send] events are calls of
    protocol.send_message by the application itself, which the library never makes. *)
Theorem C21_closing s force es : reachable s -> p_transport s <> TNone ->
  history es -> forallb (fun e => negb (direct_send e)) es = true ->
  let s0 := pstep s (EvClose force) in
  let s1 := prun s0 es in
  (exists os, p_log s1 = p_log s ++ os /\ Forall quiet os)
  /\ p_buff s1 = p_buff s0
  /\ (forall b, pstep s1 (EvData b) = s1)
  /\ (forall code data, fget (List.length (p_futs s1)) (p_futs (pstep s1 (EvRequest code data))) = FCancelled)
  /\ (forall f, fget f (p_futs s1) = FPending -> fget f (p_futs s0) = FPending).
Proof.
  intros R T Hs D s0 s1. destruct (close_closing s force T) as (C & L).
  destruct (run_closing es s0 C D) as (C1 & (os & L1 & Q) & B & P & F).
  split; [exists os; unfold s1; rewrite L1; unfold s0; rewrite L; auto|].
  split; [exact B|]. split.
  { intros b. cbn [pstep]. unfold data_received. fold s1 in C1. rewrite C1. destruct (p_transport s1); reflexivity. }
  split; [|exact P].
  intros code data. cbn [pstep]. unfold await_send_message. cbn [up_log up_futs up_next p_closing p_futs]. fold s1 in C1. rewrite C1.
  cbn [fst up_futs p_futs]. rewrite fget_fcancel, Nat.eqb_refl. unfold fget at 1. rewrite app_nth2 by lia. rewrite Nat.sub_diag. reflexivity.
Qed.
Print Assumptions C21_closing.
Example C21_nonvacuous :
  let s := prun (p_init true) [EvMade; EvRequest 8120 []] in
  p_transport s = TUp /\
  p_log (prun s [EvClose false; EvData (frame (0, 8121, [])); EvRequest 16 []; EvCancel 0; EvCloseResume 0; EvLost])
  = p_log s ++ [OutRequest 1 1 16 []; OutClosedTransport; OutLost].
Proof. split; (vm_compute; reflexivity). Qed.

(** C22. *)
Theorem C22_force_close s f : reachable s -> p_transport s <> TNone -> outstanding s f ->
  fget f (p_futs (pstep s (EvClose true))) = FCancelled.
Proof. intros R T (P & C). apply force_close; assumption. Qed.
Print Assumptions C22_force_close.
Example C22_nonvacuous :
  let s := prun (p_init true) [EvMade; EvRequest 8120 []; EvRequest 16 []] in
  outstanding s 0 /\ outstanding s 1 /\ p_futs (pstep s (EvClose true)) = [FCancelled; FCancelled].
Proof.
  assert (K : forall s f, List.length (p_futs s) = 2%nat -> (f < 2)%nat -> current s f).
  { intros s f L Hf g Hg. rewrite L in Hg. assert (f = 0 /\ g = 1)%nat as (-> & ->) by lia. cbn. lia. }
  split; [|split; [|(vm_compute; reflexivity)]]; (split; [(vm_compute; reflexivity)|apply K; [(vm_compute; reflexivity)|lia]]).
Qed.

(** C23 is false of the code. While async_close waits, data_received discards everything, so
    a reply that arrives is lost and its request ends cancelled ... *)
Theorem C23_refuted_reply_lost :
  exists s es f m, reachable s /\ history es /\ outstanding s f
    /\ es = [EvClose false; EvData (frame m); EvCancel f; EvCloseResume 0]
    /\ msg_id m = Z.of_nat f mod 32767
    /\ up (prun s [EvClose false; EvData (frame m)]) = true
    /\ fget f (p_futs (prun s es)) = FCancelled /\ messages_of (p_log (prun s es)) = [].
Proof.
  exists (prun (p_init true) [EvMade; EvRequest 8120 []]), [EvClose false; EvData (frame (0, 8121, [1])); EvCancel 0; EvCloseResume 0], 0%nat, (0, 8121, [1]).
  split; [exists true, [EvMade; EvRequest 8120 []]; split; [repeat constructor|(vm_compute; reflexivity)]|].
  split. { repeat (apply Forall_cons || apply Forall_nil); try exact Logic.I; cbn; repeat (apply Forall_cons || apply Forall_nil); unfold is_byte; lia. }
  split. { split; [(vm_compute; reflexivity)|]. intros g Hg. cbn in Hg. lia. }
  vm_compute; auto 10.
Qed.
Print Assumptions C23_refuted_reply_lost.
(** ... and one timed-out request whose entry is still in the table makes the wait end at
    once: the transport is closed while another request is pending. *)
Theorem C23_refuted_no_wait :
  exists s f, reachable s /\ outstanding s f /\
  (let s' := prun s [EvClose false; EvCloseResume 0] in
   In OutClosedTransport (p_log s') /\ fget f (p_futs s') = FPending).
Proof.
  exists (prun (p_init true) [EvMade; EvRequest 8120 []; EvCancel 0; EvRequest 16 []]), 1%nat.
  split; [exists true, [EvMade; EvRequest 8120 []; EvCancel 0; EvRequest 16 []]; split; [repeat constructor|(vm_compute; reflexivity)]|].
  split. { split; [(vm_compute; reflexivity)|]. intros g Hg. cbn in Hg. lia. }
  vm_compute. split; [|reflexivity]. tauto.
Qed.
Print Assumptions C23_refuted_no_wait.
(** What does hold: async_close() leaves its waiting state only when every request that was
    outstanding has been cancelled, or some earlier request is a cancelled one. *)
Theorem C23_graceful_close_partial s es : reachable s -> p_transport s <> TNone -> history es ->
  let n := List.length (p_closers s) in
  let s' := prun (pstep s (EvClose false)) es in
  (forall fs, nth_closer s' n <> CGather fs) ->
  (forall f, outstanding s f -> fget f (p_futs s') = FCancelled)
  \/ (exists g, fget g (p_futs s') = FCancelled /\ (g < List.length (p_futs s))%nat).
Proof. exact (graceful_close s es). Qed.
Print Assumptions C23_graceful_close_partial.
Example C23_nonvacuous :
  let s := prun (p_init true) [EvMade; EvRequest 8120 []] in
  nth_closer (prun (pstep s (EvClose false)) [EvCloseResume 0]) 0 = CGather [0%nat]
  /\ nth_closer (prun (pstep s (EvClose false)) [EvCancel 0; EvCloseResume 0]) 0 = CClosed.
Proof. split; (vm_compute; reflexivity). Qed.

(** C24. Loss of the connection: not connected, no timer, the cleanup task is scheduled and
    cannot be lost, and when it runs every outstanding request is cancelled.  The callback
    runs unless the task that was awaiting async_close was cancelled (see C87). *)
Theorem C24_lost s es f : reachable s -> up s = true -> history es ->
  let s1 := pstep s EvLost in
  p_connected s1 = false /\ up s1 = false /\ timers_due s1 = []
  /\ (p_cb s = true -> p_closed s = FPending -> p_log s1 = p_log s ++ [OutLost])
  /\ (forallb (fun e => negb (lost_task e)) es = true ->
      let s2 := prun s1 es in
      outstanding s2 f -> fget f (p_futs (pstep s2 EvLostTask)) = FCancelled).
Proof.
  intros R U Hs s1. destruct (lost_now s U) as (A & B & _ & D & E).
  split; [exact A|]. split; [exact B|]. split; [apply ka_lost; assumption|].
  split. { intros Cb Cl. unfold s1. rewrite E, Cb, Cl. reflexivity. }
  intros N s2 (P & Cu).
  assert (R2 : reachable s2).
  { unfold s2, s1. change (prun (pstep s EvLost) es) with (prun s (EvLost :: es)). apply reach_run; [exact R|]. constructor; [exact Logic.I|exact Hs]. }
  apply lost_task_cancels; auto. pose proof (lost_tasks_run es s1 N) as L. fold s2 in L. unfold s1 in *. lia.
Qed.
Print Assumptions C24_lost.
(** the callback is called at the loss whenever no task awaiting async_close was cancelled *)
Theorem C24_callback es : history es -> forallb (fun e => negb (cancels_close e)) es = true ->
  let s := prun (p_init true) es in
  up s = true -> p_log (pstep s EvLost) = p_log s ++ [OutLost].
Proof.
  intros Hs N s U. destruct (life_run true es Hs) as (Cb & _ & _ & C). destruct (C N) as [D _].
  destruct (lost_now s U) as (_ & _ & _ & _ & E). rewrite E. unfold s. rewrite Cb, (D U). reflexivity.
Qed.
Print Assumptions C24_callback.
Example C24_nonvacuous :
  let s := prun (p_init true) [EvMade; EvEnableKA 0 300; EvRequest 8120 []] in
  timers_due s = [300] /\ timers_due (pstep s EvLost) = []
  /\ p_futs (prun s [EvLost; EvLostTask]) = [FCancelled]
  /\ p_log (prun s [EvLost; EvLostTask]) = p_log s ++ [OutLost].
Proof. vm_compute; auto 10. Qed.

(** C25. At most one timer; armed at now + interval by enabling and by every send while
    enabled; none after disabling, after loss, or while disabled; untouched by anything else;
    and it runs the keepalive only when due, once. *)
Theorem C25_keepalive s : reachable s ->
  (List.length (timers_due s) <= 1)%nat
  /\ (p_ka s = None -> timers_due s = [])
  /\ (forall a i, timers_due (pstep s (EvEnableKA a i)) = [p_now s + i])
  /\ timers_due (pstep s EvDisableKA) = []
  /\ (forall e, sends s e = true -> p_ka s <> None -> timers_due (pstep s e) = [p_now s + p_interval s])
  /\ (forall e, sends s e = false -> match e with EvEnableKA _ _ | EvDisableKA | EvLost | EvFire => False | _ => True end ->
        timers_due (pstep s e) = timers_due s)
  /\ match timers_due s with
     | [d] => if d <=? p_now s
              then exists a, p_ka s = Some a /\ p_log (pstep s EvFire) = p_log s ++ [OutKeepalive a] /\ timers_due (pstep s EvFire) = []
              else pstep s EvFire = s
     | _ => pstep s EvFire = s
     end.
Proof.
  intros R. split; [apply timers_at_most_one; exact R|]. split; [apply ka_off; exact R|].
  split; [intros; apply ka_enable; exact R|]. split; [apply ka_disable; exact R|].
  split; [intros; apply ka_send; auto|]. split; [intros; apply ka_other; auto|]. apply ka_fire. exact R.
Qed.
Print Assumptions C25_keepalive.
(** the same over whole histories: the pending timer is that of an abstract clock [krun] *)
Theorem C25_keepalive_history cb es :
  timers_due (prun (p_init cb) es) = match k_due (krun (p_init cb) k_init es) with Some d => [d] | None => [] end
  /\ p_now (prun (p_init cb) es) = k_now (krun (p_init cb) k_init es).
Proof. exact (keepalive_refines cb es). Qed.
Print Assumptions C25_keepalive_history.
Example C25_nonvacuous :
  timers_due (prun (p_init true) [EvMade; EvEnableKA 0 300; EvTick 100; EvRequest 8120 []; EvTick 250]) = [400]
  /\ p_log (prun (p_init true) [EvMade; EvEnableKA 7 300; EvTick 301; EvFire; EvFire]) = [OutKeepalive 7].
Proof. split; (vm_compute; reflexivity). Qed.

(** C26. [registered es code] is the latest registration for [code] in the history not
    followed by a removal. *)
Theorem C26_last_handler cb es m : history es ->
  let s := prun (p_init cb) es in
  up s = true -> p_closing s = false -> p_buff s = [] -> wf_msg m -> 32767 <= msg_id m ->
  p_log (pstep s (EvData (frame m))) = p_log s ++ [match registered es (msg_code m) with Some h => OutHandler h m | None => OutDropped m end].
Proof.
  intros Hs s U C B W Hid. assert (R : reachable s) by (exists cb, es; auto).
  destruct (unsolicited s m R U C B W Hid) as (_ & L). rewrite L. destruct (cbs_spec cb es) as (_ & K). fold s in K. rewrite K. reflexivity.
Qed.
Print Assumptions C26_last_handler.
Example C26_nonvacuous :
  registered [EvMade; EvRegister 12500 1; EvRegister 12500 2; EvRegister 12505 3; EvRemove 12505] 12500 = Some 2%nat
  /\ registered [EvMade; EvRegister 12500 1; EvRegister 12500 2; EvRegister 12505 3; EvRemove 12505] 12505 = None
  /\ registered [EvRegister 12500 1; EvRemoveAll] 12500 = None.
Proof. vm_compute; auto 10. Qed.

(** C87. At most once always; exactly once per loss unless a task awaiting async_close is
    cancelled; never while the connection is not lost. *)
Theorem C87_closed_callback_partial cb es : history es ->
  let s := prun (p_init cb) es in
  (lost_count (p_log s) <= 1)%nat /\ (p_transport s <> TGone -> lost_count (p_log s) = 0%nat) /\
  (forallb (fun e => negb (cancels_close e)) es = true -> p_transport s = TGone -> cb = true -> lost_count (p_log s) = 1%nat).
Proof. intros Hs. destruct (life_run cb es Hs) as (_ & A & B & C). split; [exact A|]. split; [exact B|]. intros E. apply (C E). Qed.
Print Assumptions C87_closed_callback_partial.
(** cancelling the task that awaits async_close cancels the future connection_lost later
    sets: InvalidStateError, and the callback never runs *)
Theorem C87_refuted : exists es, history es /\
  p_transport (prun (p_init true) es) = TGone /\ lost_count (p_log (prun (p_init true) es)) = 0%nat.
Proof.
  exists [EvMade; EvClose true; EvCloseResume 0; EvCloseCancel 0; EvLost]. split; [repeat constructor|]. split; (vm_compute; reflexivity).
Qed.
Print Assumptions C87_refuted.
Example C87_nonvacuous :
  lost_count (p_log (prun (p_init true) [EvMade; EvClose false; EvCloseResume 0; EvLost; EvLostTask; EvCloseResume 0])) = 1%nat.
Proof. (vm_compute; reflexivity). Qed.
