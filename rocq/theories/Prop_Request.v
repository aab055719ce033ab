(** Property theorems C11-C16 and C84: one request (requests/request.py) and the login
    message.

    A request is run in a world (World.v) whose script [w_env] holds the environment's
    answer to every wait; the theorems hold for all worlds, so for all adapter behaviours,
    timeouts, cancellations and connection losses.  The vocabulary over traces is in
    Traces.v: [sends t] the messages written, [replies t] the responses to the waits for a
    reply, [answer_of r] the message a response carries, [failure code r e] that a response
    counts as a failed attempt reported as [e]. *)
From Verif Require Import Py F64 Struct Utf Utility Const Spec Enum Decode World Request Traces P_Base P_Util P_Request.

(** a world with one live connection, number 0, and the script [env] *)
Definition some_host : host := mkHost (fun _ => None) (fun _ => 0).
Definition live_world (env : list resp) : world :=
  mkW (mkAddr (Some (u "10.0.0.9")) 80 0 0 [] []) (Some 3%nat) (Some 0%nat) [] [] 2
      (mkCM (Some 0%nat) [] false 5 777 false) [new_conn] env (S754_zero false) some_host.
Definition says (k : kind) : resp := mkResp k [] None (S754_zero false).
Definition says_lost (k : kind) : resp := mkResp k [0%nat] None (S754_zero false).

(** C11. *)
Theorem C11_only_matching_answer c code data mr w t w' b :
  make_request c code data mr w = (t, w', Val (Some b)) ->
  exists rs r, replies t = rs ++ [r] /\ answer_of r = Some (code + 1, b).
Proof. intros H. exact (run_answer _ _ _ _ _ _ _ _ _ _ (request_run _ _ _ _ _ _ _ _ H)). Qed.
Print Assumptions C11_only_matching_answer.
Example C11_nonvacuous :
  let r1 := says (KReply 30 [1]) in let r2 := says KDone in let r3 := says (KReply 12527 [7; 8]) in
  exists w', make_request 0 12526 [0;0;0;0] 2 (live_world [r1; r2; r3]) =
    ([Send 0 12526 [0;0;0;0]; AwaitReply 0 2000; Got r1; Sleep 1000; Got r2;
      Send 0 12526 [0;0;0;0]; AwaitReply 0 2000; Got r3], w', Val (Some [7; 8])).
Proof. eexists. vm_compute. reflexivity. Qed.

(** C12.  [spaced true t]: no message is written before a sleep has passed since the
    previous one.  Waits are in milliseconds. *)
Theorem C12_bounded_retries c code data mr w t w' o :
  make_request c code data mr w = (t, w', o) -> 0 <= mr ->
  Forall (fun x => x = (c, code, data)) (sends t) /\ zlen (sends t) <= mr + 1 /\
  Forall (fun ms => ms = 2000) (reply_waits t) /\ zlen (reply_waits t) <= mr + 1 /\
  (exists k, sleeps t = map (fun i => 1000 * (1 + Z.of_nat i)) (seq 0 k) /\ Z.of_nat k <= mr) /\
  spaced true t /\
  2 * (total (sleeps t) + total (reply_waits t)) <= 4000 * (mr + 1) + 1000 * (mr * (mr + 1)).
Proof. exact (request_timing c code data mr w t w' o). Qed.
Print Assumptions C12_bounded_retries.
(** ... and it does retry: it gives up only after the last attempt, or without a connection *)
Theorem C12_all_attempts_used c code data mr w t w' e :
  make_request c code data mr w = (t, w', Exc e) -> 0 <= mr ->
  e = ESLRequest \/ e = ESLResponse \/ e = ESLConnection ->
  zlen (replies t) = mr + 1 \/ (e = ESLConnection /\ connected c w' = false).
Proof.
  intros H M K. pose proof (run_gave_up _ _ _ _ _ _ _ _ _ _ (request_run _ _ _ _ _ _ _ _ H) ltac:(lia) K) as [L|L]; auto.
  left. unfold zlen. lia.
Qed.
Print Assumptions C12_all_attempts_used.
Example C12_nonvacuous :
  let no := says KTimeout in let ok := says KDone in
  exists w', make_request 0 12526 [] 2 (live_world [no; ok; no; ok; no; ok; no]) =
    ([Send 0 12526 []; AwaitReply 0 2000; Got no; Sleep 1000; Got ok;
      Send 0 12526 []; AwaitReply 0 2000; Got no; Sleep 2000; Got ok;
      Send 0 12526 []; AwaitReply 0 2000; Got no], w', Exc ESLConnection).
Proof. eexists. vm_compute. reflexivity. Qed.

(** C13.  [t2] is what happens after the rejection: losses of connections at most. *)
Theorem C13_login_rejected c code data mr w t w' o r b :
  make_request c code data mr w = (t, w', o) -> In r (replies t) ->
  answer_of r = Some (13, b) -> code + 1 <> 13 ->
  o = Exc ESLLogin /\ exists rs t1 t2, replies t = rs ++ [r] /\ t = t1 ++ Got r :: t2 /\ only_losses t2.
Proof.
  intros H I A N. apply request_run in H.
  assert (J : judge code r = RLogin) by (apply judge_login; eauto).
  destruct (run_final _ _ _ _ _ _ _ _ _ _ _ H I) as [(e & F)|(E & X)]; [congruence|].
  unfold ends in E. rewrite J in E. auto.
Qed.
Print Assumptions C13_login_rejected.
Example C13_nonvacuous :
  let r1 := says KTimeout in let r2 := says KDone in let r3 := says (KReply 13 []) in
  exists w', make_request 0 27 [5] 3 (live_world [r1; r2; r3; r1; r1]) =
    ([Send 0 27 [5]; AwaitReply 0 2000; Got r1; Sleep 1000; Got r2;
      Send 0 27 [5]; AwaitReply 0 2000; Got r3], w', Exc ESLLogin).
Proof. eexists. vm_compute. reflexivity. Qed.

(** C14.  The last of mr+1 failed attempts decides the error ... *)
Theorem C14_last_failure c code data mr w t w' o rs r e :
  make_request c code data mr w = (t, w', o) -> 0 <= mr ->
  replies t = rs ++ [r] -> zlen (replies t) = mr + 1 -> failure code r e -> o = Exc e.
Proof.
  intros H M R L F. apply request_run in H. apply judge_fail in F.
  refine (run_last _ _ _ _ _ _ _ _ _ _ _ _ _ H _ R _ F); unfold zlen in L; lia.
Qed.
Print Assumptions C14_last_failure.
(** ... an error after mr+1 attempts is that of the last attempt (or a rejected login, or
    the connection is gone) ... *)
Theorem C14_error_of_last c code data mr w t w' e :
  make_request c code data mr w = (t, w', Exc e) -> 0 <= mr -> zlen (replies t) = mr + 1 ->
  exists rs r, replies t = rs ++ [r] /\
   (failure code r e \/ (e = ESLLogin /\ exists b, answer_of r = Some (13, b)) \/
    (e = ESLConnection /\ (r_kind r = KCancelFut \/ r_kind r = KCancelTask) /\ connected c w' = false)).
Proof.
  intros H M L. apply request_run in H.
  destruct (run_exc _ _ _ _ _ _ _ _ _ _ H ltac:(lia) ltac:(unfold zlen in L; lia) ltac:(lia)) as (rs & r & R & D).
  exists rs, r. split; [exact R|]. destruct D as [J|[[J E]|(J & E & C)]].
  - left. apply judge_fail. exact J.
  - right. left. split; [exact E|]. apply judge_login in J. tauto.
  - right. right. split; [exact E|]. split; [|exact C]. unfold judge in J.
    destruct (r_kind r); auto; try discriminate.
    all: destruct (_ =? _) in J; [discriminate|]; destruct (_ =? _) in J; [discriminate|]; destruct (_ || _) in J; discriminate.
Qed.
Print Assumptions C14_error_of_last.
(** ... and a success ends the request, whatever failed before. *)
Theorem C14_success_wins c code data mr w t w' o r b :
  make_request c code data mr w = (t, w', o) -> In r (replies t) ->
  answer_of r = Some (code + 1, b) -> o = Val (Some b).
Proof.
  intros H I A. apply request_run in H. apply judge_answer in A.
  destruct (run_final _ _ _ _ _ _ _ _ _ _ _ H I) as [(e & F)|(E & X)]; [congruence|].
  unfold ends in E. rewrite A in E. exact E.
Qed.
Print Assumptions C14_success_wins.
Example C14_nonvacuous :
  let no := says KTimeout in let ok := says KDone in let bad := says (KReply 31 [9]) in
  let odd := says (KTimeoutReply 99 []) in
  (exists t w', make_request 0 12526 [] 2 (live_world [bad; ok; odd; ok; no]) = (t, w', Exc ESLConnection)
     /\ replies t = [bad; odd; no]) /\
  (exists t w', make_request 0 12526 [] 2 (live_world [no; ok; no; ok; bad]) = (t, w', Exc ESLRequest)) /\
  (exists t w', make_request 0 12526 [] 2 (live_world [no; ok; bad; ok; odd]) = (t, w', Exc ESLResponse)) /\
  failure 12526 bad ESLRequest /\ failure 12526 odd ESLResponse /\ failure 12526 no ESLConnection.
Proof.
  cbv zeta. repeat split.
  - do 2 eexists. split; vm_compute; reflexivity.
  - do 2 eexists. vm_compute. reflexivity.
  - do 2 eexists. vm_compute. reflexivity.
  - eapply F_bad; [reflexivity|discriminate].
  - eapply F_other; [reflexivity|discriminate..].
  - apply F_timeout. reflexivity.
Qed.

(** C15.  Nothing is written on a connection that is down when the request starts ... *)
Theorem C15_down_at_start c code data mr w : 0 <= mr -> connected c w = false ->
  make_request c code data mr w = ([], w, Exc ESLConnection).
Proof.
  intros M D. destruct (make_request c code data mr w) as [[t w'] o] eqn:H. apply request_run in H.
  assert (N : Z.to_nat (mr + 1) <> 0%nat) by lia. destruct (Z.to_nat (mr + 1)) as [|n]; [congruence|].
  inversion H; subst; try congruence; reflexivity.
Qed.
Print Assumptions C15_down_at_start.
(** ... nor after it was lost in between. *)
Theorem C15_lost_between c code data mr w t w' o t1 t2 :
  make_request c code data mr w = (t, w', o) -> t = t1 ++ Lost c :: t2 ->
  sends t2 = [] /\ reply_waits t2 = [].
Proof. intros H E. exact (run_lost _ _ _ _ _ _ _ _ _ _ (request_run _ _ _ _ _ _ _ _ H) _ _ E). Qed.
Print Assumptions C15_lost_between.
Example C15_nonvacuous :
  let no := says KTimeout in let gone := says_lost KDone in
  exists w', make_request 0 12526 [] 2 (live_world [no; gone; no]) =
    ([Send 0 12526 []; AwaitReply 0 2000; Got no; Sleep 1000; Got gone; Lost 0; Callback 3], w', Exc ESLConnection).
Proof. eexists. vm_compute. reflexivity. Qed.

(** C16 fails: cancelling a task while it waits for the reply does not raise CancelledError.
    The request returns None on a live connection (then a command raises
    ScreenLogicResponseError and a poll silently does nothing). *)
Theorem C16_cancel_swallowed_refuted c code data mr w r rest :
  0 <= mr -> connected c w = true -> c_closing (get_conn c w) = false ->
  (c_open (get_conn c w) = true -> exists m, makeMessage 0 code data = Ok m) ->
  w_env w = r :: rest -> r_kind r = KCancelTask -> ~ In c (r_lost r) ->
  exists t w', make_request c code data mr w = (t, w', Val None).
Proof.
  intros M C G P E K L. destruct (make_request c code data mr w) as [[t w'] o] eqn:H. apply request_run in H.
  assert (N : Z.to_nat (mr + 1) <> 0%nat) by lia. destruct (Z.to_nat (mr + 1)) as [|n]; [congruence|].
  assert (J : judge code r = RCancel) by (unfold judge; rewrite K; reflexivity).
  exists t, w'. f_equal. inversion H; subst; try congruence.
  - destruct P as [m P]; congruence.
  - match goal with Q : w_env w = ?a :: ?b |- _ => rewrite E in Q; injection Q as <- <- end.
    rewrite J in *. subst o.
    match goal with I : interfere _ _ = _ |- _ => pose proof (interfere_connected _ _ _ _ c I) as I2 end.
    rewrite I2. replace (connected c (set_env rest w)) with true by (symmetry; exact C). cbn [andb].
    destruct (existsb (Nat.eqb c) (r_lost r)) eqn:X; [|reflexivity].
    apply existsb_exists in X. destruct X as (y & Iy & Ey). apply Nat.eqb_eq in Ey. subst y. contradiction.
Qed.
Print Assumptions C16_cancel_swallowed_refuted.
Example C16_refuted_witness :
  exists t w', make_request 0 12526 [] 2 (live_world [says KCancelTask]) = (t, w', Val None).
Proof. do 2 eexists. vm_compute. reflexivity. Qed.
(** What holds: a cancellation in the pause between two attempts propagates. *)
Theorem C16_cancel_in_pause_partial c code data mr w t w' o r :
  make_request c code data mr w = (t, w', o) -> In r (wakes t) -> r_kind r = KCancelTask -> o = Exc ECancelled.
Proof. intros H. exact (run_woken _ _ _ _ _ _ _ _ _ _ _ (request_run _ _ _ _ _ _ _ _ H)). Qed.
Print Assumptions C16_cancel_in_pause_partial.
(** ... and a request ends without an answer and without an error only when it was
    cancelled or the protocol is being closed, the connection still up. *)
Theorem C16_no_result_means_cancelled_partial c code data mr w t w' :
  make_request c code data mr w = (t, w', Val None) -> 0 <= mr ->
  connected c w' = true /\
  (c_closing (get_conn c w') = true \/
   exists rs r, replies t = rs ++ [r] /\ (r_kind r = KCancelFut \/ r_kind r = KCancelTask)).
Proof. intros H M. exact (run_none _ _ _ _ _ _ _ _ _ (request_run _ _ _ _ _ _ _ _ H) ltac:(lia) ltac:(lia)). Qed.
Print Assumptions C16_no_result_means_cancelled_partial.
Example C16_nonvacuous :
  let no := says KTimeout in let stop := says KCancelTask in
  exists w', make_request 0 12526 [] 2 (live_world [no; stop]) =
    ([Send 0 12526 []; AwaitReply 0 2000; Got no; Sleep 1000; Got stop], w', Exc ECancelled).
Proof. eexists. vm_compute. reflexivity. Qed.

(** C84. *)
Theorem C84_login_message :
  create_login_message = Ok (u32le 348 ++ u32le 0 ++ wire_string false (u "Android")
    ++ wire_string false (u "0000000000000000") ++ [0] ++ u32le 2).
Proof. vm_compute. reflexivity. Qed.
Print Assumptions C84_login_message.
(** the fields read back, each at the offset where the previous one ended; the payload is sendable *)
Theorem C84_login_message_decodes m : create_login_message = Ok m ->
  zlen m = 45 /\ wf_bytes m /\ zlen (u "0000000000000000") = 16 /\
  getSome FI m 0 = Ok (348, 4) /\ getSome FI m 4 = Ok (0, 8) /\
  getString m 8 = Ok (u "Android", 20) /\ getString m 20 = Ok (u "0000000000000000", 40) /\
  getSome FB m 40 = Ok (0, 41) /\ getSome FI m 41 = Ok (2, 45).
Proof.
  intros H. assert (E : m = match create_login_message with Ok x => x | Err _ => [] end) by (rewrite H; reflexivity).
  rewrite E. clear. repeat (split; [vm_compute; try reflexivity; repeat constructor; discriminate|]).
  vm_compute. reflexivity.
Qed.
Print Assumptions C84_login_message_decodes.
Example C84_nonvacuous : exists m, create_login_message = Ok m /\ zlen m = 45.
Proof. eexists. split; vm_compute; reflexivity. Qed.
