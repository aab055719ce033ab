(** Theorems about connecting, reconnecting, polling and debug data (C56-C66).

    Vocabulary: Api.v ([perform n c]: the call [c] of the gateway; [session n w l w']: a
    history [l] of calls and of what happens between them leads from [w] to [w']).  The
    number [n] bounds the nesting of connects inside connects; C63 shows that it changes
    nothing unless it runs out, and that it runs out only against an adapter that granted
    and broke [n] connections. *)
From Verif Require Import Py F64 Struct Utf Utility Const Spec Enum Decode World Request Gateway Traces Paths Api Hostile
  P_Base P_Request P_Sat P_Gw1 P_Gw6 P_Gw7 P_Gw9 P_Gw10 P_Gw11 P_Gw12 P_Gw13 P_Gw14 P_Gw15 P_Gw16 P_Config P_Hostile Prop_Request Prop_Gateway.

(** a gateway that has been told its address but is not connected *)
Definition told (env : list resp) : world :=
  match fresh_gateway env with Ok w => store_args to_adapter w | Err _ => live_world env end.
Definition ok : resp := says KDone.
(** what an adapter says to a gateway that logs in: open, greeting sent, MAC address, login, version *)
Definition welcome : list resp := [ok; ok; says (KReply 15 mac_reply); says (KReply 28 []); says (KReply 8121 version_reply)].

(** the connected gateway of Prop_Gateway.v, on the host of Hostile.v *)
Definition pool (env : list resp) : world :=
  let w := pool_world env in
  mkW (w_addr w) (w_cb w) (w_proto w) (w_data w) (w_last w) (w_retries w) (w_cm w) (w_conns w) (w_env w) (w_clock w) its_host.
Definition config_answer : resp := says (KReply 12533 (Messages.wire_config Prop_Decode.some_config)).

(** C56. *)
Theorem C56_initial client_id mr rnd env h :
  (forall w, new_gateway client_id mr rnd env h = Ok w -> 1 <= w_retries w <= 5 /\ forall k, mr = Some k -> w_retries w = k) /\
  (forall k, mr = Some k -> ~ 1 <= k <= 5 -> new_gateway client_id mr rnd env h = Err EValue).
Proof.
  unfold new_gateway. destruct ((0 <? over mr COM_MAX_RETRIES) && (over mr COM_MAX_RETRIES <? 6)) eqn:E; split.
  - intros w H. injection H as <-. cbn [w_retries]. apply andb_prop in E. destruct E as (E1 & E2). split; [lia|]. intros k ->. reflexivity.
  - intros k -> N. cbn [over] in E. apply andb_prop in E. lia.
  - discriminate.
  - reflexivity.
Qed.
Print Assumptions C56_initial.
Theorem C56_call n k w t w' o : perform n (SetMaxRetries k) w = (t, w', o) ->
  (1 <= k <= 5 /\ t = [] /\ w' = set_retries k w /\ o = Val tt) \/ (~ 1 <= k <= 5 /\ t = [] /\ w' = w /\ o = Exc EValue).
Proof.
  cbn [perform]. unfold set_max_retries. destruct ((0 <? k) && (k <? 6)) eqn:B; intros E; injection E as <- <- <-; [left|right]; (split; [lia|auto]).
Qed.
Print Assumptions C56_call.
Theorem C56_history n w l w' : session n w l w' ->
  w_retries w' = last_limit l (w_retries w) /\ (1 <= w_retries w <= 5 -> 1 <= w_retries w' <= 5).
Proof. exact (session_limit n w l w'). Qed.
Print Assumptions C56_history.
Example C56_nonvacuous : exists w',
  session 1 (told []) [Called (SetMaxRetries 4) [] (Val tt); Called (SetMaxRetries 6) [] (Exc EValue); Called (SetMaxRetries 0) [] (Exc EValue)] w' /\
  w_retries w' = 4.
Proof. eexists. split; [repeat (eapply S_call; [vm_compute; reflexivity|discriminate|]); apply S_end|reflexivity]. Qed.

(** C57.  [two_rounds] (Api.v): at most two rounds of the request, the second on another
    connection, the first being gone, and only when no answer the call takes came. *)
Theorem C57_two_rounds n call X w t w' o : request_code call = Some X -> ~ connecting X ->
  perform n call w = (t, w', o) -> two_rounds X (w_retries w) (takes call) t.
Proof. exact (perform_rounds n call X w t w' o). Qed.
Print Assumptions C57_two_rounds.
(** an exception that is no communication error ends the command at once *)
Theorem C57_other_errors {A} n (method : Z -> nat -> M A) delay w t w' e :
  attempt_request (async_connect n no_args) method (w_retries w) w = (t, w', Exc e) ->
  e <> ESLRequest -> e <> ESLConnection -> e <> ESLResponse -> e <> ESLLogin ->
  command n method delay w = (t, w', Exc e).
Proof.
  intros E N1 N2 N3 N4. unfold command, connected_request, mbind, mget, mcatch. rewrite E.
  destruct e; try reflexivity; congruence.
Qed.
Print Assumptions C57_other_errors.
Example C57_nonvacuous :
  let no := says KTimeout in
  let env := [no; ok; no; ok; no; ok; ok; ok] ++ welcome ++ [config_answer; says (KReply 12531 [])] in
  exists t w', perform 3 (SetCircuit (VInt 505) (VInt 1)) (pool env) = (t, w', Val tt) /\
    map fst (sends_of 12530 t) = [0; 0; 0; 1]%nat /\ opens t = [(Some (u "10.0.0.9"), 80)].
Proof. eexists. eexists. split; [vm_compute; reflexivity|]. split; vm_compute; reflexivity. Qed.

(** C58. *)
Theorem C58_idempotent n x w : is_connected w = true -> async_connect (S n) x w = ([], w, Val true).
Proof. exact (connect_up n x w). Qed.
Print Assumptions C58_idempotent.
Example C58_nonvacuous : is_connected (pool_world []) = true /\ w_cb (pool_world []) = Some 3%nat.
Proof. vm_compute. auto. Qed.

(** C59.  The arguments are stored before the check. *)
Theorem C59_no_address n x w : is_connected w = false ->
  match overo (x_ip x) (a_ip (w_addr w)) with None | Some [] => True | _ => False end ->
  async_connect (S n) x w = ([], store_args x w, Exc ESLError).
Proof.
  intros U N. destruct (async_connect (S n) x w) as [[t w'] o] eqn:E. apply connect_down in E; [|exact U].
  assert (A : no_address (store_args x w) = true).
  { unfold no_address, store_args. cbn [set_cb set_addr w_addr a_ip]. destruct (overo (x_ip x) (a_ip (w_addr w))) as [[|]|]; auto; contradiction. }
  destruct E as [(_ & -> & -> & ->)|(X & _)]; [reflexivity|congruence].
Qed.
Print Assumptions C59_no_address.
Example C59_nonvacuous : exists w, fresh_gateway [ok; ok; ok] = Ok w /\ is_connected w = false /\
  async_connect 5 no_args w = ([], w, Exc ESLError).
Proof. eexists. split; [reflexivity|]. vm_compute. auto. Qed.

(** C60.  What holds: address, port, type, subtype and name.  A parameterless connect, and
    every reconnect inside any call, opens connections to the address and port that were
    given last, and keeps them; a connect with arguments uses those given and the old ones
    for the rest. *)
Theorem C60_reuse_partial n w l w' : session n w l w' -> Forall no_connect_args l ->
  same_addr (w_addr w') (w_addr w) /\ Forall (fun y => y = (a_ip (w_addr w), a_port (w_addr w))) (opens (history_trace l)).
Proof. exact (session_place n w l w'). Qed.
Print Assumptions C60_reuse_partial.
Theorem C60_arguments_partial n x w t w' o : async_connect (S n) x w = (t, w', o) -> is_connected w = false ->
  let a := w_addr w in
  let ip := overo (x_ip x) (a_ip a) in let port := over (x_port x) (a_port a) in
  same_addr (w_addr w') (mkAddr ip port (over (x_type x) (a_type a)) (over (x_subtype x) (a_subtype a)) (over (x_name x) (a_name a)) (a_mac a)) /\
  Forall (fun y => y = (ip, port)) (opens t).
Proof. exact (connect_place n x w t w' o). Qed.
Print Assumptions C60_arguments_partial.
(** The connection-closed callback is forgotten by a parameterless connect, also by the
    reconnect inside a command: here the controller stops answering, the command reconnects
    by itself and succeeds, and the callback that was registered is gone. *)
Theorem C60_callback_refuted : exists w t w', w_cb w = Some 3%nat /\ is_connected w = true /\
  perform 3 (SetCircuit (VInt 505) (VInt 1)) w = (t, w', Val tt) /\ opens t <> [] /\ is_connected w' = true /\ w_cb w' = None.
Proof.
  exists (pool ([says KTimeout; ok; says KTimeout; ok; says KTimeout; ok; ok; ok] ++ welcome ++ [config_answer; says (KReply 12531 [])])).
  eexists. eexists. split; [vm_compute; reflexivity|]. split; [vm_compute; reflexivity|]. split; [vm_compute; reflexivity|].
  split; [vm_compute; discriminate|]. split; vm_compute; reflexivity.
Qed.
Print Assumptions C60_callback_refuted.
Example C60_nonvacuous : exists t w' o, let w := told (welcome ++ [config_answer]) in
  async_connect 3 no_args w = (t, w', o) /\ is_connected w = false /\ o = Val true /\ opens t = [(Some (u "10.0.0.9"), 80)].
Proof. eexists. eexists. eexists. split; [vm_compute; reflexivity|]. vm_compute. auto. Qed.

(** C61.  False: the adapter accepts the connection and then does not answer the challenge;
    async_connect raises, the transport it opened is open, nobody closed it. *)
Theorem C61_leak_refuted : exists w t w', is_connected w = false /\
  async_connect 3 no_args w = (t, w', Exc ESLConnection) /\
  (forall c, ~ In (CloseTransport c) t) /\ c_open (get_conn 0 w') = true /\ connected 0 w' = true /\ is_connected w' = false.
Proof.
  exists (told [ok; ok; says KTimeout; ok; says KTimeout; ok; says KTimeout]). eexists. eexists.
  split; [vm_compute; reflexivity|]. split; [vm_compute; reflexivity|]. split; [|vm_compute; auto].
  intros c. vm_compute. intuition discriminate.
Qed.
Print Assumptions C61_leak_refuted.
(** What holds: no more transports are open afterwards than were before, plus one for each
    connection the adapter granted; none if it granted none. *)
Theorem C61_bounded_partial n x w t w' o : async_connect n x w = (t, w', o) ->
  (List.length (w_conns w) <= List.length (w_conns w') <= List.length (w_conns w) + granted t)%nat /\
  forall c, (c < List.length (w_conns w))%nat -> c_open (get_conn c w') = true -> c_open (get_conn c w) = true.
Proof. exact (connect_grown n x w t w' o). Qed.
Print Assumptions C61_bounded_partial.
Example C61_nonvacuous : exists t w', async_connect 3 no_args (told [says KOSError]) = (t, w', Exc ESLConnection) /\ granted t = 0%nat.
Proof. eexists. eexists. split; vm_compute; reflexivity. Qed.

(** C62.  False: after a first connect that was refused, a command does not raise a
    ScreenLogic error but AttributeError, from disconnecting a connection it never had. *)
Theorem C62_attribute_error_refuted : exists w l w', fresh_gateway [says KOSError; says KOSError] = Ok w /\
  session 3 w l w' /\
  match l with
  | [Called (Connect x) _ (Exc ESLConnection); Called (SendMessage 12526 []) t (Exc EAttribute)] => x = to_adapter /\ opens t <> []
  | _ => False
  end.
Proof.
  eexists. eexists [Called (Connect to_adapter) _ _; Called (SendMessage 12526 []) _ _]. eexists. split; [reflexivity|]. split.
  - eapply S_call; [vm_compute; reflexivity|discriminate|]. eapply S_call; [vm_compute; reflexivity|discriminate|apply S_end].
  - split; [reflexivity|]. vm_compute. discriminate.
Qed.
Print Assumptions C62_attribute_error_refuted.
(** What holds: a gateway that once had a connection, knows its address and gets neither a
    new connection nor any answer: a setter raises before doing anything, or it raises a
    ScreenLogic communication error (or the caller's cancellation), if it does not wait for
    ever.  It never returns. *)
Theorem C62_unreachable_partial n call w t w' o : is_command call -> perform (S n) call w = (t, w', o) ->
  granted t = 0%nat -> unanswered t -> no_address w = false -> is_u32 (m_id (w_cm w)) -> w_proto w <> None ->
  (t = [] /\ exists e, o = Exc e) \/ (exists e, o = Exc e /\ sent_exn e) \/ exists y, o = Stuck y.
Proof. exact (perform_deaf n call w t w' o). Qed.
Print Assumptions C62_unreachable_partial.
Example C62_nonvacuous : exists t w',
  perform 3 (SetCircuit (VInt 505) (VInt 1)) (pool [says KTimeout; ok; says KTimeout; ok; says KTimeout; ok; ok; ok; says KOSError]) = (t, w', Exc ESLConnection) /\
  granted t = 0%nat /\ sends_of 12530 t <> [] /\ opens t <> [].
Proof. eexists. eexists. split; [vm_compute; reflexivity|]. vm_compute. repeat split; discriminate. Qed.

(** C63.  False: for every number [k] there is an adapter, accepting each connection and
    dropping it while the configuration is requested, against which one async_connect opens
    more than [k] connections. *)
Theorem C63_unbounded_refuted k n : (k < n)%nat -> exists w0 t w' o, fresh_gateway (rounds k 0) = Ok w0 /\
  async_connect n to_adapter w0 = (t, w', o) /\ (k <= granted t)%nat.
Proof. exact (hostile_fresh k n). Qed.
Print Assumptions C63_unbounded_refuted.
(** What holds: the recursion goes one level deeper only for each connection granted; an
    adapter that grants fewer than [n] connections cannot exhaust [n] levels, *)
Theorem C63_depth_partial n x w t w' : async_connect n x w = (t, w', Stuck Fuel) -> (n <= granted t)%nat.
Proof. exact (connect_fuels n x w t w'). Qed.
Print Assumptions C63_depth_partial.
(** so with a script of length [k], [k]+1 levels suffice, *)
Theorem C63_ends_partial n x w t w' o : async_connect n x w = (t, w', o) -> (List.length (w_env w) < n)%nat -> o <> Stuck Fuel.
Proof. exact (connect_ends n x w t w' o). Qed.
Print Assumptions C63_ends_partial.
(** and more levels change nothing. *)
Theorem C63_fuel_partial n m x w t w' o : (n <= m)%nat -> async_connect n x w = (t, w', o) -> o <> Stuck Fuel -> async_connect m x w = (t, w', o).
Proof. exact (fuel_more n m x w t w' o). Qed.
Print Assumptions C63_fuel_partial.
Example C63_nonvacuous : exists w0 t w' o, fresh_gateway (rounds 5 0) = Ok w0 /\ async_connect 9 to_adapter w0 = (t, w', o) /\ granted t = 5%nat /\ List.length (w_conns w') = 5%nat.
Proof. eexists. eexists. eexists. eexists. split; [vm_compute; reflexivity|]. split; [vm_compute; reflexivity|]. split; vm_compute; reflexivity. Qed.

(** C64.  [turns] (Api.v) for all executions: *)
Theorem C64_turns n w t w' o : perform n GetPumps w = (t, w', o) -> turns [0; 1; 2; 3; 4; 5; 6; 7] w t w' o.
Proof. exact (pumps_turns n w t w' o). Qed.
Print Assumptions C64_turns.
(** hence the pumps are asked for in increasing order, *)
Theorem C64_order n w t w' o : perform n GetPumps w = (t, w', o) ->
  exists ks, List.length ks = 8%nat /\
    map snd (sends_of 12584 t) = List.concat (map (fun x => repeat (pump_message (fst x)) (snd x)) (combine [0; 1; 2; 3; 4; 5; 6; 7] ks)).
Proof. intros E. apply C64_turns, turns_order in E. exact E. Qed.
Print Assumptions C64_order.
(** and on a connection that stays up, without data pushed meanwhile, exactly those are
    asked for whose bit is set. *)
Theorem C64_exactly n f c w t w' : perform n GetPumps w = (t, w', Val tt) -> ready c w -> no_pushes w -> 0 <= w_retries w ->
  equipment_flags (w_data w) = Ok f -> opens t = [] ->
  forall i, 0 <= i < 8 -> ((exists k, In (Send k 12584 (pump_message i)) t) <-> pump_bit f i = true).
Proof. exact (pumps_exact n f c w t w'). Qed.
Print Assumptions C64_exactly.
(** nothing is asked when the flags are not known *)
Theorem C64_no_flags n e w t w' o : perform n GetPumps w = (t, w', o) -> equipment_flags (w_data w) = Err e -> t = [] /\ w' = w /\ o = Exc e.
Proof.
  intros E F. apply C64_turns in E. inversion E; subst; try congruence. rewrite F in *. match goal with H : Err _ = Err _ |- _ => injection H as -> end. auto.
Qed.
Print Assumptions C64_no_flags.
Definition pump_answer : resp := says (KReply 12585 (Messages.wire_pump (Prop_Decode.some_pump 2))).
(** flags 160 = 32 + 128 *)
Definition two_pumps (env : list resp) : world :=
  set_data [(KS "controller", VDict [(KS "equipment", VDict [(KS "flags", VInt 160)])])] (pool env).
Example C64_nonvacuous : exists t w', perform 3 GetPumps (two_pumps [pump_answer; pump_answer]) = (t, w', Val tt) /\
  sends t = [(0%nat, 12584, pump_message 1); (0%nat, 12584, pump_message 3)] /\ opens t = [] /\ pump_bit 160 1 = true /\ pump_bit 160 3 = true /\
  equipment_flags (w_data (two_pumps [pump_answer; pump_answer])) = Ok 160.
Proof. eexists. eexists. split; [vm_compute; reflexivity|]. vm_compute. auto. Qed.

(** C65. *)
Theorem C65_no_data n w : w_data w = [] -> perform n Update w = ([], w, Exc ESLError).
Proof. intros D. cbn [perform]. unfold async_update, mbind, mget. rewrite D. reflexivity. Qed.
Print Assumptions C65_no_data.
(** the polls are made one after the other up to the first that fails, whose exception is
    the outcome *)
Theorem C65_one_by_one n w t w' o : perform n Update w = (t, w', o) -> w_data w <> [] ->
  one_by_one n [GetStatus; GetPumps; GetChemistry; GetScg; GetDatetime] w t w' o.
Proof. intros E D. apply update_obo in E. destruct E as [(X & _)|(_ & E)]; [contradiction|exact E]. Qed.
Print Assumptions C65_one_by_one.
(** in terms of messages: status, then pumps, chemistry, chlorinator, date and time, and
    nothing else but what connecting sends *)
Theorem C65_messages n w t w' o : perform n Update w = (t, w', o) ->
  exists t1 t2 t3 t4 t5, t = t1 ++ t2 ++ t3 ++ t4 ++ t5 /\
    only_code 12526 t1 /\ only_code 12584 t2 /\ only_code 12592 t3 /\ only_code 12572 t4 /\ only_code 8110 t5.
Proof. exact (update_parts n w t w' o). Qed.
Print Assumptions C65_messages.
(** a successful update on a connection that stays up has asked for all four (the pumps: C64) *)
Theorem C65_complete n c w t w' : perform n Update w = (t, w', Val tt) -> ready c w -> no_pushes w -> 0 <= w_retries w -> opens t = [] ->
  forall X, In X [12526; 12592; 12572; 8110] -> exists p, In (Send c X p) t.
Proof. exact (update_asks n c w t w'). Qed.
Print Assumptions C65_complete.
Definition status_answer : resp := says (KReply 12527 (Messages.wire_status Prop_Decode.some_status)).
Definition chem_answer : resp := says (KReply 12593 (Messages.wire_chem Prop_Decode.some_chem)).
Definition scg_answer : resp := says (KReply 12573 (Messages.wire_scg Prop_Decode.some_scg)).
Definition time_answer : resp := says (KReply 8111 some_time).
Example C65_nonvacuous :
  (exists t w', perform 3 Update (pool [status_answer; pump_answer; pump_answer; chem_answer; scg_answer; time_answer]) = (t, w', Val tt) /\
    map (fun x => snd (fst x)) (sends t) = [12526; 12584; 12584; 12592; 12572; 8110]) /\
  (exists t w', perform 3 Update (pool [status_answer; pump_answer; pump_answer; says (KReply 12593 [1; 2; 3]); scg_answer; time_answer]) = (t, w', Exc EStruct) /\
    map (fun x => snd (fst x)) (sends t) = [12526; 12584; 12584; 12592]).
Proof. split; eexists; eexists; (split; [vm_compute; reflexivity|vm_compute; reflexivity]). Qed.

(** C66.  [debug_kind k X]: [k] is the entry of get_debug() for the polls with request code
    [X] (status, chemistry, chlorinator, date and time).  A poll that returns has stored the
    payload of the answer it got, if it was not empty; a poll that raises changes nothing; *)
Theorem C66_poll n k X c w t w' o : debug_kind k X -> polls k c -> c <> Update -> perform n c w = (t, w', o) ->
  match o with
  | Val _ => (forall q b, answered X q t -> answer_of q = Some (X + 1, b) -> b <> [] -> dget k (w_last w') = Some (VBytes b)) /\
             (dget k (w_last w') = dget k (w_last w) \/ exists b, came_in X t b /\ dget k (w_last w') = Some (VBytes b))
  | _ => dget k (w_last w') = dget k (w_last w)
  end.
Proof. exact (kind_poll n k X c w t w' o). Qed.
Print Assumptions C66_poll.
(** no other call changes the entry (async_update is C65_one_by_one: five polls), *)
Theorem C66_others n k X c w t w' o : debug_kind k X -> ~ polls k c -> perform n c w = (t, w', o) -> dget k (w_last w') = dget k (w_last w).
Proof. exact (kind_other n k X c w t w' o). Qed.
Print Assumptions C66_others.
(** so over any history the entry is what it was or the payload of an answer of its kind. *)
Theorem C66_history n k X w l w' : debug_kind k X -> session n w l w' ->
  dget k (w_last w') = dget k (w_last w) \/ exists b, came_in X (history_trace l) b /\ dget k (w_last w') = Some (VBytes b).
Proof. exact (kind_session n k X w l w'). Qed.
Print Assumptions C66_history.
(** The entries of the pumps: each is what it was or the payload of an answer that came
    while that pump was asked for. *)
Theorem C66_pumps n w t w' o : pumps_dict w -> perform n GetPumps w = (t, w', o) -> pumps_dict w' /\
  forall j, pump_debug j w' = pump_debug j w \/
    (0 <= j < 8 /\ exists ta t1 tb b, t = ta ++ t1 ++ tb /\ asks_pump j t1 /\ came_in 12584 t1 b /\ pump_debug j w' = Some (VBytes b)).
Proof. exact (pumps_debug n w t w' o). Qed.
Print Assumptions C66_pumps.
(** The entry of the configuration is also written by every reconnect, inside any other call.
    Whatever call it was (but the caller's own async_send_message with that code, whose answer is
    only returned): when it returns or raises a communication error, the entry is the last good
    answer to a configuration request, *)
Theorem C66_config_latest n c w t w' o b : perform n c w = (t, w', o) -> (forall p, c <> SendMessage 12532 p) ->
  match o with Val _ => True | Exc e => is_comm_error e = true | Stuck _ => False end ->
  latest_answer 12532 b t -> dget (KS "config") (w_last w') = Some (VBytes b).
Proof. intros E N S L. destruct (q_perform n c N _ _ _ _ E) as (_ & R). destruct (R S) as (_ & R'). exact (R' b L). Qed.
Print Assumptions C66_config_latest.
(** and over any history it is what it was or the payload of an answer of its kind (so a call
    during which no such answer came in leaves it alone). *)
Theorem C66_config_history n w l w' : session n w l w' ->
  dget (KS "config") (w_last w') = dget (KS "config") (w_last w) \/
  exists b, came_in 12532 (history_trace l) b /\ dget (KS "config") (w_last w') = Some (VBytes b).
Proof. exact (u_session n w l w'). Qed.
Print Assumptions C66_config_history.
(** The entry of the version does not follow the rule: an empty answer to the version
    request of a reconnect replaces the good payload by None. *)
Theorem C66_version_refuted : exists w b t w', dget (KS "version") (w_last w) = Some (VBytes b) /\ b <> [] /\
  async_connect 3 no_args w = (t, w', Val true) /\ dget (KS "version") (w_last w') = Some VNone.
Proof.
  exists (set_data [(KS "adapter", VDict [(KS "firmware", VDict [(KS "value", VStr (u "POOL: 5.2"))])])]
    (set_last [(KS "version", VBytes version_reply)] (told [ok; ok; says (KReply 15 mac_reply); says (KReply 28 []); says (KReply 8121 []); config_answer]))), version_reply.
  eexists. eexists. split; [vm_compute; reflexivity|]. split; [discriminate|]. split; vm_compute; reflexivity.
Qed.
Print Assumptions C66_version_refuted.
Example C66_nonvacuous :
  (exists t w', perform 3 GetChemistry (pool [chem_answer]) = (t, w', Val tt) /\
     dget (KS "chemistry") (w_last w') = Some (VBytes (Messages.wire_chem Prop_Decode.some_chem))) /\
  (exists t w', perform 3 GetPumps (two_pumps [pump_answer; pump_answer]) = (t, w', Val tt) /\ pumps_dict (two_pumps []) /\
     pump_debug 1 w' = Some (VBytes (Messages.wire_pump (Prop_Decode.some_pump 2))) /\ pump_debug 2 w' = None) /\
  (exists t w', perform 3 GetChemistry (told (welcome ++ [config_answer; chem_answer])) = (t, w', Val tt) /\
     latest_answer 12532 (Messages.wire_config Prop_Decode.some_config) t).
Proof.
  split; [|split]; eexists; eexists.
  - split; vm_compute; reflexivity.
  - split; [vm_compute; reflexivity|]. split; [left; vm_compute; reflexivity|]. split; vm_compute; reflexivity.
  - split; [vm_compute; reflexivity|].
    match goal with |- latest_answer _ _ ?t => exists (firstn 14 t), 0%nat, [0;0;0;0;0;0;0;0], 2000, config_answer, (skipn 17 t) end.
    split; [vm_compute; reflexivity|]. split; [reflexivity|]. split; [vm_compute; discriminate|].
    intros b (_ & q & I & A). cbn [skipn] in I. destruct I as [I|[I|[I|[]]]]; [discriminate I|discriminate I|]. injection I as <-. discriminate A.
Qed.
