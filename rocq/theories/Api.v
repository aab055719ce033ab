(** The public calls of a ScreenLogicGateway as data, and histories of calls.  This is the
    vocabulary of Prop_Connect.v: it only names the functions of Gateway.v. *)
From Verif Require Import Py F64 Struct Utf Utility Const Enum Decode World Request Gateway Traces.
Open Scope m_scope.

(** gateway.py:119-530, every public coroutine and method that does something; the function
    that async_subscribe_client returned (client.py:136-156), for a callback and a code; and the
    two tasks the client manager creates itself: async_unsubscribe_gateway (client.py:154,
    202-217) and the keepalive ping (client.py:158-169) *)
Inductive api_call :=
| Connect (x : connect_args)
| Disconnect (force : bool)
| GetConfig | GetStatus | GetChemistry | GetScg | GetDatetime | GetPumps
| Update
| SetMaxRetries (k : Z)
| SetCircuit (circuit state : pv)
| SetHeatTemp (body temp : pv)
| SetHeatMode (body mode : pv)
| SetColorLights (mode : pv)
| SetScgConfig (pool spa super timer : option pv)
| SetChemData (ph orp ca alk cya salt : option pv)
| SetDateTime (t : option datetime) (auto_dst : option pv)
| SynchronizeDateTime (now : datetime)
| SendMessage (code : Z) (message : bytes)
| RegisterHandler (code : Z) (h : nat)
| RemoveHandler (code : Z)
| Subscribe (cb : nat) (code : Z)
| Unsubscribe (cb : nat) (code : Z)
| Unregister
| Ping.

Definition ignore {A} (m : M A) : M unit := m ;;; mret tt.

(** [n] is the fuel of the connects, see Gateway.v *)
Definition perform (n : nat) (c : api_call) : M unit :=
  match c with
  | Connect x => ignore (async_connect n x)
  | Disconnect force => async_disconnect force
  | GetConfig => async_get_config n
  | GetStatus => async_get_status n
  | GetChemistry => async_get_chemistry n
  | GetScg => async_get_scg n
  | GetDatetime => async_get_datetime n
  | GetPumps => async_get_pumps n
  | Update => async_update n
  | SetMaxRetries k => set_max_retries k
  | SetCircuit a b => async_set_circuit n a b
  | SetHeatTemp a b => async_set_heat_temp n a b
  | SetHeatMode a b => async_set_heat_mode n a b
  | SetColorLights a => async_set_color_lights n a
  | SetScgConfig a b c d => async_set_scg_config n a b c d
  | SetChemData a b c d e f => async_set_chem_data n a b c d e f
  | SetDateTime t a => async_set_date_time n t a
  | SynchronizeDateTime now => async_synchronize_date_time n now
  | SendMessage code m => ignore (async_send_message n code m)
  | RegisterHandler code h => register_handler code h
  | RemoveHandler code => remove_handler code
  | Subscribe cb code => ignore (async_subscribe_client n cb code)
  | Unsubscribe cb code => remove_subscription cb code
  | Unregister => unsubscribe_gateway
  | Ping => async_ping
  end.

(** A history: calls one after the other, each returning or raising; between them the
    environment may lose connections and push data ([r]). *)
Inductive step_of := Called (c : api_call) (t : trace) (o : out unit) | Meanwhile (r : resp) (t : trace).
Inductive session (n : nat) : world -> list step_of -> world -> Prop :=
| S_end w : session n w [] w
| S_call w c t w1 o l w2 : perform n c w = (t, w1, o) -> (forall y, o <> Stuck y) -> session n w1 l w2 ->
    session n w (Called c t o :: l) w2
| S_wait w r t w1 l w2 : interfere r w = (t, w1) -> session n w1 l w2 -> session n w (Meanwhile r t :: l) w2.

(** what the whole history did *)
Definition trace_of (s : step_of) : trace := match s with Called _ t _ => t | Meanwhile _ t => t end.
Definition history_trace (l : list step_of) : trace := List.concat (map trace_of l).

(** The calls that make one kind of request, with its message code
    (const/msg.py:1-75), and the answers they take. *)
Definition request_code (c : api_call) : option Z :=
  match c with
  | GetStatus => Some 12526 | GetChemistry => Some 12592 | GetScg => Some 12572 | GetDatetime => Some 8110
  | SetCircuit _ _ => Some 12530 | SetHeatTemp _ _ => Some 12528 | SetHeatMode _ _ => Some 12538
  | SetColorLights _ => Some 12556 | SetScgConfig _ _ _ _ => Some 12576 | SetChemData _ _ _ _ _ _ => Some 12594
  | SetDateTime _ _ | SynchronizeDateTime _ => Some 8112
  | SendMessage code _ => Some code
  | _ => None
  end.
Definition takes (c : api_call) (b : bytes) : Prop :=
  match c with
  | GetStatus | GetChemistry | GetScg | GetDatetime | SendMessage _ _ => True
  | _ => b = []
  end.
(** the calls that change something at the controller *)
Definition is_command (c : api_call) : Prop :=
  match c with
  | SetCircuit _ _ | SetHeatTemp _ _ | SetHeatMode _ _ | SetColorLights _ | SetScgConfig _ _ _ _ | SetChemData _ _ _ _ _ _
  | SetDateTime _ _ | SynchronizeDateTime _ => True
  | _ => False
  end.
(** in [t] a message with code [X] was sent and [r] is what came back *)
Definition answered (X : Z) (r : resp) (t : trace) : Prop :=
  exists t1 c p ms t2, t = t1 ++ Send c X p :: AwaitReply c ms :: Got r :: t2.
(** the messages with code [X] in [t] come in at most two rounds, each of at most [mr] + 1
    messages on one connection; the second round only happens when the first got no answer
    that is taken, after a connection was force-closed, and on another connection, the first one
    having been force-closed and being gone *)
Definition two_rounds (X mr : Z) (good : bytes -> Prop) (t : trace) : Prop :=
  exists t1 td t2, t = t1 ++ td ++ t2 /\
    (exists c1, Forall (fun x => fst x = c1) (sends_of X t1)) /\ (List.length (sends_of X t1) <= Z.to_nat (mr + 1))%nat /\
    sends_of X td = [] /\
    (exists c2, Forall (fun x => fst x = c2) (sends_of X t2)) /\ (List.length (sends_of X t2) <= Z.to_nat (mr + 1))%nat /\
    (sends_of X t2 <> [] ->
      (forall r b, answered X r t1 -> answer_of r = Some (X + 1, b) -> ~ good b) /\
      (exists c, In (AwaitFutures c true) td) /\
      (forall c1 p1 c2 p2, In (c1, p1) (sends_of X t1) -> In (c2, p2) (sends_of X t2) ->
         c1 <> c2 /\ In (AwaitFutures c1 true) td /\ In (Lost c1) (t1 ++ td))).


(** the message that asks for pump [i], gateway docs / requests/pump.py:16-22 *)
Definition pump_message (i : Z) : bytes := le_enc 4 0 ++ le_enc 4 i.
(** the equipment flags (gateway.py:93-97) have the bit of pump [i]:
    const/data.py EQUIPMENT_FLAG.INTELLIFLO_0 = 16 is bit 4 *)
Definition pump_bit (flags i : Z) : bool := Z.testbit flags (4 + i).
(** [t] asks for pump [i] and for no other pump *)
Definition asks_pump (i : Z) (t : trace) : Prop := forall c p, In (Send c 12584 p) t -> p = pump_message i.
(** The pumps [ids] get their turns one after the other, the equipment flags being read
    before each: a pump without its flag is passed over, one with it is asked for, and
    when that fails the turns end. *)
Inductive turns : list Z -> world -> trace -> world -> out unit -> Prop :=
| T_end w : turns [] w [] w (Val tt)
| T_noflags i ids w e : equipment_flags (w_data w) = Err e -> turns (i :: ids) w [] w (Exc e)
| T_skip i ids w f t w' o : equipment_flags (w_data w) = Ok f -> pump_bit f i = false -> turns ids w t w' o -> turns (i :: ids) w t w' o
| T_ask i ids w f t1 w1 t2 w' o : equipment_flags (w_data w) = Ok f -> pump_bit f i = true -> asks_pump i t1 ->
    turns ids w1 t2 w' o -> turns (i :: ids) w (t1 ++ t2) w' o
| T_fail i ids w f t w' o : equipment_flags (w_data w) = Ok f -> pump_bit f i = true -> asks_pump i t -> o <> Val tt ->
    turns (i :: ids) w t w' o.
(** the next [resp] of the script bring no data pushed by the adapter *)
Definition no_pushes (w : world) : Prop := Forall (fun r => r_data r = None) (w_env w).

(** the codes of the messages a connect or reconnect may send: logging in (14, 27), version
    (8120), configuration (12532), and registering as client (12522, 12524) *)
Definition connecting_code (X : Z) : Prop := In X [14; 27; 8120; 12532; 12522; 12524].
(** besides connecting [t] sends only messages with code [X] *)
Definition only_code (X : Z) (t : trace) : Prop := forall c Y p, In (Send c Y p) t -> Y = X \/ connecting_code Y.
(** the calls are made one after the other, up to the first that does not return normally,
    which ends them all the same way *)
Inductive one_by_one (n : nat) : list api_call -> world -> trace -> world -> out unit -> Prop :=
| O_end w : one_by_one n [] w [] w (Val tt)
| O_next c cs w t1 w1 t2 w' o : perform n c w = (t1, w1, Val tt) -> one_by_one n cs w1 t2 w' o ->
    one_by_one n (c :: cs) w (t1 ++ t2) w' o
| O_fail c cs w t w' o : perform n c w = (t, w', o) -> o <> Val tt -> one_by_one n (c :: cs) w t w' o.

(** get_debug()["pumps"][i], gateway.py:208-222 *)
Definition pump_debug (i : Z) (w : world) : option pv :=
  match dget (KS "pumps") (w_last w) with Some (VDict m) => dget (KI i) m | _ => None end.
(** the debug entry [k] of a kind of poll that has the request code [X] *)
Definition debug_kind (k : key) (X : Z) : Prop :=
  (k = KS "status" /\ X = 12526) \/ (k = KS "chemistry" /\ X = 12592) \/ (k = KS "scg" /\ X = 12572) \/ (k = KS "date_time" /\ X = 8110).
(** the calls that poll it *)
Definition polls (k : key) (c : api_call) : Prop :=
  match c with
  | GetStatus => k = KS "status" | GetChemistry => k = KS "chemistry" | GetScg => k = KS "scg" | GetDatetime => k = KS "date_time"
  | Update => True
  | _ => False
  end.
(** the payload of a good answer to a request with code [X] that came in during [t] *)
Definition came_in (X : Z) (t : trace) (b : bytes) : Prop := b <> [] /\ exists q, In (Got q) t /\ answer_of q = Some (X + 1, b).

(** the entry for the pumps, when there is one, is a dictionary *)
Definition pumps_dict (w : world) : Prop :=
  dget (KS "pumps") (w_last w) = None \/ exists m, dget (KS "pumps") (w_last w) = Some (VDict m).
(** [b] is the last good answer to a request with code [X] in [t] *)
Definition latest_answer (X : Z) (b : bytes) (t : trace) : Prop :=
  exists t1 c p ms q t2, t = t1 ++ Send c X p :: AwaitReply c ms :: Got q :: t2 /\
    answer_of q = Some (X + 1, b) /\ b <> [] /\ forall b', ~ came_in X t2 b'.

(** how many connections were granted in [t] *)
Fixpoint granted (t : trace) : nat :=
  match t with
  | [] => O
  | e :: t' =>
      match e, t' with
      | Open _ _ _, Got r :: _ => match r_kind r with KDone => S (granted t') | _ => granted t' end
      | _, _ => granted t'
      end
  end.
(** nothing that came in during [t] is an answer to a request *)
Definition unanswered (t : trace) : Prop := forall r, In (Got r) t -> answer_of r = None.
(** a ScreenLogic communication error, or the caller was cancelled *)
Definition sent_exn (e : exn) : Prop := is_comm_error e = true \/ e = ECancelled.
(** max_retries: the value of the last set_max_retries that was accepted *)
Definition limit_ok (w : world) : Prop := 1 <= w_retries w <= 5.
Definition last_limit (l : list step_of) (d : Z) : Z :=
  fold_left (fun d s => match s with Called (SetMaxRetries k) _ (Val _) => k | _ => d end) l d.
(** the step does not connect with arguments *)
Definition no_connect_args (s : step_of) : Prop := match s with Called (Connect x) _ _ => x = no_args | _ => True end.
(** the same address, port, type, subtype and name (the MAC address is read anew) *)
Definition same_addr (a b : addr) : Prop :=
  a_ip a = a_ip b /\ a_port a = a_port b /\ a_type a = a_type b /\ a_subtype a = a_subtype b /\ a_name a = a_name b.
