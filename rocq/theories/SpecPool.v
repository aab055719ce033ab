(** Vocabulary of Prop_Pool.v: what can be read off the log of a schedule (Pool.v). *)
From Verif Require Import Py F64 Struct Utf Utility Const Spec Enum Decode Messages Calls World Request Gateway Traces Paths Api Pool.

(** what task [i] did and was answered, in order *)
Definition own (i : nat) (g : log) : trace :=
  flat_map (fun x => match x with By j e => if Nat.eqb j i then [e] else [] | _ => [] end) g.

(** the call that task [i] carries out (there is one at most), and get_data() when it was made *)
Definition begun (i : nat) (g : log) : list (api_call * dict) :=
  flat_map (fun x => match x with Started j c d => if Nat.eqb j i then [(c, d)] else [] | _ => [] end) g.

(** on connection [c] a login message (27) was answered with login accepted (28) *)
Definition accepted (c : nat) (g : log) : Prop :=
  exists i t1 p ms r b t2, own i g = t1 ++ Send c 27 p :: AwaitReply c ms :: Got r :: t2 /\ answer_of r = Some (28, b).

(** task [i] has just sent the message (X, p) on [c] and waits for the answer *)
Definition asked (i : nat) (g : log) (c : nat) (X : Z) (p : bytes) : Prop := exists t ms, own i g = t ++ [Send c X p; AwaitReply c ms].

(** the messages that add and remove the client *)
Definition registration (X : Z) : Prop := X = 12522 \/ X = 12524.

(** How an answer to a query is read: const/msg.py, requests/*.py.  [fl] is float() of the host;
    the date and time message is compared with some time of the host's clock. *)
Inductive reads (fl : pystr -> option spec_float) : Z -> bytes -> bytes -> call -> Prop :=
| R_config p b : reads fl 12532 p b (DConfig b)
| R_status p b : reads fl 12526 p b (DStatus b)
| R_chem p b : reads fl 12592 p b (DChem b)
| R_scg p b : reads fl 12572 p b (DScg b)
| R_pump i b : 0 <= i < 8 -> reads fl 12584 (pump_message i) b (DPump i b)
| R_version p b : reads fl 8120 p b (DVersion fl b)
| R_date p b now : reads fl 8110 p b (DDate now b).
Definition query (X : Z) : Prop := In X [12532; 12526; 12592; 12572; 12584; 8120; 8110].
(** and a pushed message: client.py:44-53 *)
Inductive pushes : Z -> bytes -> call -> Prop :=
| P_status b : pushes 12500 b (DStatus b)
| P_chem b : pushes 12505 b (DChem b)
| P_color b : pushes 12504 b (DColor b).

(** What get_data() is, read off the log: the answers to queries and the pushed messages, each
    decoded as a whole when it comes in, one after the other, and nothing else.  Not read are
    empty answers, answers with another code, and answers to messages of async_send_message. *)
Inductive shows (fl : pystr -> option spec_float) (d0 : dict) : log -> dict -> Prop :=
| S_start : shows fl d0 [] d0
| S_answer g d i c X p r b x : shows fl d0 g d -> asked i g c X p -> answer_of r = Some (X + 1, b) -> b <> [] -> reads fl X p b x ->
    shows fl d0 (g ++ [By i (Got r)]) (fst (run_decoder x d))
| S_push g d c code b cbs x : shows fl d0 g d -> pushes code b x -> shows fl d0 (g ++ [Applied c code b cbs]) (fst (run_decoder x d))
| S_other g d x : shows fl d0 g d ->
    (forall c code b cbs y, x = Applied c code b cbs -> ~ pushes code b y) ->
    (forall i r c X p b, x = By i (Got r) -> asked i g c X p -> answer_of r = Some (X + 1, b) -> query X ->
       b = [] \/ exists m d', In (Started i (SendMessage X m) d') g) ->
    shows fl d0 (g ++ [x]) d.

(** the messages of the connection dialogue: challenge, login, version, configuration, and
    adding or removing the client [id] *)
Definition dialogue (id X : Z) (p : bytes) : Prop :=
  (X = 14 /\ p = []) \/
  (X = 27 /\ create_login_message = Ok p) \/
  (X = 8120 /\ p = []) \/
  (X = 12532 /\ p = u32le 0 ++ u32le 0) \/
  ((X = 12522 \/ X = 12524) /\ p = u32le 0 ++ u32le id).

(** the payload of a set-time message: the time given, or else the one the controller reported,
    and the daylight saving setting given, or else the one reported *)
Definition set_time (tz : Z -> Z) (t : option datetime) (dst : option pv) (d : dict) (p : bytes) : Prop :=
  (forall t0, t = Some t0 -> valid_dt t0 = true) ->
  exists t1 a,
    p = wire_time (dt_year t1) (dt_month t1) (day_of_week (dt_year t1) (dt_month t1) (dt_day t1)) (dt_day t1)
          (dt_hour t1) (dt_minute t1) 0 (dt_micro t1 / 1000) ++ u32le a /\
    is_u32 a /\ chosen dst d [KS "controller"; KS "date_time"; KS "auto_dst"; KS "value"] (VInt a) /\
    match t with
    | Some t0 => t1 = t0
    | None => exists v, leads (VDict d) [KS "controller"; KS "date_time"; KS "timestamp"] v /\ from_timestamp tz v = Ok t1
    end.

(** the message that carries out a call made when the data is [d]; [tz] is the local time *)
Definition own_message (tz : Z -> Z) (c : api_call) (d : dict) (X : Z) (p : bytes) : Prop :=
  match c with
  | GetConfig => X = 12532 /\ p = u32le 0 ++ u32le 0
  | GetStatus => X = 12526 /\ p = u32le 0
  | GetChemistry => X = 12592 /\ p = u32le 0
  | GetScg => X = 12572 /\ p = u32le 0
  | GetDatetime => X = 8110 /\ p = []
  | GetPumps => X = 12584 /\ exists i, 0 <= i < 8 /\ p = pump_message i
  | Update => (In X [12526; 12592; 12572] /\ p = u32le 0) \/ (X = 8110 /\ p = []) \/ (X = 12584 /\ exists i, 0 <= i < 8 /\ p = pump_message i)
  | SetCircuit circuit state => X = 12530 /\
      exists id st, circuit = VInt id /\ state = VInt st /\ listed d (KS "circuit") id /\ is_u32 id /\ (st = 0 \/ st = 1) /\
        p = u32le 0 ++ u32le id ++ u32le st
  | SetHeatTemp body temp => X = 12528 /\
      exists b z lo hi, body = VInt b /\ temp = VInt z /\ listed d (KS "body") b /\ is_u32 b /\ is_u32 z /\
        leads (VDict d) [KS "body"; KI b; KS "min_setpoint"] lo /\ leads (VDict d) [KS "body"; KI b; KS "max_setpoint"] hi /\
        is_number lo /\ is_number hi /\ (forall a, lo = VInt a -> a <= z) /\ (forall a, hi = VInt a -> z <= a) /\
        p = u32le 0 ++ u32le b ++ u32le z
  | SetHeatMode body mode => X = 12538 /\
      exists b m, body = VInt b /\ mode = VInt m /\ listed d (KS "body") b /\ is_u32 b /\ 0 <= m <= 4 /\
        p = u32le 0 ++ u32le b ++ u32le m
  | SetColorLights mode => X = 12556 /\ exists z, mode = VInt z /\ 0 <= z <= 21 /\ p = u32le 0 ++ u32le z
  | SetScgConfig pool spa super timer => X = 12576 /\
      exists a b s k, p = u32le 0 ++ u32le a ++ u32le b ++ u32le s ++ u32le k /\
        0 <= a <= 100 /\ 0 <= b <= 100 /\ (s = 0 \/ s = 1) /\ 0 <= k <= 72 /\
        chosen pool d [KS "scg"; KS "configuration"; KS "pool_setpoint"; KS "value"] (VInt a) /\
        chosen spa d [KS "scg"; KS "configuration"; KS "spa_setpoint"; KS "value"] (VInt b) /\
        chosen timer d [KS "scg"; KS "configuration"; KS "super_chlor_timer"; KS "value"] (VInt k) /\
        exists v, chosen super d [KS "scg"; KS "super_chlorinate"; KS "value"] v /\ (forall y, v = VInt y -> y = 0 \/ y = 1 -> s = y)
  | SetChemData ph orp ca alk cya salt => X = 12594 /\
      exists h a b e f g v, p = u32le 0 ++ u32le h ++ u32le a ++ u32le b ++ u32le e ++ u32le f ++ u32le g /\
        720 <= h <= 760 /\ 400 <= a <= 800 /\ 25 <= b <= 800 /\ 25 <= e <= 800 /\ 0 <= f <= 201 /\ 500 <= g <= 6500 /\
        chosen ph d [KS "intellichem"; KS "configuration"; KS "ph_setpoint"; KS "value"] v /\ times100 v = Ok (VInt h) /\
        chosen orp d [KS "intellichem"; KS "configuration"; KS "orp_setpoint"; KS "value"] (VInt a) /\
        chosen ca d [KS "intellichem"; KS "configuration"; KS "calcium_hardness"; KS "value"] (VInt b) /\
        chosen alk d [KS "intellichem"; KS "configuration"; KS "total_alkalinity"; KS "value"] (VInt e) /\
        chosen cya d [KS "intellichem"; KS "configuration"; KS "cya"; KS "value"] (VInt f) /\
        chosen salt d [KS "intellichem"; KS "configuration"; KS "salt_tds_ppm"; KS "value"] (VInt g)
  | SetDateTime t dst => X = 8112 /\ set_time tz t dst d p
  | SynchronizeDateTime now => X = 8112 /\ set_time tz (Some now) None d p
  | SendMessage code m => X = code /\ p = m
  | Ping => X = 16 /\ p = []
  | Connect _ | Disconnect _ | SetMaxRetries _ | RegisterHandler _ _ | RemoveHandler _ | Subscribe _ _ | Unsubscribe _ _ | Unregister => False
  end.
