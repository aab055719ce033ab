(** Model of gateway.py (ScreenLogicGateway) and of the connection side of client.py
    (ClientManager.attach, async_subscribe_gateway, async_unsubscribe_gateway,
    async_subscribe).  See World.v for the coroutine monad. *)
From Verif Require Import Py F64 Struct Utf Utility Const Enum Decode World Request.
Open Scope m_scope.

(** ------------------------------------------------------------------ *)
(** * Data access *)

(** gateway.py:255-262 get_next *)
Definition get_next (current : pv) (k : key) : pv :=
  match current with
  | VDict d => match dget k d with Some v => v | None => VNone end
  | VList l =>
      match k with
      | KI z => if (0 <=? z) && (z <? zlen l) then nth (Z.to_nat z) l VNone else VNone
      | KS _ => VNone
      end
  | _ => VNone
  end.

Definition is_none (v : pv) : bool := match v with VNone => true | _ => false end.

(** gateway.py:264-271 the loop of get_data *)
Fixpoint walk (strict : bool) (next : pv) (p : path) : res pv :=
  match p with
  | [] => Ok next
  | k :: p' =>
      let v := get_next next k in
      if is_none v then (if strict then Err EKey else Ok VNone) else walk strict v p'
  end.

(** gateway.py:241-271 get_data *)
Definition get_data (strict : bool) (p : path) (d : dict) : res pv := walk strict (VDict d) p.

(** gateway.py:273-285 get_value and 287-299 get_name *)
Definition get_attr (attr : key) (strict : bool) (p : path) (d : dict) : res pv :=
  rbind (get_data strict p d) (fun v =>
  let found := match v with
               | VDict m => match dget attr m with Some VNone => None | r => r end
               | _ => None
               end in
  match found with
  | Some x => Ok x
  | None => if strict then Err EKey else Ok VNone
  end).
Definition get_value := get_attr ATTR_VALUE.
Definition get_name := get_attr ATTR_NAME.

(** truthiness *)
Definition truthy (v : pv) : bool :=
  match v with
  | VNone => false
  | VInt z => negb (z =? 0)
  | VFloat (S754_zero _) => false
  | VFloat _ => true
  | VStr s => negb (zlen s =? 0)
  | VBytes b => negb (zlen b =? 0)
  | VList l => negb (zlen l =? 0)
  | VTuple l => negb (zlen l =? 0)
  | VDict d => negb (zlen d =? 0)
  end.

(** a path read that cannot raise *)
Definition soft (r : res pv) : pv := match r with Ok v => v | Err _ => VNone end.

(** gateway.py:85-87 version *)
Definition version (d : dict) : pv := soft (get_value false [DEVICE_ADAPTER; VALUE_FIRMWARE] d).

(** gateway.py:93-97 equipment_flags: IntFlag of anything but an int is a ValueError; the
    flag keeps every bit of an int. *)
Definition equipment_flags (d : dict) : res Z :=
  match soft (get_data false [DEVICE_CONTROLLER; GROUP_EQUIPMENT; VALUE_FLAGS] d) with
  | VInt z => Ok z
  | _ => Err EValue
  end.

(** ------------------------------------------------------------------ *)
(** * Connecting *)

(** gateway.py:103-105 is_connected *)
Definition is_connected (w : world) : bool :=
  match w_proto w with Some c => connected c w | None => false end.

(** client.py:58-59 _attached *)
Definition attached (w : world) : bool :=
  match m_proto (w_cm w) with Some c => connected c w | None => false end.

(** client.py:44-47 is_client, 53-56 client_needed *)
Definition is_client (w : world) : bool := m_is_client (w_cm w) && attached w.
Definition client_needed (w : world) : bool :=
  match m_listeners (w_cm w) with [] => false | _ => negb (m_is_client (w_cm w)) end.

Definition put_cm (f : manager -> manager) (w : world) : world := set_cm (f (w_cm w)) w.

(** asyncio.Lock used as [async with lock]: not reentrant. *)
Definition with_lock {A} (body : M A) : M A :=
  locked <- mget (fun w => m_locked (w_cm w)) ;;
  if locked then mstuck Blocked
  else mput (put_cm (cmset_locked true)) ;;;
       mfinally body (put_cm (cmset_locked false)).

(** the protocol object of the client manager / of the gateway; None.x is AttributeError *)
Definition m_proto_or_fail : M nat :=
  p <- mget (fun w => m_proto (w_cm w)) ;;
  match p with Some c => mret c | None => mraise EAttribute end.
Definition proto_or_fail : M nat :=
  p <- mget w_proto ;; match p with Some c => mret c | None => mraise EAttribute end.

(** protocol.py:171-194, 223-240 *)
Fixpoint hset (k : Z) (v : handler) (d : list (Z * handler)) : list (Z * handler) :=
  match d with
  | [] => [(k, v)]
  | (k', v') :: d' => if k =? k' then (k', v) :: d' else (k', v') :: hset k v d'
  end.
Definition register (c : nat) (code : Z) (h : handler) : world -> world :=
  upd_conn c (fun k => mkConn (c_connected k) (c_closing k) (c_open k) (hset code h (c_handlers k)) (c_keepalive k)).
Definition unregister (c : nat) (code : Z) : world -> world :=
  upd_conn c (fun k => mkConn (c_connected k) (c_closing k) (c_open k)
                         (filter (fun p => negb (fst p =? code)) (c_handlers k)) (c_keepalive k)).
Definition unregister_all (c : nat) : world -> world :=
  upd_conn c (fun k => mkConn (c_connected k) (c_closing k) (c_open k) [] (c_keepalive k)).
Definition keepalive (on : bool) (c : nat) : world -> world :=
  upd_conn c (fun k => mkConn (c_connected k) (c_closing k) (c_open k) (c_handlers k) on).
Definition mark_closing (c : nat) : world -> world :=
  upd_conn c (fun k => mkConn (c_connected k) true (c_open k) (c_handlers k) (c_keepalive k)).
Definition mark_shut (c : nat) : world -> world :=
  upd_conn c (fun k => mkConn (c_connected k) (c_closing k) false (c_handlers k) (c_keepalive k)).

(** protocol.py:157-169 async_close with 275-287 all_done: the wait for the gathered
    futures swallows a cancellation, the wait for [_closed] does not.  [force] decides
    which futures are cancelled (Protocol.v); here it is only recorded.  While waiting for
    [_closed], KDone means connection_lost ran. *)
Definition async_close (c : nat) (force : bool) : M unit :=
  mput (mark_closing c) ;;;
  r <- ask (AwaitFutures c force) nopre ;;
  match r_kind r with
  | KDone | KCancelTask =>
      k <- mget (get_conn c) ;;
      (if c_open k then memit (CloseTransport c) ;;; mput (mark_shut c) else mret tt) ;;;
      still <- mget (connected c) ;;
      if negb still then mret tt
      else
        r2 <- ask (AwaitClosed c) nopre ;;
        match r_kind r2 with
        | KDone => fun w => let '(t, w') := lose c w in (t, w', Val tt)
        | KCancelTask => mraise ECancelled
        | _ => mstuck Unfit
        end
  | _ => mstuck Unfit
  end.

(** client.py:173-181 _async_remove_client *)
Definition remove_client : M unit :=
  mcatch (c <- m_proto_or_fail ;;
          id <- mget (fun w => m_id (w_cm w)) ;;
          request_remove_client id 0 c)
         is_comm_error (fun _ => mret tt).

(** client.py:202-217 async_unsubscribe_gateway *)
Definition unsubscribe_gateway : M unit :=
  a <- mget attached ;;
  if negb a then mret tt
  else with_lock
    (b <- mget (fun w => m_is_client (w_cm w)) ;;
     if b then
       mput (put_cm (cmset_client false)) ;;;
       c <- m_proto_or_fail ;;
       mput (keepalive false c) ;;;
       mput (unregister_all c) ;;;
       remove_client
     else mret tt).

(** gateway.py:166-172 async_disconnect *)
Definition async_disconnect (force : bool) : M unit :=
  b <- mget is_client ;;
  (if b then unsubscribe_gateway else mret tt) ;;;
  c <- proto_or_fail ;;
  async_close c force.

(** gateway.py:543-548 attempt_request.  [connect] is async_connect() without arguments.
    A failed connect evaluates [async_method.func_name], which no function has. *)
Definition attempt_request {A} (connect : M bool) (method : Z -> nat -> M A) (mr : Z) : M A :=
  ok <- connect ;;
  if negb ok then mraise EAttribute
  else c <- proto_or_fail ;; method mr c.

(** gateway.py:532-556 _async_connected_request; reconnect_delay in seconds *)
Definition connected_request {A} (connect : M bool) (method : Z -> nat -> M A) (delay : Z) : M A :=
  mr <- mget w_retries ;;
  mcatch (attempt_request connect method mr) is_comm_error (fun _ =>
    async_disconnect true ;;;
    msleep (1000 * delay) ;;;
    attempt_request connect method mr).

(** client.py:183-200 async_subscribe_gateway, with 168-171 _async_add_client *)
Definition subscribe_gateway (connect : M bool) : M unit :=
  a <- mget attached ;;
  if negb a then mret tt
  else with_lock
    (b <- mget is_client ;;
     if negb b then
       id <- mget (fun w => m_id (w_cm w)) ;;
       connected_request connect (request_add_client id) 0 ;;;
       mput (put_cm (cmset_client true)) ;;;
       c <- m_proto_or_fail ;;
       mput (keepalive true c)
     else mret tt).

(** client.py:61-84 attach *)
Definition attach (connect : M bool) (c : nat) (max_retries : Z) : M unit :=
  mput (put_cm (fun m => cmset_client false (cmset_retries max_retries (cmset_proto (Some c) m)))) ;;;
  need <- mget client_needed ;;
  if need then
    mput (unregister_all c) ;;;
    mput (fun w => fold_left (fun w code => register c code (HClient code) w)
                             (map fst (m_listeners (w_cm w))) w) ;;;
    subscribe_gateway connect
  else mret tt.

(** gateway.py:190-239: the polling methods.  [key_] is the DATA_REQUEST constant,
    const/common.py:122-130. *)
Definition poll (connect : M bool) (key_ : key) (method : Z -> nat -> M (option bytes)) : M unit :=
  r <- connected_request connect method 1 ;;
  match r with
  | Some b => mput (fun w => set_last (dset key_ (VBytes b) (w_last w)) w)
  | None => mret tt
  end.
Definition K_CHEMISTRY := KS "chemistry".
Definition K_DATE_TIME := KS "date_time".
Definition K_CONFIG := KS "config".
Definition K_PUMPS := KS "pumps".
Definition K_SCG := KS "scg".
Definition K_STATUS := KS "status".
Definition K_VERSION := KS "version".

(** The arguments of async_connect, gateway.py:119-127 *)
Record connect_args := mkArgs {
  x_ip : option pystr; x_port : option Z; x_type : option Z; x_subtype : option Z;
  x_name : option pystr; x_cb : option nat }.
Definition no_args : connect_args := mkArgs None None None None None None.

Definition over {A} (o : option A) (d : A) : A := match o with Some x => x | None => d end.
Definition overo {A} (o : option A) (d : option A) : option A := match o with Some x => Some x | None => d end.

(** gateway.py:132-137 *)
Definition store_args (x : connect_args) (w : world) : world :=
  let a := w_addr w in
  set_cb (x_cb x)
    (set_addr (mkAddr (overo (x_ip x) (a_ip a)) (over (x_port x) (a_port a)) (over (x_type x) (a_type a))
                 (over (x_subtype x) (a_subtype a)) (over (x_name x) (a_name a)) (a_mac a)) w).

Definition no_address (w : world) : bool :=
  match a_ip (w_addr w) with None | Some [] => true | _ => false end.

(** gateway.py:152 *)
Definition store_connection (c : nat) (mac : pystr) (w : world) : world :=
  let a := w_addr w in
  set_proto (Some c) (set_addr (mkAddr (a_ip a) (a_port a) (a_type a) (a_subtype a) (a_name a) mac) w).

(** gateway.py:119-164 async_connect.  It calls itself, without arguments, through
    async_get_config (158) and attach (159) when their requests fail; [fuel] bounds the
    depth of that recursion and running out of it is [Stuck Fuel]. *)
Fixpoint async_connect (fuel : nat) (x : connect_args) : M bool :=
  match fuel with
  | O => mstuck Fuel
  | S fuel' =>
      up <- mget is_connected ;;
      if up then mret true
      else
        mput (store_args x) ;;;
        no <- mget no_address ;;
        if no then mraise ESLError
        else
          ip <- mget (fun w => a_ip (w_addr w)) ;;
          port <- mget (fun w => a_port (w_addr w)) ;;
          mr <- mget w_retries ;;
          pkg <- connect_to_gateway ip port mr ;;
          match pkg with
          | None => mret false
          | Some (c, mac) =>
              mput (store_connection c mac) ;;;
              mr1 <- mget w_retries ;;
              v <- request_gateway_version mr1 c ;;
              mput (fun w => set_last (dset K_VERSION (match v with Some b => VBytes b | None => VNone end) (w_last w)) w) ;;;
              d <- mget w_data ;;
              if truthy (version d) then
                poll (async_connect fuel' no_args) K_CONFIG request_pool_config ;;;
                c2 <- proto_or_fail ;;
                mr2 <- mget w_retries ;;
                attach (async_connect fuel' no_args) c2 mr2 ;;;
                mret true
              else mret false
          end
  end.

(** ------------------------------------------------------------------ *)
(** * The gateway API.  [n] is the fuel of the connects a command may do. *)

Definition command {A} (n : nat) (method : Z -> nat -> M A) (delay : Z) : M A :=
  connected_request (async_connect n no_args) method delay.

(** gateway.py:190-239 *)
Definition async_get_config (n : nat) := poll (async_connect n no_args) K_CONFIG request_pool_config.
Definition async_get_status (n : nat) := poll (async_connect n no_args) K_STATUS request_pool_status.
Definition async_get_chemistry (n : nat) := poll (async_connect n no_args) K_CHEMISTRY request_chemistry.
Definition async_get_scg (n : nat) := poll (async_connect n no_args) K_SCG request_scg_config.
Definition async_get_datetime (n : nat) := poll (async_connect n no_args) K_DATE_TIME request_date_time.

(** [self._last.setdefault("pumps", {})] keeps a reference to that dictionary; nothing
    replaces it, so it is the one found there later. *)
Definition pumps_entry (w : world) : world :=
  if din K_PUMPS (w_last w) then w else set_last (dset K_PUMPS (VDict []) (w_last w)) w.
Definition store_pump (i : Z) (b : bytes) (w : world) : world :=
  match dget K_PUMPS (w_last w) with
  | Some (VDict m) => set_last (dset K_PUMPS (VDict (dset (KI i) (VBytes b) m)) (w_last w)) w
  | _ => w
  end.
Fixpoint pumps_loop (n : nat) (ids : list Z) : M unit :=
  match ids with
  | [] => mret tt
  | i :: ids' =>
      f <- mget (fun w => equipment_flags (w_data w)) ;;
      flags <- mlift f ;;
      (if Z.land (Z.shiftl EQUIPMENT_FLAG_INTELLIFLO_0 i) flags =? 0 then mret tt
       else
         mput pumps_entry ;;;
         r <- command n (request_pump_status i) 1 ;;
         match r with Some b => mput (store_pump i b) | None => mret tt end) ;;;
      pumps_loop n ids'
  end.
Definition async_get_pumps (n : nat) : M unit := pumps_loop n [0; 1; 2; 3; 4; 5; 6; 7].

(** gateway.py:174-188 async_update *)
Definition async_update (n : nat) : M unit :=
  d <- mget w_data ;;
  match d with
  | [] => mraise ESLError
  | _ =>
      async_get_status n ;;;
      async_get_pumps n ;;;
      async_get_chemistry n ;;;
      async_get_scg n ;;;
      async_get_datetime n
  end.

(** [k in d] for a Python value and a dictionary with string and integer keys: numbers
    equal to an integer key hash alike; lists and dicts are unhashable (TypeError). *)
Definition eq_key (v : pv) (k : key) : bool :=
  match k, v with
  | KI z, _ => num_eqb v z
  | KS t, VStr s => pystr_eqb (u t) s
  | KS _, _ => false
  end.
Definition contains (v : pv) (d : dict) : res bool :=
  match v with
  | VList _ | VDict _ => Err EType
  | _ => Ok (existsb (fun kv => eq_key v (fst kv)) d)
  end.
(** gateway.py:563-565, 571-573: [x in self._data[section]]; KeyError without the section.
    The section is a dictionary in every decoded tree; anything else is reported as TypeError. *)
Definition in_section (section : key) (x : pv) (d : dict) : res bool :=
  match dget section d with
  | None => Err EKey
  | Some (VDict m) => contains x m
  | Some _ => Err EType
  end.

(** gateway.py:567-569 *)
Definition is_valid_circuit_state (state : pv) : bool := num_eqb state 0 || num_eqb state 1.
(** gateway.py:575-577 *)
Definition is_valid_heatmode (m : pv) : res bool :=
  rbind (num_leb (VInt 0) m) (fun b => if b then num_ltb m (VInt 5) else Ok false).
(** gateway.py:585-587 *)
Definition is_valid_color_mode (m : pv) : res bool :=
  rbind (num_leb (VInt 0) m) (fun b => if b then num_leb m (VInt 21) else Ok false).
(** int(v); for text see [h_int] in Enum.v: a body key is never text, ValueError here *)
Definition py_int (v : pv) : res Z :=
  match v with VInt z => Ok z | VFloat f => f_trunc f | VStr _ => Err EValue | _ => Err EType end.
(** gateway.py:579-583 *)
Definition is_valid_heattemp (body temp : pv) (d : dict) : res bool :=
  rbind (py_int body) (fun i =>
  let lo := soft (get_data false [DEVICE_BODY; KI i; ATTR_MIN_SETPOINT] d) in
  let hi := soft (get_data false [DEVICE_BODY; KI i; ATTR_MAX_SETPOINT] d) in
  rbind (num_leb lo temp) (fun b => if b then num_leb temp hi else Ok false)).

Definition require (b : res bool) : M unit :=
  ok <- mlift b ;; if ok : bool then mret tt else mraise EValue.

(** gateway.py:305-309 set_max_retries *)
Definition set_max_retries (n : Z) : M unit :=
  if (0 <? n) && (n <? 6) then mput (set_retries n) else mraise EValue.

(** gateway.py:311-320 async_set_circuit *)
Definition async_set_circuit (n : nat) (circuitID circuitState : pv) : M unit :=
  d <- mget w_data ;;
  require (in_section DEVICE_CIRCUIT circuitID d) ;;;
  require (Ok (is_valid_circuit_state circuitState)) ;;;
  command n (request_pool_button_press circuitID circuitState) 0.

(** gateway.py:322-329 async_set_heat_temp *)
Definition async_set_heat_temp (n : nat) (body temp : pv) : M unit :=
  d <- mget w_data ;;
  require (in_section DEVICE_BODY body d) ;;;
  require (is_valid_heattemp body temp d) ;;;
  command n (request_set_heat_setpoint body temp) 0.

(** gateway.py:331-338 async_set_heat_mode *)
Definition async_set_heat_mode (n : nat) (body mode : pv) : M unit :=
  d <- mget w_data ;;
  require (in_section DEVICE_BODY body d) ;;;
  require (is_valid_heatmode mode) ;;;
  command n (request_set_heat_mode body mode) 0.

(** gateway.py:340-347 async_set_color_lights *)
Definition async_set_color_lights (n : nat) (light_command : pv) : M unit :=
  require (is_valid_color_mode light_command) ;;;
  command n (request_pool_lights_command light_command) 0.

(** An argument left out (None) is read from the data: gateway.py:363-381, 412-438. *)
Definition or_current (arg : option pv) (p : path) (d : dict) : res pv :=
  match arg with Some v => Ok v | None => get_value true p d end.

(** except (KeyError, ValueError) as ex: raise ScreenLogicError: gateway.py:387-388, 446-447 *)
Definition as_sl_error {A} (r : res A) : res A :=
  match r with
  | Err e => if is_value_error e then Err ESLError else match e with EKey => Err ESLError | _ => Err e end
  | _ => r
  end.

(** gateway.py:361-388 argument handling of async_set_scg_config *)
Definition scg_args (pool spa super timer : option pv) (d : dict) : res (pv * pv * pv * pv) :=
  as_sl_error (
    rbind (or_current pool [DEVICE_SCG; GROUP_CONFIGURATION; VALUE_POOL_SETPOINT] d) (fun pool =>
    rbind (or_current spa [DEVICE_SCG; GROUP_CONFIGURATION; VALUE_SPA_SETPOINT] d) (fun spa =>
    rbind (or_current super [DEVICE_SCG; VALUE_SUPER_CHLORINATE] d) (fun super =>
    rbind (or_current timer [DEVICE_SCG; GROUP_CONFIGURATION; VALUE_SUPER_CHLOR_TIMER] d) (fun timer =>
    rbind (range_check SCG_RANGE_POOL_SETPOINT pool) (fun _ =>
    rbind (range_check SCG_RANGE_SPA_SETPOINT spa) (fun _ =>
    rbind (parse ON_OFF super (Some 0)) (fun member =>
    match member with
    | None => Err EAttribute                  (* unreachable: the default is 0 *)
    | Some (_, v) =>
        rbind (range_check SCG_RANGE_SUPER_CHLOR_RT timer) (fun _ => Ok (pool, spa, VInt v, timer))
    end)))))))).

(** gateway.py:349-396 async_set_scg_config *)
Definition async_set_scg_config (n : nat) (pool spa super timer : option pv) : M unit :=
  d <- mget w_data ;;
  a <- mlift (scg_args pool spa super timer d) ;;
  let '(pool, spa, super, timer) := a in
  command n (request_set_scg_config pool spa super timer) 0.

(** int(ph_setpoint * 100), gateway.py:449 *)
Definition times100 (v : pv) : res pv :=
  match v with
  | VInt z => Ok (VInt (z * 100))
  | VFloat f => rbind (f_trunc (fmul f (f_of_Z 100))) (fun z => Ok (VInt z))
  | _ => Err EType
  end.

(** gateway.py:409-449 argument handling of async_set_chem_data *)
Definition chem_args (ph orp ca alk cya salt : option pv) (d : dict) : res (pv * pv * pv * pv * pv * pv) :=
  rbind (as_sl_error (
    rbind (or_current ph [DEVICE_INTELLICHEM; GROUP_CONFIGURATION; VALUE_PH_SETPOINT] d) (fun ph =>
    rbind (or_current orp [DEVICE_INTELLICHEM; GROUP_CONFIGURATION; VALUE_ORP_SETPOINT] d) (fun orp =>
    rbind (or_current ca [DEVICE_INTELLICHEM; GROUP_CONFIGURATION; VALUE_CALCIUM_HARDNESS] d) (fun ca =>
    rbind (or_current alk [DEVICE_INTELLICHEM; GROUP_CONFIGURATION; VALUE_TOTAL_ALKALINITY] d) (fun alk =>
    rbind (or_current cya [DEVICE_INTELLICHEM; GROUP_CONFIGURATION; VALUE_CYA] d) (fun cya =>
    rbind (or_current salt [DEVICE_INTELLICHEM; GROUP_CONFIGURATION; VALUE_SALT_TDS_PPM] d) (fun salt =>
    rbind (range_check CHEM_RANGE_PH_SETPOINT ph) (fun _ =>
    rbind (range_check CHEM_RANGE_ORP_SETPOINT orp) (fun _ =>
    rbind (range_check CHEM_RANGE_CALCIUM_HARDNESS ca) (fun _ =>
    rbind (range_check CHEM_RANGE_TOTAL_ALKALINITY alk) (fun _ =>
    rbind (range_check CHEM_RANGE_CYANURIC_ACID cya) (fun _ =>
    rbind (range_check CHEM_RANGE_SALT_TDS salt) (fun _ => Ok (ph, orp, ca, alk, cya, salt))))))))))))))) (fun a =>
  let '(ph, orp, ca, alk, cya, salt) := a in
  rbind (times100 ph) (fun ph100 => Ok (ph100, orp, ca, alk, cya, salt))).

(** gateway.py:398-459 async_set_chem_data *)
Definition async_set_chem_data (n : nat) (ph orp ca alk cya salt : option pv) : M unit :=
  d <- mget w_data ;;
  a <- mlift (chem_args ph orp ca alk cya salt d) ;;
  let '(ph, orp, ca, alk, cya, salt) := a in
  command n (request_set_chem_data ph orp ca alk cya salt) 0.

(** ------------------------------------------------------------------ *)
(** datetime.fromtimestamp(x): local time.  CPython Lib/datetime.py:_ord2ymd. *)
Definition ord2ymd (n : Z) : Z * Z * Z :=
  let n := n - 1 in
  let n400 := n / 146097 in let n := n mod 146097 in
  let n100 := n / 36524 in let n := n mod 36524 in
  let n4 := n / 1461 in let n := n mod 1461 in
  let n1 := n / 365 in let n := n mod 365 in
  let year := n400 * 400 + 1 + n100 * 100 + n4 * 4 + n1 in
  if (n1 =? 4) || (n100 =? 4) then (year - 1, 12, 31)
  else
    let month := (n + 50) / 32 in
    let before := days_before_month year month in
    if n <? before
    then (year, month - 1, n - (before - days_in_month year (month - 1)) + 1)
    else (year, month, n - before + 1).

(** microseconds since the epoch, rounded half to even.  Simplification: CPython rounds
    the product of the fractional part with 1e6 once more as a float; this rounds the
    exact product. *)
Definition round_half_even_div (a b : Z) : Z :=
  let q := a / b in let r := a mod b in
  if 2 * r <? b then q else if b <? 2 * r then q + 1 else if Z.even q then q else q + 1.
Definition micros_of (v : pv) : res Z :=
  match v with
  | VInt z => Ok (z * 1000000)
  | VFloat f =>
      match f with
      | S754_zero _ => Ok 0
      | S754_infinity _ => Err EOverflow
      | S754_nan => Err EValue
      | S754_finite s m e =>
          let n := (if s then Z.neg m else Z.pos m) * 1000000 in
          Ok (if 0 <=? e then n * 2 ^ e else round_half_even_div n (2 ^ (- e)))
      end
  | _ => Err EType
  end.
(** the datetime with these microseconds since 1970-01-01; years outside 1..9999 are ValueError *)
Definition dt_of_micros (us : Z) : res datetime :=
  let secs := us / 1000000 in
  let days := secs / 86400 in
  let s := secs mod 86400 in
  let '(y, m, d) := ord2ymd (days + 719163) in
  make_dt (mkDT y m d (s / 3600) (s / 60 mod 60) (s mod 60) (us mod 1000000)).
Definition from_timestamp (tz : Z -> Z) (v : pv) : res datetime :=
  rbind (micros_of v) (fun us => dt_of_micros (us + tz (us / 1000000) * 1000000)).

(** gateway.py:468-478 argument handling of async_set_date_time *)
Definition datetime_args (t : option datetime) (auto_dst : option pv) (tz : Z -> Z) (d : dict)
  : res (datetime * pv) :=
  match t, auto_dst with
  | None, None => Err EValue
  | _, _ =>
      rbind (match t with
             | Some t => Ok t
             | None => rbind (get_data true [DEVICE_CONTROLLER; GROUP_DATE_TIME; VALUE_TIMESTAMP] d) (from_timestamp tz)
             end) (fun t =>
      rbind (or_current auto_dst [DEVICE_CONTROLLER; GROUP_DATE_TIME; VALUE_AUTO_DST] d) (fun a =>
      Ok (t, a)))
  end.

(** gateway.py:461-482 async_set_date_time *)
Definition async_set_date_time (n : nat) (t : option datetime) (auto_dst : option pv) : M unit :=
  d <- mget w_data ;;
  tz <- mget (fun w => h_tz (w_host w)) ;;
  a <- mlift (datetime_args t auto_dst tz d) ;;
  let '(t, dst) := a in
  command n (request_set_date_time t dst) 0.

(** gateway.py:484-486 async_synchronize_date_time; [now] is the host's local time *)
Definition async_synchronize_date_time (n : nat) (now : datetime) : M unit :=
  async_set_date_time n (Some now) None.

(** gateway.py:523-530 async_send_message *)
Definition async_send_message (n : nat) (code : Z) (message : bytes) : M (option bytes) :=
  command n (fun mr c => make_request c code message mr) 0.

(** gateway.py:502-521 *)
Definition register_handler (code : Z) (h : nat) : M unit :=
  p <- mget w_proto ;;
  match p with
  | None => mraise ESLError
  | Some c => mput (register c code (HUser h))
  end.
Definition remove_handler (code : Z) : M unit :=
  p <- mget w_proto ;;
  match p with
  | None => mret tt
  | Some c => mput (unregister c code)
  end.

(** client.py:109-134 async_subscribe (through gateway.py:488-500), up to the function it
    returns, which is in Client.v: Some () stands for it, None is returned when there is
    no connection. *)
Fixpoint add_listener (code : Z) (cb : nat) (l : list (Z * list nat)) : list (Z * list nat) :=
  match l with
  | [] => [(code, [cb])]
  | (k, s) :: l' =>
      if code =? k then (k, if existsb (Nat.eqb cb) s then s else s ++ [cb]) :: l'
      else (k, s) :: add_listener code cb l'
  end.
Definition async_subscribe_client (n : nat) (cb : nat) (code : Z) : M (option unit) :=
  a <- mget attached ;;
  if negb a then mret None
  else
    mput (put_cm (fun m => cmset_listeners (add_listener code cb (m_listeners m)) m)) ;;;
    c <- m_proto_or_fail ;;
    mput (register c code (HClient code)) ;;;
    need <- mget client_needed ;;
    (if need then subscribe_gateway (async_connect n no_args) else mret tt) ;;;
    mret (Some tt).

(** client.py:136-156 remove_listener, the function async_subscribe returned for [cb] and
    [code], while its set of listeners is the one in the table (a set leaves the table when it
    gets empty; calling a function that belongs to such a set does nothing; Client.v has the
    sets).  The task of line 154 is not part of it: it is a call of its own,
    [unsubscribe_gateway]. *)
Fixpoint has_listener (code : Z) (cb : nat) (l : list (Z * list nat)) : bool :=
  match l with
  | [] => false
  | (k, s) :: l' => if code =? k then existsb (Nat.eqb cb) s else has_listener code cb l'
  end.
Fixpoint drop_listener (code : Z) (cb : nat) (l : list (Z * list nat)) : list (Z * list nat) :=
  match l with
  | [] => []
  | (k, s) :: l' =>
      if code =? k
      then match filter (fun x => negb (Nat.eqb x cb)) s with
           | [] => l'
           | s' => (k, s') :: l'
           end
      else (k, s) :: drop_listener code cb l'
  end.
Definition listened (code : Z) (w : world) : bool := existsb (fun p => fst p =? code) (m_listeners (w_cm w)).
Definition remove_subscription (cb : nat) (code : Z) : M unit :=
  on <- mget (fun w => has_listener code cb (m_listeners (w_cm w))) ;;
  if negb on then mret tt
  else
    mput (put_cm (fun m => cmset_listeners (drop_listener code cb (m_listeners m)) m)) ;;;
    more <- mget (listened code) ;;
    a <- mget attached ;;
    if negb more && a then c <- m_proto_or_fail ;; mput (unregister c code) else mret tt.

(** client.py:158-169 _async_ping, the task of the keepalive timer (protocol.py:196-200) *)
Definition async_ping : M unit :=
  mcatch (c <- m_proto_or_fail ;; request_ping 0 c) is_comm_error (fun _ => mret tt).

(** gateway.py:49-67 __init__, client.py:28-42; [rnd] is the random client id. *)
Definition new_gateway (client_id max_retries : option Z) (rnd : Z) (env : list resp) (h : host) : res world :=
  let mr := over max_retries COM_MAX_RETRIES in
  if (0 <? mr) && (mr <? 6)
  then Ok (mkW (mkAddr None 80 0 0 (u "Unnamed-Screenlogic-Gateway") []) None None [] [] mr
             (mkCM None [] false COM_MAX_RETRIES (over client_id rnd) false) [] env (S754_zero false) h)
  else Err EValue.
