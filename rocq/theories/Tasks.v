(** The coroutines of Gateway.v once more, as trees of steps that other tasks may run between.

    World.v runs one task at a time.  Here the same code (gateway.py, client.py, requests/*.py,
    login.py) is a [task]: it looks at the shared objects, changes them and writes to
    connections at once, and hands control back to the event loop only at its awaits, where the
    tasks of other calls may run (asyncio is cooperative).  Pool.v runs any number of tasks in
    any order.  P_Tasks.v proves that a task run alone does exactly what the function of the same
    name in Request.v and Gateway.v does ([alone_perform]). *)
From Verif Require Import Py F64 Struct Utf Utility Const Enum Decode World Request Gateway Api.

Inductive task (A : Type) : Type :=
| Done (o : out A)                                      (* returned, raised, or never resumes *)
| Look (k : world -> task A)                            (* read the shared objects *)
| Do (f : world -> trace * world) (k : task A)          (* change them, emit effects *)
| Wait (e : ev) (k : kind -> task A)                    (* await; [e] says what for *)
| Lock (k x : task A).                                  (* await lock.acquire(); [x]: cancelled while waiting *)
Arguments Done {A} _. Arguments Look {A} _. Arguments Do {A} _ _. Arguments Wait {A} _ _. Arguments Lock {A} _ _.

Definition tret {A} (a : A) : task A := Done (Val a).
Definition traise {A} (e : exn) : task A := Done (Exc e).
Definition tstuck {A} (y : why) : task A := Done (Stuck y).
Fixpoint tbind {A B} (m : task A) (f : A -> task B) : task B :=
  match m with
  | Done (Val a) => f a
  | Done (Exc e) => Done (Exc e)
  | Done (Stuck y) => Done (Stuck y)
  | Look k => Look (fun w => tbind (k w) f)
  | Do g k => Do g (tbind k f)
  | Wait e k => Wait e (fun r => tbind (k r) f)
  | Lock k x => Lock (tbind k f) (tbind x f)
  end.
(** try: m  except (classes p): h e *)
Fixpoint tcatch {A} (m : task A) (p : exn -> bool) (h : exn -> task A) : task A :=
  match m with
  | Done (Exc e) => if p e then h e else Done (Exc e)
  | Done o => Done o
  | Look k => Look (fun w => tcatch (k w) p h)
  | Do g k => Do g (tcatch k p h)
  | Wait e k => Wait e (fun r => tcatch (k r) p h)
  | Lock k x => Lock (tcatch k p h) (tcatch x p h)
  end.
Definition tdo (f : world -> world) : task unit := Do (fun w => ([], f w)) (tret tt).
Definition temit (e : ev) : task unit := Do (fun w => ([e], w)) (tret tt).
Definition tget {A} (f : world -> A) : task A := Look (fun w => tret (f w)).
Definition tlift {A} (r : res A) : task A := match r with Ok a => tret a | Err e => traise e end.
(** try: m  finally: f   (f cannot fail) *)
Fixpoint tfinally {A} (m : task A) (f : world -> world) : task A :=
  match m with
  | Done (Stuck y) => Done (Stuck y)
  | Done o => Do (fun w => ([], f w)) (Done o)
  | Look k => Look (fun w => tfinally (k w) f)
  | Do g k => Do g (tfinally k f)
  | Wait e k => Wait e (fun r => tfinally (k r) f)
  | Lock k x => Lock (tfinally k f) (tfinally x f)
  end.
(** run a decoder on the gateway data *)
Definition tdecode (m : DM unit) : task unit :=
  Look (fun w => let '(d, r) := m (w_data w) in
        Do (fun w => ([], set_data d w)) (match r with Ok _ => tret tt | Err e => traise e end)).
Definition twait (e : ev) : task kind := Wait e (fun r => tret r).

Declare Scope t_scope.
Delimit Scope t_scope with t.
Notation "x <- m ;; k" := (tbind m (fun x => k))
  (at level 100, m at next level, right associativity) : t_scope.
Notation "m ;;; k" := (tbind m (fun _ => k))
  (at level 100, right associativity) : t_scope.
Open Scope t_scope.

(** ------------------------------------------------------------------ *)
(** * requests/request.py, requests/login.py, requests/*.py *)

(** asyncio.sleep(ms / 1000) *)
Definition tsleep (ms : Z) : task unit :=
  r <- twait (Sleep ms) ;;
  match r with
  | KDone => tret tt
  | KCancelTask => traise ECancelled
  | _ => tstuck Unfit
  end.

(** protocol.py:76-90 await_send_message, 65-74 send_message: Request.send *)
Definition tsend (c : nat) (code : Z) (data : bytes) : task unit :=
  k <- tget (get_conn c) ;;
  if c_open k then
    (tlift (makeMessage 0 code data) ;;; temit (Send c code data))
  else tret tt.

(** request.py:17-78 async_make_request: Request.request_loop *)
Fixpoint trequest_loop (left : nat) (attempt max_retries : Z) (c : nat) (code : Z) (data : bytes)
  : task (option bytes) :=
  match left with
  | O => tret None
  | S left' =>
      let cancelled :=
        ok <- tget (connected c) ;; if ok then tret None else traise ESLConnection in
      let failed e :=
        if attempt =? max_retries then traise e
        else tsleep (1000 * (COM_RETRY_WAIT * (attempt + 1))) ;;;
             trequest_loop left' (attempt + 1) max_retries c code data in
      let answered rcode b :=
        if rcode =? code + 1 then tret (Some b)
        else if rcode =? CODE_ERROR_LOGIN_REJECTED then traise ESLLogin
        else if (rcode =? CODE_ERROR_INVALID_REQUEST) || (rcode =? CODE_ERROR_BAD_PARAMETER)
             then failed ESLRequest
        else failed ESLResponse in
      ok <- tget (connected c) ;;
      if negb ok then traise ESLConnection
      else
        k <- tget (get_conn c) ;;
        if c_closing k then cancelled
        else
          tsend c code data ;;;
          r <- twait (AwaitReply c (1000 * COM_TIMEOUT)) ;;
          match r with
          | KReply rc b | KTimeoutReply rc b => answered rc b
          | KTimeout => failed ESLConnection
          | KCancelFut | KCancelTask => cancelled
          | KDone | KOSError => tstuck Unfit
          end
  end.
Definition tmake_request (c : nat) (code : Z) (data : bytes) (max_retries : Z) : task (option bytes) :=
  trequest_loop (Z.to_nat (max_retries + 1)) 0 max_retries c code data.

(** config.py:12-23, status.py:19-26, chemistry.py:26-33, scg.py:13-20, pump.py:11-18,
    gateway.py:8-15: Request.data_request *)
Definition tdata_request (code : Z) (payload : bytes) (dec : bytes -> DM unit)
  (max_retries : Z) (c : nat) : task (option bytes) :=
  r <- tmake_request c code payload max_retries ;;
  match nonempty r with
  | None => tret None
  | Some b => tdecode (dec b) ;;; tret (Some b)
  end.
Definition trequest_pool_config := tdata_request CODE_CTRLCONFIG_QUERY (le_enc 4 0 ++ le_enc 4 0) decode_pool_config.
Definition trequest_pool_status := tdata_request CODE_POOLSTATUS_QUERY (le_enc 4 0) decode_pool_status.
Definition trequest_chemistry := tdata_request CODE_CHEMISTRY_QUERY (le_enc 4 0) decode_chemistry.
Definition trequest_scg_config := tdata_request CODE_SCGCONFIG_QUERY (le_enc 4 0) decode_scg_config.
Definition trequest_pump_status (pump_index : Z) (max_retries : Z) (c : nat) : task (option bytes) :=
  p <- tlift (pack_Is [VInt 0; VInt pump_index]) ;;
  tdata_request CODE_PUMPSTATUS_QUERY p (fun b => decode_pump_status b pump_index) max_retries c.
Definition trequest_gateway_version (max_retries : Z) (c : nat) : task (option bytes) :=
  fl <- tget (fun w => h_float (w_host w)) ;;
  tdata_request CODE_VERSION_QUERY [] (decode_version fl) max_retries c.
(** datetime.py:12-19 *)
Definition trequest_date_time (max_retries : Z) (c : nat) : task (option bytes) :=
  r <- tmake_request c CODE_GET_DATETIME_QUERY [] max_retries ;;
  match nonempty r with
  | None => tret None
  | Some b => now <- tget w_clock ;; tdecode (decode_date_time now b) ;;; tret (Some b)
  end.

(** button.py:9-22, heat.py:9-38, lights.py:11-24, scg.py:87-105, chemistry.py:311-340,
    datetime.py:38-54, client.py:9-42: Request.command_request *)
Definition tcommand_request (code : Z) (payload : res bytes) (max_retries : Z) (c : nat) : task unit :=
  p <- tlift payload ;;
  r <- tmake_request c code p max_retries ;;
  match r with
  | Some [] => tret tt
  | _ => traise ESLResponse
  end.

(** login.py:38-61 async_create_connection.  The new connection is the last one when the task
    resumes: Pool.v adds it in the same step. *)
Definition tcreate_connection (ip : option pystr) (port : Z) : task nat :=
  r <- twait (Open ip port (1000 * COM_TIMEOUT)) ;;
  match r with
  | KDone => tget (fun w => pred (List.length (w_conns w)))
  | KTimeout | KOSError => traise ESLConnection
  | KCancelTask => traise ECancelled
  | _ => tstuck Unfit
  end.

(** login.py:64-85 async_gateway_connect *)
Definition tgateway_connect (c : nat) (max_retries : Z) : task pystr :=
  k <- tget (get_conn c) ;;
  (if c_open k then temit (Raw c CONNECT_STRING) else tret tt) ;;;
  tsleep 250 ;;;
  ok <- tget (connected c) ;;
  if negb ok then traise ESLConnection
  else
    r <- tmake_request c CODE_CHALLENGE_QUERY [] max_retries ;;
    match r with
    | Some b => tlift (decodeMessageString b)
    | None => traise EType
    end.

(** login.py:88-95 async_gateway_login *)
Definition tgateway_login (c : nat) (max_retries : Z) : task bool :=
  m <- tlift create_login_message ;;
  r <- tmake_request c CODE_LOCALLOGIN_QUERY m max_retries ;;
  tret (match r with Some _ => true | None => false end).

(** login.py:98-109 async_connect_to_gateway *)
Definition tconnect_to_gateway (ip : option pystr) (port max_retries : Z) : task (option (nat * pystr)) :=
  c <- tcreate_connection ip port ;;
  mac <- tgateway_connect c max_retries ;;
  ok <- tgateway_login c max_retries ;;
  tret (if ok then Some (c, mac) else None).

(** ------------------------------------------------------------------ *)
(** * gateway.py and client.py *)

(** async with self._client_sub_unsub_lock: client.py:191, 210; who is cancelled while waiting for
    the lock has not got it *)
Definition twith_lock {A} (body : task A) : task A := Lock (tfinally body (put_cm (cmset_locked false))) (traise ECancelled).

Definition tm_proto_or_fail : task nat :=
  p <- tget (fun w => m_proto (w_cm w)) ;;
  match p with Some c => tret c | None => traise EAttribute end.
Definition tproto_or_fail : task nat :=
  p <- tget w_proto ;; match p with Some c => tret c | None => traise EAttribute end.

(** protocol.py:157-169 async_close *)
Definition tasync_close (c : nat) (force : bool) : task unit :=
  tdo (mark_closing c) ;;;
  r <- twait (AwaitFutures c force) ;;
  match r with
  | KDone | KCancelTask =>
      k <- tget (get_conn c) ;;
      (if c_open k then temit (CloseTransport c) ;;; tdo (mark_shut c) else tret tt) ;;;
      still <- tget (connected c) ;;
      if negb still then tret tt
      else
        r2 <- twait (AwaitClosed c) ;;
        match r2 with
        | KDone => Do (lose c) (tret tt)
        | KCancelTask => traise ECancelled
        | _ => tstuck Unfit
        end
  | _ => tstuck Unfit
  end.

(** client.py:173-181 *)
Definition tremove_client : task unit :=
  tcatch (c <- tm_proto_or_fail ;;
          id <- tget (fun w => m_id (w_cm w)) ;;
          tcommand_request CODE_REMOVE_CLIENT_QUERY (pack_Is [VInt 0; VInt id]) 0 c)
         is_comm_error (fun _ => tret tt).

(** client.py:202-217 *)
Definition tunsubscribe_gateway : task unit :=
  a <- tget attached ;;
  if negb a then tret tt
  else twith_lock
    (b <- tget (fun w => m_is_client (w_cm w)) ;;
     if b then
       tdo (put_cm (cmset_client false)) ;;;
       c <- tm_proto_or_fail ;;
       tdo (keepalive false c) ;;;
       tdo (unregister_all c) ;;;
       tremove_client
     else tret tt).

(** gateway.py:166-172 *)
Definition tasync_disconnect (force : bool) : task unit :=
  b <- tget is_client ;;
  (if b then tunsubscribe_gateway else tret tt) ;;;
  c <- tproto_or_fail ;;
  tasync_close c force.

(** gateway.py:543-548 *)
Definition tattempt_request {A} (connect : task bool) (method : Z -> nat -> task A) (mr : Z) : task A :=
  ok <- connect ;;
  if negb ok then traise EAttribute
  else c <- tproto_or_fail ;; method mr c.

(** gateway.py:532-556 *)
Definition tconnected_request {A} (connect : task bool) (method : Z -> nat -> task A) (delay : Z) : task A :=
  mr <- tget w_retries ;;
  tcatch (tattempt_request connect method mr) is_comm_error (fun _ =>
    tasync_disconnect true ;;;
    tsleep (1000 * delay) ;;;
    tattempt_request connect method mr).

(** client.py:183-200 *)
Definition tsubscribe_gateway (connect : task bool) : task unit :=
  a <- tget attached ;;
  if negb a then tret tt
  else twith_lock
    (b <- tget is_client ;;
     if negb b then
       id <- tget (fun w => m_id (w_cm w)) ;;
       tconnected_request connect (tcommand_request CODE_ADD_CLIENT_QUERY (pack_Is [VInt 0; VInt id])) 0 ;;;
       tdo (put_cm (cmset_client true)) ;;;
       c <- tm_proto_or_fail ;;
       tdo (keepalive true c)
     else tret tt).

(** client.py:61-84 *)
Definition tattach (connect : task bool) (c : nat) (max_retries : Z) : task unit :=
  tdo (put_cm (fun m => cmset_client false (cmset_retries max_retries (cmset_proto (Some c) m)))) ;;;
  need <- tget client_needed ;;
  if need then
    tdo (unregister_all c) ;;;
    tdo (fun w => fold_left (fun w code => register c code (HClient code) w)
                            (map fst (m_listeners (w_cm w))) w) ;;;
    tsubscribe_gateway connect
  else tret tt.

(** gateway.py:190-239 *)
Definition tpoll (connect : task bool) (key_ : key) (method : Z -> nat -> task (option bytes)) : task unit :=
  r <- tconnected_request connect method 1 ;;
  match r with
  | Some b => tdo (fun w => set_last (dset key_ (VBytes b) (w_last w)) w)
  | None => tret tt
  end.

(** gateway.py:119-164; [fuel] as in Gateway.async_connect *)
Fixpoint tasync_connect (fuel : nat) (x : connect_args) : task bool :=
  match fuel with
  | O => tstuck Fuel
  | S fuel' =>
      up <- tget is_connected ;;
      if up : bool then tret true
      else
        tdo (store_args x) ;;;
        no <- tget no_address ;;
        if no : bool then traise ESLError
        else
          ip <- tget (fun w => a_ip (w_addr w)) ;;
          port <- tget (fun w => a_port (w_addr w)) ;;
          mr <- tget w_retries ;;
          pkg <- tconnect_to_gateway ip port mr ;;
          match pkg with
          | None => tret false
          | Some (c, mac) =>
              tdo (store_connection c mac) ;;;
              mr1 <- tget w_retries ;;
              v <- trequest_gateway_version mr1 c ;;
              tdo (fun w => set_last (dset K_VERSION (match v with Some b => VBytes b | None => VNone end) (w_last w)) w) ;;;
              d <- tget w_data ;;
              if Gateway.truthy (version d) then
                tpoll (tasync_connect fuel' no_args) K_CONFIG trequest_pool_config ;;;
                c2 <- tproto_or_fail ;;
                mr2 <- tget w_retries ;;
                tattach (tasync_connect fuel' no_args) c2 mr2 ;;;
                tret true
              else tret false
          end
  end.

Definition tcommand {A} (n : nat) (method : Z -> nat -> task A) (delay : Z) : task A :=
  tconnected_request (tasync_connect n no_args) method delay.
Definition tget_poll (n : nat) := tpoll (tasync_connect n no_args).

(** gateway.py:208-222 *)
Fixpoint tpumps_loop (n : nat) (ids : list Z) : task unit :=
  match ids with
  | [] => tret tt
  | i :: ids' =>
      f <- tget (fun w => equipment_flags (w_data w)) ;;
      flags <- tlift f ;;
      (if Z.land (Z.shiftl EQUIPMENT_FLAG_INTELLIFLO_0 i) flags =? 0 then tret tt
       else
         tdo pumps_entry ;;;
         r <- tcommand n (trequest_pump_status i) 1 ;;
         match r with Some b => tdo (store_pump i b) | None => tret tt end) ;;;
      tpumps_loop n ids'
  end.

(** gateway.py:174-188 *)
Definition tasync_update (n : nat) : task unit :=
  d <- tget w_data ;;
  match d with
  | [] => traise ESLError
  | _ =>
      tget_poll n K_STATUS trequest_pool_status ;;;
      tpumps_loop n [0; 1; 2; 3; 4; 5; 6; 7] ;;;
      tget_poll n K_CHEMISTRY trequest_chemistry ;;;
      tget_poll n K_SCG trequest_scg_config ;;;
      tget_poll n K_DATE_TIME trequest_date_time
  end.

Definition trequire (b : res bool) : task unit :=
  ok <- tlift b ;; if ok : bool then tret tt else traise EValue.

(** gateway.py:488-500, client.py:109-134 *)
Definition tasync_subscribe_client (n : nat) (cb : nat) (code : Z) : task (option unit) :=
  a <- tget attached ;;
  if negb a then tret None
  else
    tdo (put_cm (fun m => cmset_listeners (add_listener code cb (m_listeners m)) m)) ;;;
    c <- tm_proto_or_fail ;;
    tdo (register c code (HClient code)) ;;;
    need <- tget client_needed ;;
    (if need then tsubscribe_gateway (tasync_connect n no_args) else tret tt) ;;;
    tret (Some tt).

(** client.py:136-156: Gateway.remove_subscription *)
Definition tremove_subscription (cb : nat) (code : Z) : task unit :=
  on <- tget (fun w => has_listener code cb (m_listeners (w_cm w))) ;;
  if negb on then tret tt
  else
    tdo (put_cm (fun m => cmset_listeners (drop_listener code cb (m_listeners m)) m)) ;;;
    more <- tget (listened code) ;;
    a <- tget attached ;;
    if negb more && a then c <- tm_proto_or_fail ;; tdo (unregister c code) else tret tt.
(** client.py:158-169: Gateway.async_ping *)
Definition tasync_ping : task unit :=
  tcatch (c <- tm_proto_or_fail ;; tcommand_request CODE_PING_QUERY (Ok []) 0 c) is_comm_error (fun _ => tret tt).

(** The public calls: gateway.py:119-530, Api.perform *)
Definition tperform (n : nat) (c : api_call) : task unit :=
  match c with
  | Connect x => tasync_connect n x ;;; tret tt
  | Disconnect force => tasync_disconnect force
  | GetConfig => tget_poll n K_CONFIG trequest_pool_config
  | GetStatus => tget_poll n K_STATUS trequest_pool_status
  | GetChemistry => tget_poll n K_CHEMISTRY trequest_chemistry
  | GetScg => tget_poll n K_SCG trequest_scg_config
  | GetDatetime => tget_poll n K_DATE_TIME trequest_date_time
  | GetPumps => tpumps_loop n [0; 1; 2; 3; 4; 5; 6; 7]
  | Update => tasync_update n
  | SetMaxRetries k => if (0 <? k) && (k <? 6) then tdo (set_retries k) else traise EValue
  | SetCircuit circuit state =>
      d <- tget w_data ;;
      trequire (in_section DEVICE_CIRCUIT circuit d) ;;;
      trequire (Ok (is_valid_circuit_state state)) ;;;
      tcommand n (tcommand_request CODE_BUTTONPRESS_QUERY (pack_Is [VInt 0; circuit; state])) 0
  | SetHeatTemp body temp =>
      d <- tget w_data ;;
      trequire (in_section DEVICE_BODY body d) ;;;
      trequire (is_valid_heattemp body temp d) ;;;
      tcommand n (tcommand_request CODE_SETHEATTEMP_QUERY (pack_Is [VInt 0; body; temp])) 0
  | SetHeatMode body mode =>
      d <- tget w_data ;;
      trequire (in_section DEVICE_BODY body d) ;;;
      trequire (is_valid_heatmode mode) ;;;
      tcommand n (tcommand_request CODE_SETHEATMODE_QUERY (pack_Is [VInt 0; body; mode])) 0
  | SetColorLights mode =>
      trequire (is_valid_color_mode mode) ;;;
      tcommand n (tcommand_request CODE_LIGHTCOMMAND_QUERY (pack_Is [VInt 0; mode])) 0
  | SetScgConfig pool spa super timer =>
      d <- tget w_data ;;
      a <- tlift (scg_args pool spa super timer d) ;;
      let '(pool, spa, super, timer) := a in
      tcommand n (tcommand_request CODE_SETSCG_QUERY (pack_Is [VInt 0; pool; spa; super; timer])) 0
  | SetChemData ph orp ca alk cya salt =>
      d <- tget w_data ;;
      a <- tlift (chem_args ph orp ca alk cya salt d) ;;
      let '(ph, orp, ca, alk, cya, salt) := a in
      tcommand n (tcommand_request CODE_SETCHEMDATA_QUERY (pack_Is [VInt 0; ph; orp; ca; alk; cya; salt])) 0
  | SetDateTime t auto_dst =>
      d <- tget w_data ;;
      tz <- tget (fun w => h_tz (w_host w)) ;;
      a <- tlift (datetime_args t auto_dst tz d) ;;
      let '(t, dst) := a in
      tcommand n (tcommand_request CODE_SET_DATETIME_QUERY
        (rbind (encodeMessageTime t) (fun a => rbind (pack_Is [dst]) (fun b => Ok (a ++ b))))) 0
  | SynchronizeDateTime now =>
      d <- tget w_data ;;
      tz <- tget (fun w => h_tz (w_host w)) ;;
      a <- tlift (datetime_args (Some now) None tz d) ;;
      let '(t, dst) := a in
      tcommand n (tcommand_request CODE_SET_DATETIME_QUERY
        (rbind (encodeMessageTime t) (fun a => rbind (pack_Is [dst]) (fun b => Ok (a ++ b))))) 0
  | SendMessage code message => tcommand n (fun mr c => tmake_request c code message mr) 0 ;;; tret tt
  | RegisterHandler code h =>
      p <- tget w_proto ;;
      match p with
      | None => traise ESLError
      | Some c => tdo (register c code (HUser h))
      end
  | RemoveHandler code =>
      p <- tget w_proto ;;
      match p with
      | None => tret tt
      | Some c => tdo (unregister c code)
      end
  | Subscribe cb code => tasync_subscribe_client n cb code ;;; tret tt
  | Unsubscribe cb code => tremove_subscription cb code
  | Unregister => tunsubscribe_gateway
  | Ping => tasync_ping
  end.
