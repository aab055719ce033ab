(** Model of requests/request.py, requests/login.py and the async_request_* coroutines of
    requests/{button,chemistry,client,config,datetime,equipment,gateway,heat,lights,ping,
    pump,scg,status}.py. *)
From Verif Require Import Py F64 Struct Utf Utility Const Enum Decode World.
Open Scope m_scope.

(** protocol.py:76-90 await_send_message followed by 65-74 send_message, on a connection
    that is not closing.  The message id (protocol.py:84) is always packable and is left
    to Protocol.v; here only the code and payload can make makeMessage fail. *)
Definition send (c : nat) (code : Z) (data : bytes) : M unit :=
  k <- mget (get_conn c) ;;
  if c_open k then
    (mlift (makeMessage 0 code data) ;;; memit (Send c code data))
  else mret tt.

(** request.py:17-78 async_make_request: the loop over attempts; [left] attempts remain,
    this is number [attempt].
    - 24-27: no connection, raise
    - 29: await_send_message; a protocol that is closing returns a cancelled future, whose
      await raises CancelledError at once (37-43)
    - 30-43: the wait with its timeout
    - 45-67: a reply (also one that raced with the timeout) is classified
    - 69-78: give up, or sleep and retry *)
Fixpoint request_loop (left : nat) (attempt max_retries : Z) (c : nat) (code : Z) (data : bytes)
  : M (option bytes) :=
  match left with
  | O => mret None
  | S left' =>
      let cancelled :=
        ok <- mget (connected c) ;; if ok then mret None else mraise ESLConnection in
      let failed e :=
        if attempt =? max_retries then mraise e
        else msleep (1000 * (COM_RETRY_WAIT * (attempt + 1))) ;;;
             request_loop left' (attempt + 1) max_retries c code data in
      let answered rcode b :=
        if rcode =? code + 1 then mret (Some b)
        else if rcode =? CODE_ERROR_LOGIN_REJECTED then mraise ESLLogin
        else if (rcode =? CODE_ERROR_INVALID_REQUEST) || (rcode =? CODE_ERROR_BAD_PARAMETER)
             then failed ESLRequest
        else failed ESLResponse in
      ok <- mget (connected c) ;;
      if negb ok then mraise ESLConnection
      else
        k <- mget (get_conn c) ;;
        if c_closing k then cancelled
        else
          send c code data ;;;
          r <- ask (AwaitReply c (1000 * COM_TIMEOUT)) nopre ;;
          match r_kind r with
          | KReply rc b | KTimeoutReply rc b => answered rc b
          | KTimeout => failed ESLConnection
          | KCancelFut | KCancelTask => cancelled
          | KDone | KOSError => mstuck Unfit
          end
  end.
Definition make_request (c : nat) (code : Z) (data : bytes) (max_retries : Z) : M (option bytes) :=
  request_loop (Z.to_nat (max_retries + 1)) 0 max_retries c code data.

(** truthiness of the reply: [if result := ...] *)
Definition nonempty (r : option bytes) : option bytes :=
  match r with Some (x :: b) => Some (x :: b) | _ => None end.

(** The common shape of the data requests (config.py:12-23, status.py:19-26,
    chemistry.py:26-33, scg.py:13-20, pump.py:11-18, gateway.py:8-15, datetime.py:12-19,
    equipment.py:9-16): request, decode a non-empty reply, return it. *)
Definition data_request (code : Z) (payload : bytes) (dec : bytes -> DM unit)
  (max_retries : Z) (c : nat) : M (option bytes) :=
  r <- make_request c code payload max_retries ;;
  match nonempty r with
  | None => mret None
  | Some b => mdecode (dec b) ;;; mret (Some b)
  end.

Definition request_pool_config := data_request CODE_CTRLCONFIG_QUERY (le_enc 4 0 ++ le_enc 4 0) decode_pool_config.
Definition request_pool_status := data_request CODE_POOLSTATUS_QUERY (le_enc 4 0) decode_pool_status.
Definition request_chemistry := data_request CODE_CHEMISTRY_QUERY (le_enc 4 0) decode_chemistry.
Definition request_scg_config := data_request CODE_SCGCONFIG_QUERY (le_enc 4 0) decode_scg_config.
(** pump.py:11-18; the index is 0..7 when called by the gateway, so packing cannot fail *)
Definition request_pump_status (pump_index : Z) (max_retries : Z) (c : nat) : M (option bytes) :=
  p <- mlift (pack_Is [VInt 0; VInt pump_index]) ;;
  data_request CODE_PUMPSTATUS_QUERY p (fun b => decode_pump_status b pump_index) max_retries c.
Definition request_gateway_version (max_retries : Z) (c : nat) : M (option bytes) :=
  fl <- mget (fun w => h_float (w_host w)) ;;
  data_request CODE_VERSION_QUERY [] (decode_version fl) max_retries c.
Definition request_equipment_config := data_request CODE_EQUIPMENT_QUERY (le_enc 4 0 ++ le_enc 4 0) decode_equipment_config.

(** datetime.py:12-19 async_request_date_time; decode_date_time (22) reads the host clock. *)
Definition request_date_time (max_retries : Z) (c : nat) : M (option bytes) :=
  r <- make_request c CODE_GET_DATETIME_QUERY [] max_retries ;;
  match nonempty r with
  | None => mret None
  | Some b => now <- mget w_clock ;; mdecode (decode_date_time now b) ;;; mret (Some b)
  end.

(** The common shape of the commands (button.py:9-22, heat.py:9-38, lights.py:11-24,
    scg.py:87-105, chemistry.py:311-340, datetime.py:38-54, client.py:9-42, ping.py:7-13):
    an answer with a payload, or no answer (None), is a ScreenLogicResponseError. *)
Definition command_request (code : Z) (payload : res bytes) (max_retries : Z) (c : nat) : M unit :=
  p <- mlift payload ;;
  r <- make_request c code p max_retries ;;
  match r with
  | Some [] => mret tt
  | _ => mraise ESLResponse
  end.

(** button.py:9-22 *)
Definition request_pool_button_press (circuit_id circuit_state : pv) :=
  command_request CODE_BUTTONPRESS_QUERY (pack_Is [VInt 0; circuit_id; circuit_state]).
(** heat.py:9-22 *)
Definition request_set_heat_setpoint (body set_point : pv) :=
  command_request CODE_SETHEATTEMP_QUERY (pack_Is [VInt 0; body; set_point]).
(** heat.py:25-38 *)
Definition request_set_heat_mode (body heat_mode : pv) :=
  command_request CODE_SETHEATMODE_QUERY (pack_Is [VInt 0; body; heat_mode]).
(** lights.py:11-24 *)
Definition request_pool_lights_command (light_command : pv) :=
  command_request CODE_LIGHTCOMMAND_QUERY (pack_Is [VInt 0; light_command]).
(** scg.py:87-105 *)
Definition request_set_scg_config (pool spa super timer : pv) :=
  command_request CODE_SETSCG_QUERY (pack_Is [VInt 0; pool; spa; super; timer]).
(** chemistry.py:311-340 *)
Definition request_set_chem_data (ph orp calcium alkalinity cya salt : pv) :=
  command_request CODE_SETCHEMDATA_QUERY (pack_Is [VInt 0; ph; orp; calcium; alkalinity; cya; salt]).
(** datetime.py:38-54 *)
Definition request_set_date_time (t : datetime) (auto_dst : pv) :=
  command_request CODE_SET_DATETIME_QUERY
    (rbind (encodeMessageTime t) (fun a => rbind (pack_Is [auto_dst]) (fun b => Ok (a ++ b)))).
(** client.py:9-24, 27-42 *)
Definition request_add_client (id : Z) := command_request CODE_ADD_CLIENT_QUERY (pack_Is [VInt 0; VInt id]).
Definition request_remove_client (id : Z) := command_request CODE_REMOVE_CLIENT_QUERY (pack_Is [VInt 0; VInt id]).
(** ping.py:7-13 *)
Definition request_ping := command_request CODE_PING_QUERY (Ok []).

(** ------------------------------------------------------------------ *)
(** login.py:15-24 create_login_message; "x" is one NUL pad byte *)
Definition create_login_message : res bytes :=
  rbind (encodeMessageString (u "Android") false) (fun cv =>
  rbind (encodeMessageString (u "0000000000000000") false) (fun pw =>
  rbind (pack_Is [VInt 348; VInt 0]) (fun a =>
  rbind (pack_Is [VInt 2]) (fun z =>
  Ok (a ++ pack_s (zlen cv) cv ++ pack_s (zlen pw) pw ++ [0] ++ z))))).

(** login.py:38-61 async_create_connection; returns the index of the new connection *)
Definition create_connection (ip : option pystr) (port : Z) : M nat :=
  c <- mget (fun w => List.length (w_conns w)) ;;
  r <- ask (Open ip port (1000 * COM_TIMEOUT))
        (fun r w => match r_kind r with
                    | KDone => set_conns (w_conns w ++ [new_conn]) w
                    | _ => w
                    end) ;;
  match r_kind r with
  | KDone => mret c
  | KTimeout | KOSError => mraise ESLConnection
  | KCancelTask => mraise ECancelled
  | _ => mstuck Unfit
  end.

(** login.py:67 *)
Definition CONNECT_STRING : bytes := u "CONNECTSERVERHOST" ++ [13; 10; 13; 10].

(** login.py:64-85 async_gateway_connect.  Writing to a closed asyncio transport does not
    raise; it only writes nothing. *)
Definition gateway_connect (c : nat) (max_retries : Z) : M pystr :=
  k <- mget (get_conn c) ;;
  (if c_open k then memit (Raw c CONNECT_STRING) else mret tt) ;;;
  msleep 250 ;;;
  ok <- mget (connected c) ;;
  if negb ok then mraise ESLConnection
  else
    r <- make_request c CODE_CHALLENGE_QUERY [] max_retries ;;
    match r with
    | Some b => mlift (decodeMessageString b)
    | None => mraise EType            (* struct.unpack_from(.., None, 0) *)
    end.

(** login.py:88-95 async_gateway_login *)
Definition gateway_login (c : nat) (max_retries : Z) : M bool :=
  m <- mlift create_login_message ;;
  r <- make_request c CODE_LOCALLOGIN_QUERY m max_retries ;;
  mret (match r with Some _ => true | None => false end).

(** login.py:98-109 async_connect_to_gateway; None when the login request returned None *)
Definition connect_to_gateway (ip : option pystr) (port max_retries : Z) : M (option (nat * pystr)) :=
  c <- create_connection ip port ;;
  mac <- gateway_connect c max_retries ;;
  ok <- gateway_login c max_retries ;;
  mret (if ok then Some (c, mac) else None).

(** login.py:27-35 async_get_mac_address *)
Definition get_mac_address (ip : option pystr) (port max_retries : Z) : M pystr :=
  c <- create_connection ip port ;;
  mac <- gateway_connect c max_retries ;;
  k <- mget (get_conn c) ;;
  (if c_open k
   then memit (CloseTransport c) ;;;
        mput (upd_conn c (fun k => mkConn (c_connected k) (c_closing k) false (c_handlers k) (c_keepalive k)))
   else mret tt) ;;;
  mret mac.
