(** The world a gateway lives in and the coroutine monad of the request layer.

    Coroutines of gateway.py, client.py and requests/*.py are modelled as functions
    [M A := world -> trace * world * out A].  The world holds the gateway object, its client
    manager, the connections opened so far and [w_env], the script of the environment: one
    [resp] for each suspension (await) of the running task, in order.  Every theorem
    quantifies over all scripts, so over all adapter behaviours, timeouts, cancellations and
    connection losses.

    Each response may also report what happened while the task was suspended: connections
    lost and the gateway data after push messages handled by other tasks (any dictionary).
    Simplifications: other tasks change nothing else (a second task that connects, sets
    the retry limit or subscribes meanwhile is not modelled here; overlapping
    client-manager calls are in Client.v, overlapping requests on one connection with
    message ids and futures in Protocol.v); a log call is nothing; time is the argument of
    the waits in the trace. *)
From Verif Require Import Py F64 Struct Utf Utility Const.

(** What one suspension returned. *)
Inductive kind :=
| KReply (code : Z) (b : bytes)        (* the reply to the pending request *)
| KTimeout                             (* asyncio timeout; the pending future is cancelled *)
| KTimeoutReply (code : Z) (b : bytes) (* timeout and reply in the same loop iteration *)
| KCancelFut                           (* the pending future was cancelled (connection lost, forced close) *)
| KCancelTask                          (* the running task was cancelled *)
| KDone                                (* the sleep / open / close completed *)
| KOSError.                            (* the connection could not be opened *)

Record resp := mkResp {
  r_kind : kind;
  r_lost : list nat;        (* connections lost meanwhile *)
  r_data : option dict;     (* data after push messages handled meanwhile *)
  r_clock : spec_float }.   (* host clock: datetime.now(utc).timestamp() at resumption *)

(** The observable effects of a task and the answers it got, in order. *)
Inductive ev :=
| Send (c : nat) (code : Z) (payload : bytes)   (* a ScreenLogic message written to connection c *)
| Raw (c : nat) (b : bytes)                     (* other bytes written to connection c *)
| AwaitReply (c : nat) (ms : Z)                 (* wait for a reply on c, at most ms milliseconds *)
| Open (ip : option pystr) (port : Z) (ms : Z)  (* open a connection, waiting at most ms *)
| CloseTransport (c : nat)                      (* transport.close() *)
| AwaitFutures (c : nat) (force : bool)         (* wait for the gathered request futures of c, cancelled first if [force] *)
| AwaitClosed (c : nat)                         (* wait for connection_lost of c *)
| Sleep (ms : Z)
| Got (r : resp)                                (* the wait before this ended with r *)
| Lost (c : nat)                                (* connection_lost ran for c *)
| Callback (id : nat).                          (* the user's connection-closed callback ran *)
Definition trace := list ev.

(** Why a task never resumes: it waits for a lock it holds itself; the script of the
    environment ended; the script answered a wait with something that cannot answer it;
    the fuel of the (recursive) connect ran out, see Gateway.v. *)
Inductive why := Blocked | Waiting | Unfit | Fuel.

Inductive out (A : Type) := Val (a : A) | Exc (e : exn) | Stuck (y : why).
Arguments Val {A} _. Arguments Exc {A} _. Arguments Stuck {A} _.

(** The handlers registered for push messages: the client manager's own for a code, or a
    user's (an opaque number). *)
Inductive handler := HClient (code : Z) | HUser (h : nat).

(** A connection: what the request layer sees of a ScreenLogicProtocol, protocol.py:19-37. *)
Record conn := mkConn {
  c_connected : bool;                    (* _connected *)
  c_closing : bool;                      (* _closing *)
  c_open : bool;                         (* not transport.is_closing() *)
  c_handlers : list (Z * handler);       (* _callbacks *)
  c_keepalive : bool }.                  (* _keepalive_awaitable is not None *)
Definition new_conn : conn := mkConn true false true [] false.
Definition dead_conn : conn := mkConn false true false [] false.

(** gateway.py:49-67, the address part *)
Record addr := mkAddr {
  a_ip : option pystr; a_port : Z; a_type : Z; a_subtype : Z; a_name : pystr; a_mac : pystr }.

(** client.py:28-42 ClientManager.  Listeners: code -> callbacks (opaque numbers); the
    set of callbacks is a duplicate-free list, its order standing for the unspecified
    iteration order of a set. *)
Record manager := mkCM {
  m_proto : option nat;                  (* _protocol *)
  m_listeners : list (Z * list nat);     (* _listeners *)
  m_is_client : bool;                    (* _is_client *)
  m_retries : Z;                         (* _max_retries *)
  m_id : Z;                              (* _client_id *)
  m_locked : bool }.                     (* _client_sub_unsub_lock is held *)

(** The host: float() on text and the local UTC offset in seconds at a UTC time. *)
Record host := mkHost { h_float : pystr -> option spec_float; h_tz : Z -> Z }.

Record world := mkW {
  w_addr : addr;
  w_cb : option nat;                     (* _custom_connection_closed_callback *)
  w_proto : option nat;                  (* _protocol (index of the connection) *)
  w_data : dict;                         (* _data *)
  w_last : dict;                         (* _last *)
  w_retries : Z;                         (* _max_retries *)
  w_cm : manager;                        (* _client_manager *)
  w_conns : list conn;                   (* every connection opened so far *)
  w_env : list resp;
  w_clock : spec_float;                  (* the host clock at the last resumption *)
  w_host : host }.

(** field updates *)
Definition set_addr x w := mkW x (w_cb w) (w_proto w) (w_data w) (w_last w) (w_retries w) (w_cm w) (w_conns w) (w_env w) (w_clock w) (w_host w).
Definition set_cb x w := mkW (w_addr w) x (w_proto w) (w_data w) (w_last w) (w_retries w) (w_cm w) (w_conns w) (w_env w) (w_clock w) (w_host w).
Definition set_proto x w := mkW (w_addr w) (w_cb w) x (w_data w) (w_last w) (w_retries w) (w_cm w) (w_conns w) (w_env w) (w_clock w) (w_host w).
Definition set_data x w := mkW (w_addr w) (w_cb w) (w_proto w) x (w_last w) (w_retries w) (w_cm w) (w_conns w) (w_env w) (w_clock w) (w_host w).
Definition set_last x w := mkW (w_addr w) (w_cb w) (w_proto w) (w_data w) x (w_retries w) (w_cm w) (w_conns w) (w_env w) (w_clock w) (w_host w).
Definition set_retries x w := mkW (w_addr w) (w_cb w) (w_proto w) (w_data w) (w_last w) x (w_cm w) (w_conns w) (w_env w) (w_clock w) (w_host w).
Definition set_cm x w := mkW (w_addr w) (w_cb w) (w_proto w) (w_data w) (w_last w) (w_retries w) x (w_conns w) (w_env w) (w_clock w) (w_host w).
Definition set_conns x w := mkW (w_addr w) (w_cb w) (w_proto w) (w_data w) (w_last w) (w_retries w) (w_cm w) x (w_env w) (w_clock w) (w_host w).
Definition set_env x w := mkW (w_addr w) (w_cb w) (w_proto w) (w_data w) (w_last w) (w_retries w) (w_cm w) (w_conns w) x (w_clock w) (w_host w).
Definition set_clock x w := mkW (w_addr w) (w_cb w) (w_proto w) (w_data w) (w_last w) (w_retries w) (w_cm w) (w_conns w) (w_env w) x (w_host w).

Definition cmset_proto x c := mkCM x (m_listeners c) (m_is_client c) (m_retries c) (m_id c) (m_locked c).
Definition cmset_listeners x c := mkCM (m_proto c) x (m_is_client c) (m_retries c) (m_id c) (m_locked c).
Definition cmset_client x c := mkCM (m_proto c) (m_listeners c) x (m_retries c) (m_id c) (m_locked c).
Definition cmset_retries x c := mkCM (m_proto c) (m_listeners c) (m_is_client c) x (m_id c) (m_locked c).
Definition cmset_locked x c := mkCM (m_proto c) (m_listeners c) (m_is_client c) (m_retries c) (m_id c) x.

Definition get_conn (c : nat) (w : world) : conn := nth c (w_conns w) dead_conn.
Fixpoint lset {A} (n : nat) (x : A) (l : list A) : list A :=
  match l, n with
  | [], _ => []
  | _ :: l', O => x :: l'
  | y :: l', S n' => y :: lset n' x l'
  end.
Definition upd_conn (c : nat) (f : conn -> conn) (w : world) : world :=
  set_conns (lset c (f (get_conn c w)) (w_conns w)) w.

(** protocol.py:39-42 is_connected *)
Definition connected (c : nat) (w : world) : bool := c_connected (get_conn c w).

(** protocol.py:141-155 connection_lost, with gateway.py:558-561 as its callback.  asyncio
    calls it once per connection. *)
Definition lose (c : nat) (w : world) : trace * world :=
  if connected c w
  then (Lost c :: match w_cb w with Some id => [Callback id] | None => [] end,
        upd_conn c (fun k => mkConn false (c_closing k) false (c_handlers k) (c_keepalive k)) w)
  else ([], w).

Fixpoint lose_all (cs : list nat) (w : world) : trace * world :=
  match cs with
  | [] => ([], w)
  | c :: cs' => let '(t1, w1) := lose c w in let '(t2, w2) := lose_all cs' w1 in (t1 ++ t2, w2)
  end.

Definition interfere (r : resp) (w : world) : trace * world :=
  lose_all (r_lost r) (set_clock (r_clock r) (match r_data r with Some d => set_data d w | None => w end)).

(** ------------------------------------------------------------------ *)
Definition M (A : Type) := world -> trace * world * out A.
Definition mret {A} (a : A) : M A := fun w => ([], w, Val a).
Definition mraise {A} (e : exn) : M A := fun w => ([], w, Exc e).
Definition mstuck {A} (y : why) : M A := fun w => ([], w, Stuck y).
Definition mbind {A B} (m : M A) (f : A -> M B) : M B :=
  fun w =>
    let '(t1, w1, o) := m w in
    match o with
    | Val a => let '(t2, w2, o2) := f a w1 in (t1 ++ t2, w2, o2)
    | Exc e => (t1, w1, Exc e)
    | Stuck y => (t1, w1, Stuck y)
    end.
(** try: m  except (classes p): h e *)
Definition mcatch {A} (m : M A) (p : exn -> bool) (h : exn -> M A) : M A :=
  fun w =>
    let '(t1, w1, o) := m w in
    match o with
    | Exc e => if p e then let '(t2, w2, o2) := h e w1 in (t1 ++ t2, w2, o2) else (t1, w1, Exc e)
    | _ => (t1, w1, o)
    end.
(** try: m  finally: f   (f cannot fail) *)
Definition mfinally {A} (m : M A) (f : world -> world) : M A :=
  fun w =>
    let '(t1, w1, o) := m w in
    match o with
    | Stuck y => (t1, w1, Stuck y)
    | _ => (t1, f w1, o)
    end.
Definition mget {A} (f : world -> A) : M A := fun w => ([], w, Val (f w)).
Definition mput (f : world -> world) : M unit := fun w => ([], f w, Val tt).
Definition memit (e : ev) : M unit := fun w => ([e], w, Val tt).
Definition mlift {A} (r : res A) : M A := match r with Ok a => mret a | Err e => mraise e end.
(** run a decoder on the gateway data *)
Definition mdecode (m : DM unit) : M unit :=
  fun w => let '(d, r) := m (w_data w) in
           ([], set_data d w, match r with Ok _ => Val tt | Err e => Exc e end).

Declare Scope m_scope.
Delimit Scope m_scope with m.
Notation "x <- m ;; k" := (mbind m (fun x => k))
  (at level 100, m at next level, right associativity) : m_scope.
Notation "m ;;; k" := (mbind m (fun _ => k))
  (at level 100, right associativity) : m_scope.

(** One suspension: [e] names the wait; [pre] is done by the event loop before the
    other tasks ran (used for a connection that opened). *)
Definition ask (e : ev) (pre : resp -> world -> world) : M resp :=
  fun w =>
    match w_env w with
    | [] => ([e], w, Stuck Waiting)
    | r :: rest =>
        let '(t, w') := interfere r (pre r (set_env rest w)) in
        (e :: Got r :: t, w', Val r)
    end.
Definition nopre (_ : resp) (w : world) : world := w.

(** asyncio.sleep(ms / 1000) *)
Definition msleep (ms : Z) : M unit :=
  (r <- ask (Sleep ms) nopre ;;
   match r_kind r with
   | KDone => mret tt
   | KCancelTask => mraise ECancelled
   | _ => mstuck Unfit
   end)%m.
