(** The calls of Pool.v on top of the connections of Protocol.v: from the bytes on the wire to
    the calls of the gateway.

    Pool.v lets a waiting task be answered with anything.  Here an answer comes out of the
    protocol object of the task's connection: await_send_message (protocol.py:76-90) hands out a
    future under a message id and writes a frame, data_received (92-139) takes bytes as they
    arrive, in pieces of any size, and resolves the future whose id a frame carries, and the task
    resumes with the result of its future (request.py:29-45).  Every step of [net] is a step of
    Pool.v, steps of Protocol.v, or both; nothing is modelled twice.

    Simplifications: the handlers registered for push messages are those of the world (Pool.v),
    not of the protocol object; keepalive pings are in
    Client.v and Protocol.v; a task that is cancelled while it waits for [_closed] leaves that
    future alone (C87 is about it). *)
From Verif Require Import Py F64 Struct Utf Utility Const Enum Decode World Request Gateway Api Tasks Pool.
From Verif Require Protocol.

(** How a wait for a reply was disturbed: not at all, by the timer of asyncio.timeout
    (request.py:31), by task.cancel() (which prevails: asyncio/timeouts.py). *)
Inductive hit := Fair | TimedOut | Cancelled.
(** What a task waits for: future [f] of connection [c] (request.py:32), or coroutine [j] of
    async_close on [c] and its futures (protocol.py:165). *)
Inductive slot := NoWait | ForReply (c f : nat) (h : hit) | ForClose (c j : nat).

(** What happened, in order: what the calls did, what the protocol objects did, and the bytes
    that arrived and were looked at. *)
Inductive line :=
| Api (x : Pool.entry)
| Wire (c : nat) (o : Protocol.pout)
| Came (c : nat) (b : bytes)
| Own (c u : nat) (code : Z) (b : bytes).   (* a task running the user's handler [u] was made for a message *)

Record net := mkNet {
  n_pool : pool;                       (* the gateway and the tasks of its calls *)
  n_links : list Protocol.pstate;      (* the protocol object of each connection *)
  n_slot : nat -> slot;                (* what each task waits for *)
  n_log : list line }.
Definition nstart (w : world) : net := mkNet (start w) [] (fun _ => NoWait) [].

(** login.py:46-51: a protocol object whose connection was made, with a callback for its loss *)
Definition new_link : Protocol.pstate := Protocol.prun (Protocol.p_init true) [Protocol.EvMade].
Definition link (c : nat) (N : net) : Protocol.pstate := nth c (n_links N) (Protocol.p_init true).

Definition note (x : line) (N : net) : net := mkNet (n_pool N) (n_links N) (n_slot N) (n_log N ++ [x]).
Definition put_slot (i : nat) (x : slot) (N : net) : net :=
  mkNet (n_pool N) (n_links N) (fun j => if Nat.eqb j i then x else n_slot N j) (n_log N).
(** an event of connection [c] *)
Definition feed (c : nat) (e : Protocol.pevent) (N : net) : net :=
  match nth_error (n_links N) c with
  | Some s =>
      let s' := Protocol.pstep s e in
      mkNet (n_pool N) (lset c s' (n_links N)) (n_slot N)
        (n_log N ++ map (Wire c) (skipn (List.length (Protocol.p_log s)) (Protocol.p_log s')))
  | None => N
  end.

(** What the steps of the tasks mean for the protocol objects: a message is handed to
    await_send_message (request.py:29), async_close is called (protocol.py:157-165), the
    connection is lost; a wait that ended is over. *)
Definition hear (N : net) (x : Pool.entry) : net :=
  let N := note (Api x) N in
  match x with
  | By i (Send c X p) =>
      put_slot i (ForReply c (List.length (Protocol.p_futs (link c N))) Fair) (feed c (Protocol.EvRequest X p) N)
  | By i (AwaitFutures c force) =>
      put_slot i (ForClose c (List.length (Protocol.p_closers (link c N)))) (feed c (Protocol.EvClose force) N)
  | By _ (Lost c) | Env (Lost c) => feed c Protocol.EvLost N
  | By i (Got _) => put_slot i NoWait N
  | _ => N
  end.

(** one step of Pool.v *)
Definition move (n : nat) (e : Pool.event) (N : net) : net :=
  let P := n_pool N in
  let P' := Pool.pstep n P e in
  let fresh := (List.length (w_conns (p_world P')) - List.length (n_links N))%nat in
  fold_left hear (skipn (List.length (p_log P)) (p_log P'))
    (mkNet P' (n_links N ++ repeat new_link fresh) (n_slot N) (n_log N)).

(** protocol.py:131-139: a message nobody asked for; the user may have a handler of his own for it
    (gateway.py:502-516), otherwise it may be the client manager's: Pool.v *)
Definition tell (c : nat) (m : message) (N : net) : net :=
  match handler_of c (Protocol.msg_code m) (p_world (n_pool N)) with
  | Some (HUser u) => note (Own c u (Protocol.msg_code m) (Protocol.msg_data m)) N
  | _ => N
  end.
Definition shove (n c : nat) (N : net) (o : Protocol.pout) : net :=
  match o with
  | Protocol.OutDropped m => move n (Push c (Protocol.msg_code m) (Protocol.msg_data m)) (tell c m N)
  | _ => N
  end.

(** the await of task [i] *)
Definition awaits (i : nat) (N : net) : option ev :=
  match nth_error (p_tasks (n_pool N)) i with Some (Wait e _) => Some e | _ => None end.
(** task [i] waits for the lock *)
Definition queues (i : nat) (N : net) : bool :=
  match nth_error (p_tasks (n_pool N)) i with Some (Lock _ _) => true | _ => false end.
(** protocol.py:92-98: data_received looks at the bytes *)
Definition takes_bytes (s : Protocol.pstate) : bool :=
  match Protocol.p_transport s with Protocol.TUp | Protocol.TClosing => negb (Protocol.p_closing s) | _ => false end.

Inductive nevent :=
| NCall (c : api_call)                          (* a user makes a call *)
| NEnter (i : nat)                              (* a task gets the lock it waits for *)
| NEnd (i : nat) (k : kind) (clk : spec_float)  (* a connection opened or not, a pause is over *)
| NData (c : nat) (b : bytes)                   (* bytes arrive *)
| NLose (c : nat)                               (* the connection is lost *)
| NLostTask (c : nat)                           (* the task connection_lost made runs, protocol.py:151 *)
| NTimeout (i : nat)                            (* the timeout of a request expires *)
| NCancel (i : nat)                             (* somebody cancels the task of a call *)
| NResume (i : nat) (clk : spec_float)          (* a task runs whose future is done *)
| NHandle.                                      (* the oldest task made for a handler runs, protocol.py:139 *)

Definition nstep (n : nat) (N : net) (e : nevent) : net :=
  match e with
  | NCall c => move n (Pool.Call c) N
  | NEnter i => move n (Enter i) N
  | NEnd i k clk =>
      match awaits i N with
      | Some (Open _ _ _) | Some (Sleep _) => move n (Resume i k clk) N
      | _ => N
      end
  | NData c b =>
      match nth_error (n_links N) c with
      | Some s =>
          if takes_bytes s then
            (* a message nobody asked for goes to the handlers, protocol.py:131-139 *)
            fold_left (shove n c)
              (skipn (List.length (Protocol.p_log s)) (Protocol.p_log (Protocol.pstep s (Protocol.EvData b))))
              (feed c (Protocol.EvData b) (note (Came c b) N))
          else N
      | None => N
      end
  | NLose c => move n (Lose c) N
  | NLostTask c => feed c Protocol.EvLostTask N
  | NTimeout i =>
      match n_slot N i with
      | ForReply c f Fair => put_slot i (ForReply c f TimedOut) (feed c (Protocol.EvCancel f) N)
      | _ => N
      end
  | NCancel i =>
      match n_slot N i, awaits i N with
      | ForReply c f _, _ => put_slot i (ForReply c f Cancelled) (feed c (Protocol.EvCancel f) N)
      | ForClose c j, _ => feed c (Protocol.EvCloseCancel j) N
      | NoWait, Some (AwaitClosed _) => move n (Resume i KCancelTask (w_clock (p_world (n_pool N)))) N
      | NoWait, _ => if queues i N then move n (Resume i KCancelTask (w_clock (p_world (n_pool N)))) N else N
      end
  | NResume i clk =>
      match n_slot N i, awaits i N with
      | ForReply c f h, Some (AwaitReply _ _) =>
          let answer k := move n (Resume i k clk) N in
          match Protocol.fget f (Protocol.p_futs (link c N)), h with
          | Protocol.FPending, _ => N
          | _, Cancelled => answer KCancelTask
          | Protocol.FDone m, Fair => answer (KReply (Protocol.msg_code m) (Protocol.msg_data m))
          | Protocol.FDone m, TimedOut => answer (KTimeoutReply (Protocol.msg_code m) (Protocol.msg_data m))
          | Protocol.FCancelled, Fair => answer KCancelFut
          | Protocol.FCancelled, TimedOut => answer KTimeout
          end
      | ForClose c j, Some (AwaitFutures _ _) =>
          match nth j (Protocol.p_closers (link c N)) Protocol.CDone with
          | Protocol.CGather fs =>
              if Protocol.gather_done fs (Protocol.p_futs (link c N))
              then move n (Resume i KDone clk) (feed c (Protocol.EvCloseResume j) N)
              else N
          | _ => N
          end
      | NoWait, Some (AwaitClosed c) =>
          match Protocol.p_closed (link c N) with
          | Protocol.FPending => N
          | _ => move n (Resume i KDone clk) N
          end
      | _, _ => N
      end
  | NHandle => move n Handle N
  end.
Definition nrun (n : nat) (N : net) (es : list nevent) : net := fold_left (nstep n) es N.
