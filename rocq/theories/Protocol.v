(** Model of /repo/screenlogicpy/requests/protocol.py as an event machine.

    One [pstate] is a ScreenLogicProtocol object together with the part of the asyncio
    event loop it uses: its futures, its timer, the transport and the coroutines of
    [async_close].  One [pevent] is one uninterrupted run of Python code between two
    returns to the event loop (asyncio is single threaded), so any list of events is a
    schedule.  Events the asyncio contract rules out (data before connection_made, a second
    connection_lost, resuming a coroutine whose future is not done, ...) change nothing.

    Simplifications: handlers and keepalive awaitables are opaque numbers (a handler number
    stands for handler and args together); time is an integer clock; log calls are dropped. *)
From Verif Require Import Py F64 Struct Utf Utility.

Definition msg_id (m : message) : Z := fst (fst m).
Definition msg_code (m : message) : Z := snd (fst m).
Definition msg_data (m : message) : bytes := snd m.

(** asyncio.Future: pending, done with a result, or cancelled. *)
Inductive fstate := FPending | FDone (m : message) | FCancelled.

Definition is_pending (f : fstate) : bool := match f with FPending => true | _ => false end.

(** What the outside can observe, in order. *)
Inductive pout :=
| OutRequest (f : nat) (id code : Z) (data : bytes)  (* await_send_message handed out future f *)
| OutWrite (b : bytes)                     (* transport.write *)
| OutCompleted (f : nat) (m : message)     (* a reply resolved request future f *)
| OutHandler (h : nat) (m : message)       (* a task running handler h was created *)
| OutDropped (m : message)                 (* unsolicited, no handler *)
| OutKeepalive (a : nat)                   (* a task running the keepalive awaitable was created *)
| OutClosedTransport                       (* transport.close() *)
| OutLost.                                 (* connection_lost_callback ran *)

(** A suspended [async_close] coroutine (protocol.py:157-169): waiting for the gather of
    some request futures, waiting for [_closed], or finished/aborted. *)
Inductive closer := CGather (fs : list nat) | CClosed | CDone | CAborted.

(** transport life cycle: not yet made, up, closing (is_closing() true), gone (lost) *)
Inductive tstate := TNone | TUp | TClosing | TGone.

Record pstate := mkP {
  p_connected : bool;                 (* _connected *)
  p_closing : bool;                   (* _closing *)
  p_transport : tstate;               (* transport *)
  p_closed : fstate;                  (* _closed; FDone _ once set.  None before connection_made:
                                         FCancelled, since awaiting it and setting it raise *)
  p_buff : bytes;                     (* _buff *)
  p_coll : list (Z * nat);            (* _futures._collection: message id -> future *)
  p_futs : list fstate;               (* all request futures ever created, by number *)
  p_next : Z;                         (* next value of __msgID *)
  p_cbs : list (Z * nat);             (* _callbacks *)
  p_cb : bool;                        (* a connection_lost_callback was given *)
  p_ka : option nat;                  (* _keepalive_awaitable *)
  p_interval : Z;                     (* _keepalive_interval *)
  p_stop : option nat;                (* _stop_keepalive: the timer it would cancel *)
  p_timers : list (nat * Z);          (* pending call_later timers: number, due time *)
  p_ntimers : nat;                    (* timers created so far *)
  p_now : Z;                          (* loop.time() *)
  p_last_request : option Z;          (* _last_request *)
  p_lost_tasks : nat;                 (* scheduled, not yet run all_done(True) tasks *)
  p_closers : list closer;            (* async_close coroutines, by number *)
  p_log : list pout                   (* observable effects, oldest first *)
}.

(** protocol.py:19-37 __init__ *)
Definition p_init (cb : bool) : pstate :=
  mkP false false TNone FCancelled [] [] [] 0 [] cb None 0 None [] 0 0 None 0 [] [].

(** association-list dictionaries keyed by integers *)
Fixpoint zget {A} (k : Z) (d : list (Z * A)) : option A :=
  match d with [] => None | (k', v) :: d' => if k =? k' then Some v else zget k d' end.
Fixpoint zset {A} (k : Z) (v : A) (d : list (Z * A)) : list (Z * A) :=
  match d with
  | [] => [(k, v)]
  | (k', v') :: d' => if k =? k' then (k', v) :: d' else (k', v') :: zset k v d'
  end.
Fixpoint zpop {A} (k : Z) (d : list (Z * A)) : list (Z * A) :=
  match d with [] => [] | (k', v) :: d' => if k =? k' then d' else (k', v) :: zpop k d' end.

Definition fget (f : nat) (l : list fstate) : fstate := nth f l FCancelled.
Fixpoint fset (f : nat) (x : fstate) (l : list fstate) : list fstate :=
  match l, f with
  | [], _ => []
  | _ :: l', O => x :: l'
  | y :: l', S f' => y :: fset f' x l'
  end.

(** Future.cancel(): only a pending future changes. *)
Definition fcancel (f : nat) (l : list fstate) : list fstate :=
  if is_pending (fget f l) then fset f FCancelled l else l.
Definition fcancel_all (fs : list nat) (l : list fstate) : list fstate :=
  fold_left (fun l f => fcancel f l) fs l.

(** field updates *)
Definition up_log (o : list pout) (s : pstate) : pstate :=
  mkP (p_connected s) (p_closing s) (p_transport s) (p_closed s) (p_buff s) (p_coll s) (p_futs s)
    (p_next s) (p_cbs s) (p_cb s) (p_ka s) (p_interval s) (p_stop s) (p_timers s) (p_ntimers s)
    (p_now s) (p_last_request s) (p_lost_tasks s) (p_closers s) (p_log s ++ o).
Definition up_conn (c : bool) (t : tstate) (s : pstate) : pstate :=
  mkP c (p_closing s) t (p_closed s) (p_buff s) (p_coll s) (p_futs s)
    (p_next s) (p_cbs s) (p_cb s) (p_ka s) (p_interval s) (p_stop s) (p_timers s) (p_ntimers s)
    (p_now s) (p_last_request s) (p_lost_tasks s) (p_closers s) (p_log s).
Definition up_closing (s : pstate) : pstate :=
  mkP (p_connected s) true (p_transport s) (p_closed s) (p_buff s) (p_coll s) (p_futs s)
    (p_next s) (p_cbs s) (p_cb s) (p_ka s) (p_interval s) (p_stop s) (p_timers s) (p_ntimers s)
    (p_now s) (p_last_request s) (p_lost_tasks s) (p_closers s) (p_log s).
Definition up_closed (f : fstate) (s : pstate) : pstate :=
  mkP (p_connected s) (p_closing s) (p_transport s) f (p_buff s) (p_coll s) (p_futs s)
    (p_next s) (p_cbs s) (p_cb s) (p_ka s) (p_interval s) (p_stop s) (p_timers s) (p_ntimers s)
    (p_now s) (p_last_request s) (p_lost_tasks s) (p_closers s) (p_log s).
Definition up_buff (b : bytes) (s : pstate) : pstate :=
  mkP (p_connected s) (p_closing s) (p_transport s) (p_closed s) b (p_coll s) (p_futs s)
    (p_next s) (p_cbs s) (p_cb s) (p_ka s) (p_interval s) (p_stop s) (p_timers s) (p_ntimers s)
    (p_now s) (p_last_request s) (p_lost_tasks s) (p_closers s) (p_log s).
Definition up_futs (c : list (Z * nat)) (f : list fstate) (s : pstate) : pstate :=
  mkP (p_connected s) (p_closing s) (p_transport s) (p_closed s) (p_buff s) c f
    (p_next s) (p_cbs s) (p_cb s) (p_ka s) (p_interval s) (p_stop s) (p_timers s) (p_ntimers s)
    (p_now s) (p_last_request s) (p_lost_tasks s) (p_closers s) (p_log s).
Definition up_next (n : Z) (s : pstate) : pstate :=
  mkP (p_connected s) (p_closing s) (p_transport s) (p_closed s) (p_buff s) (p_coll s) (p_futs s)
    n (p_cbs s) (p_cb s) (p_ka s) (p_interval s) (p_stop s) (p_timers s) (p_ntimers s)
    (p_now s) (p_last_request s) (p_lost_tasks s) (p_closers s) (p_log s).
Definition up_cbs (c : list (Z * nat)) (s : pstate) : pstate :=
  mkP (p_connected s) (p_closing s) (p_transport s) (p_closed s) (p_buff s) (p_coll s) (p_futs s)
    (p_next s) c (p_cb s) (p_ka s) (p_interval s) (p_stop s) (p_timers s) (p_ntimers s)
    (p_now s) (p_last_request s) (p_lost_tasks s) (p_closers s) (p_log s).
Definition up_ka (a : option nat) (i : Z) (s : pstate) : pstate :=
  mkP (p_connected s) (p_closing s) (p_transport s) (p_closed s) (p_buff s) (p_coll s) (p_futs s)
    (p_next s) (p_cbs s) (p_cb s) a i (p_stop s) (p_timers s) (p_ntimers s)
    (p_now s) (p_last_request s) (p_lost_tasks s) (p_closers s) (p_log s).
Definition up_timers (st : option nat) (ts : list (nat * Z)) (n : nat) (s : pstate) : pstate :=
  mkP (p_connected s) (p_closing s) (p_transport s) (p_closed s) (p_buff s) (p_coll s) (p_futs s)
    (p_next s) (p_cbs s) (p_cb s) (p_ka s) (p_interval s) st ts n
    (p_now s) (p_last_request s) (p_lost_tasks s) (p_closers s) (p_log s).
Definition up_now (n : Z) (s : pstate) : pstate :=
  mkP (p_connected s) (p_closing s) (p_transport s) (p_closed s) (p_buff s) (p_coll s) (p_futs s)
    (p_next s) (p_cbs s) (p_cb s) (p_ka s) (p_interval s) (p_stop s) (p_timers s) (p_ntimers s)
    n (p_last_request s) (p_lost_tasks s) (p_closers s) (p_log s).
Definition up_last (l : option Z) (s : pstate) : pstate :=
  mkP (p_connected s) (p_closing s) (p_transport s) (p_closed s) (p_buff s) (p_coll s) (p_futs s)
    (p_next s) (p_cbs s) (p_cb s) (p_ka s) (p_interval s) (p_stop s) (p_timers s) (p_ntimers s)
    (p_now s) l (p_lost_tasks s) (p_closers s) (p_log s).
Definition up_tasks (n : nat) (s : pstate) : pstate :=
  mkP (p_connected s) (p_closing s) (p_transport s) (p_closed s) (p_buff s) (p_coll s) (p_futs s)
    (p_next s) (p_cbs s) (p_cb s) (p_ka s) (p_interval s) (p_stop s) (p_timers s) (p_ntimers s)
    (p_now s) (p_last_request s) n (p_closers s) (p_log s).
Definition up_closers (c : list closer) (s : pstate) : pstate :=
  mkP (p_connected s) (p_closing s) (p_transport s) (p_closed s) (p_buff s) (p_coll s) (p_futs s)
    (p_next s) (p_cbs s) (p_cb s) (p_ka s) (p_interval s) (p_stop s) (p_timers s) (p_ntimers s)
    (p_now s) (p_last_request s) (p_lost_tasks s) c (p_log s).

(** handle.cancel() of timer n *)
Definition cancel_timer (n : nat) (ts : list (nat * Z)) : list (nat * Z) :=
  filter (fun t => negb (Nat.eqb (fst t) n)) ts.

(** the shared "if self._stop_keepalive: self._stop_keepalive(); = None" of
    protocol.py:147-149, 204-207, 238-240 *)
Definition stop_keepalive (s : pstate) : pstate :=
  match p_stop s with
  | Some n => up_timers None (cancel_timer n (p_timers s)) (p_ntimers s) s
  | None => s
  end.

(** protocol.py:202-221 _set_keepalive *)
Definition set_keepalive (s : pstate) : pstate :=
  let s := stop_keepalive s in
  let n := p_ntimers s in
  up_timers (Some n) (p_timers s ++ [(n, p_now s + p_interval s)]) (S n) s.

(** protocol.py:65-74 send_message *)
Definition send_message (id code : Z) (data : bytes) (s : pstate) : pstate * res unit :=
  match p_transport s with
  | TNone => (s, Err EAttribute)               (* no attribute 'transport' yet *)
  | t =>
      let written :=
        match t with
        | TUp => match makeMessage id code data with
                 | Ok b => Ok (up_log [OutWrite b] s)
                 | Err e => Err e
                 end
        | _ => Ok s
        end in
      match written with
      | Err e => (s, Err e)
      | Ok s =>
          let s := up_last (Some (p_now s)) s in
          (match p_ka s with Some _ => set_keepalive s | None => s end, Ok tt)
      end
  end.

(** itertools.cycle(range(32767)), protocol.py:37 *)
Definition MSG_IDS : Z := 32767.
Definition next_id (i : Z) : Z := if i + 1 =? MSG_IDS then 0 else i + 1.

(** protocol.py:76-90 await_send_message, with FutureManager.create (249-252).
    The new future is the last one of [p_futs]. *)
Definition await_send_message (code : Z) (data : bytes) (s : pstate) : pstate * res nat :=
  let id := p_next s in
  let f := List.length (p_futs s) in
  let s := up_next (next_id id) s in
  let s := up_futs (zset id f (p_coll s)) (p_futs s ++ [FPending]) s in
  let s := up_log [OutRequest f id code data] s in
  if p_closing s then (up_futs (p_coll s) (fcancel f (p_futs s)) s, Ok f)
  else
    match send_message id code data s with
    | (s, Ok _) => (s, Ok f)
    | (s, Err e) => (s, Err e)
    end.

(** protocol.py:98-126 complete_messages: the while loop; each round removes at least
    eight bytes from the buffer, so fuel = its length is enough (proved).
    Returns the messages in order and the remaining buffer. *)
Fixpoint complete_messages (fuel : nat) (buff : bytes) : list (res message) * bytes :=
  match fuel with
  | O => ([], buff)
  | S fuel' =>
      if HEADER_LENGTH <=? zlen buff then
        let dataLen := le_dec (slice 4 4 buff) in
        let totalLen := HEADER_LENGTH + dataLen in
        if totalLen <=? zlen buff then
          let out := firstn (Z.to_nat totalLen) buff in
          let (ms, rest) := complete_messages fuel' (skipn (Z.to_nat totalLen) buff) in
          (takeMessage out :: ms, rest)
        else ([], buff)
      else ([], buff)
  end.

(** FutureManager.mark_done and try_get (254-273): pop the entry; a cancelled future (or no
    entry) means "not a reply". A future that already has a result would raise
    ScreenLogicError; [None] stands for that (proved impossible). *)
Definition mark_done (m : message) (s : pstate) : option (pstate * bool) :=
  match zget (msg_id m) (p_coll s) with
  | None => Some (s, false)
  | Some f =>
      let s := up_futs (zpop (msg_id m) (p_coll s)) (p_futs s) s in
      match fget f (p_futs s) with
      | FCancelled => Some (s, false)
      | FPending => Some (up_log [OutCompleted f m] (up_futs (p_coll s) (fset f (FDone m) (p_futs s)) s), true)
      | FDone _ => None
      end
  end.

(** the body of the for loop of data_received, protocol.py:128-139 *)
Definition deliver (s : pstate) (m : message) : pstate :=
  match mark_done m s with
  | None => s
  | Some (s, true) => s
  | Some (s, false) =>
      match zget (msg_code m) (p_cbs s) with
      | Some h => up_log [OutHandler h m] s
      | None => up_log [OutDropped m] s
      end
  end.

(** protocol.py:92-139 data_received.  A takeMessage failure (impossible: the slice has the
    right length; proved) would escape. *)
Definition deliver_res (s : pstate) (r : res message) : pstate :=
  match r with Ok m => deliver s m | Err _ => s end.
Definition data_received (data : bytes) (s : pstate) : pstate :=
  if p_closing s then s
  else
    let buff := p_buff s ++ data in
    let (ms, rest) := complete_messages (List.length buff) buff in
    fold_left deliver_res ms (up_buff rest s).

(** FutureManager.all_done (275-287), the part before the await; with force the futures are
    cancelled and the collection emptied. Returns the gathered futures. *)
Definition all_done_start (force : bool) (s : pstate) : pstate * list nat :=
  let fs := map snd (p_coll s) in
  (if force then up_futs [] (fcancel_all fs (p_futs s)) s else s, fs).

(** asyncio.gather is done when every child has a result, or as soon as one is cancelled. *)
Definition gather_done (fs : list nat) (l : list fstate) : bool :=
  forallb (fun f => negb (is_pending (fget f l))) fs
  || existsb (fun f => match fget f l with FCancelled => true | _ => false end) fs.

(** protocol.py:157-169 async_close: from the call to the first suspension. *)
Definition close_start (force : bool) (s : pstate) : pstate :=
  let s := up_closing s in
  let (s, fs) := all_done_start force s in
  up_closers (p_closers s ++ [CGather fs]) s.

Fixpoint cset (i : nat) (x : closer) (l : list closer) : list closer :=
  match l, i with
  | [], _ => []
  | _ :: l', O => x :: l'
  | y :: l', S i' => y :: cset i' x l'
  end.

(** ... after all_done: close the transport, then wait for [_closed]. *)
Definition close_transport (s : pstate) : pstate :=
  match p_transport s with
  | TUp => up_log [OutClosedTransport] (up_conn (p_connected s) TClosing s)
  | _ => s
  end.

(** Resuming async_close coroutine i when the future it waits for is done. *)
Definition close_resume (i : nat) (s : pstate) : pstate :=
  match nth i (p_closers s) CDone with
  | CGather fs =>
      if gather_done fs (p_futs s)
      then let s := close_transport s in up_closers (cset i CClosed (p_closers s)) s
      else s
  | CClosed =>
      match p_closed s with
      | FPending => s
      | FDone _ => up_closers (cset i CDone (p_closers s)) s
      | FCancelled => up_closers (cset i CAborted (p_closers s)) s
      end
  | _ => s
  end.

(** task.cancel() on the task running async_close coroutine i: while it waits for the gather
    the children are cancelled and all_done swallows the CancelledError (284-287); while it
    waits for [_closed] that future is cancelled and the CancelledError escapes. *)
Definition close_cancel (i : nat) (s : pstate) : pstate :=
  match nth i (p_closers s) CDone with
  | CGather fs => up_futs (p_coll s) (fcancel_all fs (p_futs s)) s
  | CClosed =>
      match p_closed s with
      | FPending => up_closers (cset i CAborted (p_closers s)) (up_closed FCancelled s)
      | _ => up_closers (cset i CAborted (p_closers s)) s
      end
  | _ => s
  end.

(** protocol.py:58-63 connection_made *)
Definition connection_made (s : pstate) : pstate := up_closed FPending (up_conn true TUp s).

(** protocol.py:141-155 connection_lost.  [set_result] on a cancelled [_closed] raises
    InvalidStateError before the callback is called. *)
Definition connection_lost (s : pstate) : pstate * res unit :=
  let s := up_conn false TGone s in
  let s := stop_keepalive s in
  let s := up_tasks (S (p_lost_tasks s)) s in
  match p_closed s with
  | FPending =>
      let s := up_closed (FDone (0, 0, [])) s in
      ((if p_cb s then up_log [OutLost] s else s), Ok tt)
  | _ => (s, Err EInvalidState)
  end.

Inductive pevent :=
| EvMade                                    (* asyncio: connection established *)
| EvData (b : bytes)                        (* asyncio: bytes arrived *)
| EvLost                                    (* asyncio: connection lost or closed *)
| EvLostTask                                (* the task created by connection_lost runs *)
| EvRequest (code : Z) (data : bytes)       (* await_send_message *)
| EvSend (id code : Z) (data : bytes)       (* send_message called directly *)
| EvCancel (f : nat)                        (* somebody cancels request future f (timeout, task cancel) *)
| EvClose (force : bool)                    (* async_close called *)
| EvCloseResume (i : nat)
| EvCloseCancel (i : nat)
| EvRegister (code : Z) (h : nat)
| EvRemove (code : Z)
| EvRemoveAll
| EvEnableKA (a : nat) (interval : Z)
| EvDisableKA
| EvTick (dt : Z)                           (* time passes *)
| EvFire.                                   (* the oldest due timer fires *)

Definition pstep (s : pstate) (e : pevent) : pstate :=
  match e with
  | EvMade => match p_transport s with TNone => connection_made s | _ => s end
  | EvData b => match p_transport s with TUp | TClosing => data_received b s | _ => s end
  | EvLost => match p_transport s with TUp | TClosing => fst (connection_lost s) | _ => s end
  | EvLostTask =>
      match p_lost_tasks s with
      | O => s
      | S n => up_tasks n (fst (all_done_start true s))
      end
  | EvRequest code data => fst (await_send_message code data s)
  | EvSend id code data => fst (send_message id code data s)
  | EvCancel f => up_futs (p_coll s) (fcancel f (p_futs s)) s
  | EvClose force => match p_transport s with TNone => s | _ => close_start force s end
  | EvCloseResume i => close_resume i s
  | EvCloseCancel i => close_cancel i s
  | EvRegister code h => up_cbs (zset code h (p_cbs s)) s          (* protocol.py:171-186 *)
  | EvRemove code => up_cbs (zpop code (p_cbs s)) s                (* protocol.py:188-190 *)
  | EvRemoveAll => up_cbs [] s                                     (* protocol.py:192-194 *)
  | EvEnableKA a i => set_keepalive (up_ka (Some a) i s)           (* protocol.py:223-232 *)
  | EvDisableKA => stop_keepalive (up_ka None (p_interval s) s)    (* protocol.py:234-240 *)
  | EvTick dt => if 0 <=? dt then up_now (p_now s + dt) s else s
  | EvFire =>                                                      (* protocol.py:196-200 *)
      match p_timers s with
      | (n, due) :: ts =>
          if due <=? p_now s then
            let s := up_timers (p_stop s) ts (p_ntimers s) s in
            match p_ka s with
            | Some a => up_log [OutKeepalive a] s
            | None => s                                            (* TypeError in the timer callback *)
            end
          else s
      | [] => s
      end
  end.

Definition prun (s : pstate) (es : list pevent) : pstate := fold_left pstep es s.
