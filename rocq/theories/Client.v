(** Model of client.py ClientManager under all schedules of the tasks that use it, of the
    callback table of protocol.py and of the handling of push messages.

    The event loop runs one piece of a coroutine at a time, from one suspension to the
    next; an event below is one such piece (or a step of the environment), and a history is
    any sequence of events that the state allows.  Every theorem about reachable states
    quantifies over all of them.

    Simplifications.  The exchange with the adapter inside the lock (_async_add_client with
    its retries and its reconnect, _async_remove_client) is one frame that ends with success
    or failure; World.v/Gateway.v model what happens inside.  A call of attach made inside
    that exchange by the same task is the event [EAttach (Some i)].  Cancelling a task that
    waits takes effect at once.  Callbacks are opaque numbers; when called they may call
    unsubscribe functions and may raise.  User handlers do nothing. *)
From Verif Require Import Py F64 Struct Utf Utility Const Decode World.

(** protocol.py:19-37, what ClientManager sees of a ScreenLogicProtocol *)
Record proto := mkP {
  q_up : bool;                            (* is_connected *)
  q_handlers : list (Z * handler);        (* _callbacks *)
  q_ka : bool }.                          (* a keepalive is set *)

(** Where a task is suspended, innermost call first. *)
Inductive frame :=
| FCreated        (* asyncio.create_task(self.async_unsubscribe_gateway()), not started *)
| FWaitSub        (* async_subscribe_gateway at "async with" *)
| FWaitUnsub      (* async_unsubscribe_gateway at "async with" *)
| FAdding         (* in _async_add_client, holding the lock *)
| FRemoving.      (* in _async_remove_client, holding the lock *)
(** What the task is running: async_subscribe(callback, code) with its local
    [code_listeners], the attach of a connect, or async_unsubscribe_gateway. *)
Inductive call_kind := KSub (cb : nat) (code : Z) (st : nat) | KAttach | KUnsub.
Record task := mkT { k_kind : call_kind; k_frames : list frame }.

(** what listeners and the log of the event loop see *)
Inductive note :=
| Called (cb : nat) (code : Z) (d : dict)   (* callback [cb] ran; the gateway data then was [d] *)
| Failed (e : exn).                         (* the task of a push message ended with an exception *)

(** client.py:136 remove_listener, as returned by async_subscribe: the variables it closes over.
    [c_task] is a ghost: the task whose call of async_subscribe returned it. *)
Record closure := mkC { c_task : nat; c_cb : nat; c_code : Z; c_set : nat }.

(** client.py:28-42; sets are objects: [x_table] maps a code to an index in [x_sets], and an
    unsubscribe function keeps such an index. *)
Record cstate := mkX {
  x_protos : list proto;
  x_cur : option nat;                     (* _protocol *)
  x_table : list (Z * nat);               (* _listeners *)
  x_sets : list (list nat);
  x_client : bool;                        (* _is_client *)
  x_locked : bool;                        (* _client_sub_unsub_lock.locked() *)
  x_queue : list nat;                     (* tasks waiting for it, in order *)
  x_tasks : list task;
  x_closures : list closure;              (* unsubscribe functions returned so far *)
  x_pushes : list (handler * bytes);      (* tasks of push messages, in order of creation *)
  x_data : dict;                          (* _data, the gateway's dictionary *)
  x_log : list note }.

Definition sx_protos v s := mkX v (x_cur s) (x_table s) (x_sets s) (x_client s) (x_locked s) (x_queue s) (x_tasks s) (x_closures s) (x_pushes s) (x_data s) (x_log s).
Definition sx_cur v s := mkX (x_protos s) v (x_table s) (x_sets s) (x_client s) (x_locked s) (x_queue s) (x_tasks s) (x_closures s) (x_pushes s) (x_data s) (x_log s).
Definition sx_table v s := mkX (x_protos s) (x_cur s) v (x_sets s) (x_client s) (x_locked s) (x_queue s) (x_tasks s) (x_closures s) (x_pushes s) (x_data s) (x_log s).
Definition sx_sets v s := mkX (x_protos s) (x_cur s) (x_table s) v (x_client s) (x_locked s) (x_queue s) (x_tasks s) (x_closures s) (x_pushes s) (x_data s) (x_log s).
Definition sx_client v s := mkX (x_protos s) (x_cur s) (x_table s) (x_sets s) v (x_locked s) (x_queue s) (x_tasks s) (x_closures s) (x_pushes s) (x_data s) (x_log s).
Definition sx_locked v s := mkX (x_protos s) (x_cur s) (x_table s) (x_sets s) (x_client s) v (x_queue s) (x_tasks s) (x_closures s) (x_pushes s) (x_data s) (x_log s).
Definition sx_queue v s := mkX (x_protos s) (x_cur s) (x_table s) (x_sets s) (x_client s) (x_locked s) v (x_tasks s) (x_closures s) (x_pushes s) (x_data s) (x_log s).
Definition sx_tasks v s := mkX (x_protos s) (x_cur s) (x_table s) (x_sets s) (x_client s) (x_locked s) (x_queue s) v (x_closures s) (x_pushes s) (x_data s) (x_log s).
Definition sx_closures v s := mkX (x_protos s) (x_cur s) (x_table s) (x_sets s) (x_client s) (x_locked s) (x_queue s) (x_tasks s) v (x_pushes s) (x_data s) (x_log s).
Definition sx_pushes v s := mkX (x_protos s) (x_cur s) (x_table s) (x_sets s) (x_client s) (x_locked s) (x_queue s) (x_tasks s) (x_closures s) v (x_data s) (x_log s).
Definition sx_data v s := mkX (x_protos s) (x_cur s) (x_table s) (x_sets s) (x_client s) (x_locked s) (x_queue s) (x_tasks s) (x_closures s) (x_pushes s) v (x_log s).
Definition sx_log v s := mkX (x_protos s) (x_cur s) (x_table s) (x_sets s) (x_client s) (x_locked s) (x_queue s) (x_tasks s) (x_closures s) (x_pushes s) (x_data s) v.

(** client.py:28-42 __init__ *)
Definition client_init : cstate := mkX [] None [] [] false false [] [] [] [] [] [].

(** ------------------------------------------------------------------ *)
(** protocol.py:171-200 the callback table *)
Definition no_proto : proto := mkP false [] false.
Definition get_proto (p : nat) (s : cstate) : proto := nth p (x_protos s) no_proto.
Definition upd_proto (p : nat) (f : proto -> proto) (s : cstate) : cstate :=
  sx_protos (lset p (f (get_proto p s)) (x_protos s)) s.
(** d[k] = v *)
Fixpoint tset {A} (k : Z) (v : A) (d : list (Z * A)) : list (Z * A) :=
  match d with
  | [] => [(k, v)]
  | (k', v') :: d' => if k =? k' then (k', v) :: d' else (k', v') :: tset k v d'
  end.
(** d.get(k) *)
Fixpoint tget {A} (k : Z) (d : list (Z * A)) : option A :=
  match d with
  | [] => None
  | (k', v) :: d' => if k =? k' then Some v else tget k d'
  end.
(** d.pop(k, None) *)
Definition tdel {A} (k : Z) (d : list (Z * A)) : list (Z * A) := filter (fun e => negb (fst e =? k)) d.
Definition p_register (p : nat) (code : Z) (h : handler) : cstate -> cstate :=
  upd_proto p (fun q => mkP (q_up q) (tset code h (q_handlers q)) (q_ka q)).
Definition p_unregister (p : nat) (code : Z) : cstate -> cstate :=
  upd_proto p (fun q => mkP (q_up q) (tdel code (q_handlers q)) (q_ka q)).
Definition p_clear (p : nat) : cstate -> cstate :=
  upd_proto p (fun q => mkP (q_up q) [] (q_ka q)).
Definition p_keepalive (b : bool) (p : nat) : cstate -> cstate :=
  upd_proto p (fun q => mkP (q_up q) (q_handlers q) b).
Definition on_cur (f : nat -> cstate -> cstate) (s : cstate) : cstate :=
  match x_cur s with Some p => f p s | None => s end.

(** client.py:44-59 is_client, client_needed, _attached *)
Definition x_attached (s : cstate) : bool := match x_cur s with Some p => q_up (get_proto p s) | None => false end.
Definition x_is_client (s : cstate) : bool := x_client s && x_attached s.
Definition x_needed (s : cstate) : bool := match x_table s with [] => false | _ => negb (x_client s) end.

(** ------------------------------------------------------------------ *)
(** tasks *)
Definition no_task : task := mkT KAttach [].
Definition get_task (i : nat) (s : cstate) : task := nth i (x_tasks s) no_task.
Definition push_frame (i : nat) (f : frame) (s : cstate) : cstate :=
  sx_tasks (lset i (mkT (k_kind (get_task i s)) (f :: k_frames (get_task i s))) (x_tasks s)) s.
Definition pop_frame (i : nat) (s : cstate) : cstate :=
  sx_tasks (lset i (mkT (k_kind (get_task i s)) (tl (k_frames (get_task i s)))) (x_tasks s)) s.
Definition new_task (k : call_kind) (s : cstate) : cstate := sx_tasks (x_tasks s ++ [mkT k []]) s.
(** the innermost call of task [i] returned: when it was the last one, async_subscribe
    returns its remove_listener (client.py:136-156) *)
Definition returned (i : nat) (s : cstate) : cstate :=
  match get_task i s with
  | mkT (KSub cb code st) [] => sx_closures (x_closures s ++ [mkC i cb code st]) s
  | _ => s
  end.

(** asyncio.Lock: acquire succeeds at once when it is free and nobody waits; release wakes
    the first waiter, which then takes it before anybody else. *)
Definition lock_free (s : cstate) : bool := negb (x_locked s) && match x_queue s with [] => true | _ => false end.
Definition wait_lock (i : nat) (f : frame) (s : cstate) : cstate := push_frame i f (sx_queue (x_queue s ++ [i]) s).

(** client.py:191-200, the body of "async with" in async_subscribe_gateway up to the request *)
Definition enter_sub (i : nat) (s : cstate) : cstate :=
  if x_is_client s then returned i (sx_locked false s) else push_frame i FAdding s.
(** client.py:183-191 async_subscribe_gateway up to the lock *)
Definition begin_sub (i : nat) (s : cstate) : cstate :=
  if x_attached s
  then if lock_free s then enter_sub i (sx_locked true s) else wait_lock i FWaitSub s
  else returned i s.
(** client.py:210-217 *)
Definition enter_unsub (i : nat) (s : cstate) : cstate :=
  if x_client s
  then push_frame i FRemoving (on_cur p_clear (on_cur (p_keepalive false) (sx_client false s)))
  else returned i (sx_locked false s).
(** client.py:202-210 *)
Definition begin_unsub (i : nat) (s : cstate) : cstate :=
  if x_attached s
  then if lock_free s then enter_unsub i (sx_locked true s) else wait_lock i FWaitUnsub s
  else returned i s.

(** ------------------------------------------------------------------ *)
Definition mem (x : nat) (l : list nat) : bool := existsb (Nat.eqb x) l.
Definition get_set (st : nat) (s : cstate) : list nat := nth st (x_sets s) [].

(** client.py:109-134 async_subscribe *)
Definition subscribe (cb : nat) (code : Z) (s : cstate) : cstate :=
  if x_attached s
  then
    let '(st, s) := match tget code (x_table s) with
                    | Some st => (st, s)
                    | None => let st := List.length (x_sets s) in
                              (st, sx_table (tset code st (x_table s)) (sx_sets (x_sets s ++ [[]]) s))
                    end in
    let s := if mem cb (get_set st s) then s else sx_sets (lset st (get_set st s ++ [cb]) (x_sets s)) s in
    let s := on_cur (fun p => p_register p code (HClient code)) s in
    let i := List.length (x_tasks s) in
    let s := new_task (KSub cb code st) s in
    if x_needed s then begin_sub i s else returned i s
  else s.

(** client.py:136-154 remove_listener *)
Definition remove_listener (c : closure) (s : cstate) : cstate :=
  let '(mkC _ cb code st) := c in
  if mem cb (get_set st s)
  then
    let l := filter (fun x => negb (Nat.eqb x cb)) (get_set st s) in
    let s := sx_sets (lset st l (x_sets s)) s in
    match l with
    | [] =>
        match tget code (x_table s) with
        | Some _ =>
            let s := sx_table (tdel code (x_table s)) s in
            if x_attached s
            then
              let s := on_cur (fun p => p_unregister p code) s in
              match x_table s with
              | [] => sx_tasks (x_tasks s ++ [mkT KUnsub [FCreated]]) s
              | _ => s
              end
            else s
        | None => s
        end
    | _ => s
    end
  else s.
Definition call_closure (r : nat) (s : cstate) : cstate :=
  match nth_error (x_closures s) r with Some c => remove_listener c s | None => s end.

(** client.py:61-84 attach, by task [i] *)
Definition attach_to (i p : nat) (s : cstate) : cstate :=
  let s := sx_client false (sx_cur (Some p) s) in
  if x_needed s
  then
    let s := p_clear p s in
    let s := fold_left (fun s code => p_register p code (HClient code) s) (map fst (x_table s)) s in
    begin_sub i s
  else returned i s.

(** client.py:91-107: the decoder of a message code *)
Definition push_decoder (code : Z) : option (bytes -> DM unit) :=
  if code =? 12500 then Some decode_pool_status
  else if code =? 12505 then Some decode_chemistry
  else if code =? 12504 then Some decode_color_update
  else None.
(** client.py:86-89 _notify_listeners: the loop over the set object [st], which had [n]
    elements when it began and yields [order]; a set that changed its size makes the next
    step raise RuntimeError, also the step that would have ended the loop.  [react cb]: the
    unsubscribe functions [cb] calls and whether it then raises. *)
Fixpoint notify (react : nat -> list nat * bool) (code : Z) (st n : nat) (order : list nat) (s : cstate) : cstate :=
  if negb (Nat.eqb (List.length (get_set st s)) n) then sx_log (x_log s ++ [Failed ERuntime]) s
  else
    match order with
    | [] => s
    | cb :: order' =>
        let s := sx_log (x_log s ++ [Called cb code (x_data s)]) s in
        let s := fold_left (fun s r => call_closure r s) (fst (react cb)) s in
        if snd (react cb) then sx_log (x_log s ++ [Failed EValue]) s
        else notify react code st n order' s
    end.
(** client.py:101-107 _async_common_callback; a failed decoder leaves what it changed *)
Definition common_callback (react : nat -> list nat * bool) (order : list nat) (code : Z) (m : bytes) (s : cstate) : cstate :=
  let '(d, r) := match push_decoder code with Some dec => dec m (x_data s) | None => (x_data s, Ok tt) end in
  let s := sx_data d s in
  match r with
  | Err e => sx_log (x_log s ++ [Failed e]) s
  | Ok _ =>
      match tget code (x_table s) with
      | None => sx_log (x_log s ++ [Failed EType]) s          (* for callback in None *)
      | Some st => notify react code st (List.length (get_set st s)) order s
      end
  end.

(** ------------------------------------------------------------------ *)
Inductive event :=
| ESubscribe (cb : nat) (code : Z)                   (* async_subscribe_client is called *)
| EUnsubscribe (r : nat)                             (* the r-th unsubscribe function is called *)
| EDisconnect (who : option nat)                     (* async_disconnect, gateway.py:166-170, by a task or by task i inside its exchange *)
| EOpen                                              (* a connection is made *)
| EAttach (who : option nat) (p : nat)               (* a connect attaches connection p *)
| ELost (p : nat)                                    (* connection p is lost *)
| EStart (i : nat)                                   (* a created task starts *)
| ECancel (i : nat)                                  (* a created or waiting task is cancelled *)
| EResume (i : nat)                                  (* the first waiter gets the lock *)
| EAdded (i : nat) | EAddFailed (i : nat)            (* the add-client exchange of task i ends *)
| ERemoved (i : nat)                                 (* the remove-client exchange of task i ends *)
| ERegister (p : nat) (code : Z) (h : nat)           (* gateway.register_async_message_callback *)
| EUnregister (p : nat) (code : Z)                   (* gateway.remove_async_message_callback *)
| EPush (p : nat) (code : Z) (m : bytes)             (* an unsolicited message arrives on p *)
| EHandle (order : list nat) (react : nat -> list nat * bool).   (* the oldest push task runs *)

(** top of the frames of task i *)
Definition top (i : nat) (s : cstate) : option frame := match k_frames (get_task i s) with f :: _ => Some f | [] => None end.
(** run [f] in a new task, or inside the exchange of task [i] *)
Definition by_task (who : option nat) (k : call_kind) (f : nat -> cstate -> cstate) (s : cstate) : option cstate :=
  match who with
  | None => Some (f (List.length (x_tasks s)) (new_task k s))
  | Some i => match top i s with Some FAdding => Some (f i s) | _ => None end
  end.
Fixpoint nodup_b (l : list nat) : bool := match l with [] => true | x :: l' => negb (mem x l') && nodup_b l' end.
Definition perm_b (a b : list nat) : bool := Nat.eqb (List.length a) (List.length b) && nodup_b a && forallb (fun x => mem x b) a.

(** One event, if the state allows it. *)
Definition xstep (s : cstate) (e : event) : option cstate :=
  match e with
  | ESubscribe cb code => Some (subscribe cb code s)
  | EUnsubscribe r => if Nat.ltb r (List.length (x_closures s)) then Some (call_closure r s) else None
  | EDisconnect who => by_task who KUnsub (fun i s => if x_is_client s then begin_unsub i s else s) s
  | EOpen => Some (sx_protos (x_protos s ++ [mkP true [] false]) s)
  | EAttach who p => if Nat.ltb p (List.length (x_protos s)) then by_task who KAttach (fun i s => attach_to i p s) s else None
  | ELost p => if q_up (get_proto p s) then Some (upd_proto p (fun q => mkP false (q_handlers q) false) s) else None
  | EStart i => match top i s with Some FCreated => Some (begin_unsub i (pop_frame i s)) | _ => None end
  | ECancel i =>
      match top i s with
      | Some FCreated => Some (pop_frame i s)
      | Some (FWaitSub | FWaitUnsub) => Some (pop_frame i (sx_queue (filter (fun j => negb (Nat.eqb j i)) (x_queue s)) s))
      | _ => None
      end
  | EResume i =>
      match x_locked s, x_queue s with
      | false, j :: q =>
          if Nat.eqb i j
          then match top i s with
               | Some FWaitSub => Some (enter_sub i (sx_locked true (pop_frame i (sx_queue q s))))
               | Some FWaitUnsub => Some (enter_unsub i (sx_locked true (pop_frame i (sx_queue q s))))
               | _ => None
               end
          else None
      | _, _ => None
      end
  | EAdded i =>       (* client.py:194-200 *)
      match top i s with
      | Some FAdding => Some (returned i (sx_locked false (on_cur (p_keepalive true) (sx_client true (pop_frame i s)))))
      | _ => None
      end
  | EAddFailed i => match top i s with Some FAdding => Some (sx_locked false (pop_frame i s)) | _ => None end
  | ERemoved i => match top i s with Some FRemoving => Some (returned i (sx_locked false (pop_frame i s))) | _ => None end
  | ERegister p code h => Some (p_register p code (HUser h) s)
  | EUnregister p code => Some (p_unregister p code s)
  | EPush p code m =>  (* protocol.py:126-138 *)
      if q_up (get_proto p s)
      then match tget code (q_handlers (get_proto p s)) with
           | Some h => Some (sx_pushes (x_pushes s ++ [(h, m)]) s)
           | None => Some s
           end
      else None
  | EHandle order react =>
      match x_pushes s with
      | [] => None
      | (HUser _, _) :: q => Some (sx_pushes q s)
      | (HClient code, m) :: q =>
          match tget code (x_table s) with
          | Some st => if perm_b order (get_set st s) then Some (common_callback react order code m (sx_pushes q s)) else None
          | None => Some (common_callback react order code m (sx_pushes q s))
          end
      end
  end.

Fixpoint xrun (s : cstate) (es : list event) : option cstate :=
  match es with
  | [] => Some s
  | e :: es' => match xstep s e with Some s' => xrun s' es' | None => None end
  end.
