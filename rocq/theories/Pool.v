(** Several calls of one gateway at the same time: the event loop over the tasks of Tasks.v.

    asyncio runs one task until it awaits something that is not ready; then it may run any
    other task whose wait has ended.  A schedule is a list of [event]s: a user makes a call, the
    wait of a task ends, a task that waits for the lock gets it or is cancelled, a connection is
    lost, the adapter pushes a message.  Nothing is assumed about their order or about what the adapter
    answers.  Simplifications: the lock goes to any waiter (asyncio serves them in order; the
    theorems hold for every order); replies are given to the waiting task directly (message ids
    and futures: Protocol.v), so a forced close does not itself cancel the futures of other
    tasks - the schedule may do so or not; of the pushed messages only those with the client
    manager's own handler are modelled. A message makes a task for its handler (protocol.py:139);
    these tasks run in the order in which they were made, each to its end at once (they await
    nothing), at any later moment. The callbacks of subscribers return normally and do not
    subscribe or unsubscribe anybody (those that do: Client.v); the order in which the callbacks
    of one code are called (a Python set) is that of the list. *)
From Verif Require Import Py F64 Struct Utf Utility Const Enum Decode World Request Gateway Api Tasks.
From Verif Require Client.

(** run a task until it waits or ends *)
Fixpoint advance {A} (m : task A) (w : world) : trace * world * task A :=
  match m with
  | Done o => ([], w, Done o)
  | Look k => advance (k w) w
  | Do f k => let '(t1, w1) := f w in let '(t2, w2, m2) := advance k w1 in (t1 ++ t2, w2, m2)
  | Wait e k => ([e], w, Wait e k)
  | Lock k x => if m_locked (w_cm w) then ([], w, Lock k x) else advance k (put_cm (cmset_locked true) w)
  end.

(** the ends a wait can have *)
Definition fits (e : ev) (k : kind) : bool :=
  match e, k with
  | AwaitReply _ _, (KReply _ _ | KTimeout | KTimeoutReply _ _ | KCancelFut | KCancelTask) => true
  | Open _ _ _, (KDone | KTimeout | KOSError | KCancelTask) => true
  | (Sleep _ | AwaitFutures _ _ | AwaitClosed _), (KDone | KCancelTask) => true
  | _, _ => false
  end.
(** a connection that opened is there when its task resumes: login.py:46-51 *)
Definition opened_by (e : ev) (k : kind) (w : world) : world :=
  match e, k with Open _ _ _, KDone => set_conns (w_conns w ++ [new_conn]) w | _, _ => w end.

(** What happened, in order. *)
Inductive entry :=
| Started (i : nat) (c : api_call) (d : dict)   (* task i: the call c, made when get_data() was d *)
| By (i : nat) (e : ev)                         (* task i did e, or its wait ended ([Got]) *)
| Env (e : ev)                                  (* a connection was lost and its callback ran *)
| Pushed (c : nat) (code : Z) (b : bytes)       (* an unsolicited message for the client manager came: protocol.py:135-139 *)
| Applied (c : nat) (code : Z) (b : bytes) (cbs : list nat). (* its task ran and called these callbacks *)
Definition log := list entry.

(** the messages whose task has not run yet, oldest first *)
Definition arrived (g : log) : list (nat * Z * bytes) := flat_map (fun x => match x with Pushed c code b => [(c, code, b)] | _ => [] end) g.
Definition applied (g : log) : list (nat * Z * bytes) := flat_map (fun x => match x with Applied c code b _ => [(c, code, b)] | _ => [] end) g.
Definition due (g : log) : list (nat * Z * bytes) := skipn (List.length (applied g)) (arrived g).

Record pool := mkPool { p_world : world; p_tasks : list (task unit); p_log : log }.
Definition start (w : world) : pool := mkPool w [] [].

Inductive event :=
| Call (c : api_call)
| Resume (i : nat) (k : kind) (clock : spec_float)
| Enter (i : nat)
| Lose (c : nat)
| Push (c : nat) (code : Z) (b : bytes)
| Handle.

(** protocol.py:108-139: a message without a waiting request goes to the handler of its code,
    unless the connection is being closed *)
Definition handler_of (c : nat) (code : Z) (w : world) : option handler :=
  let k := get_conn c w in
  if c_connected k && negb (c_closing k)
  then option_map snd (find (fun h => fst h =? code) (c_handlers k)) else None.

(** client.py:91-107, the client manager's handler: what it does to the data and what it raises *)
Definition handled (code : Z) (b : bytes) (d : dict) : dict * res unit :=
  match Client.push_decoder code with Some dec => dec b d | None => (d, Ok tt) end.
(** client.py:86-89: the callbacks of a code *)
Definition listeners_of (code : Z) (w : world) : list nat :=
  match find (fun x => fst x =? code) (m_listeners (w_cm w)) with Some x => snd x | None => [] end.

Definition pstep (n : nat) (p : pool) (e : event) : pool :=
  let w := p_world p in
  let ran i (x : trace * world * task unit) head := let '(t, w', m) := x in mkPool w' (lset i m (p_tasks p)) (p_log p ++ head ++ map (By i) t) in
  match e with
  | Call c =>
      let i := List.length (p_tasks p) in
      let '(t, w', m) := advance (tperform n c) w in
      mkPool w' (p_tasks p ++ [m]) (p_log p ++ Started i c (w_data w) :: map (By i) t)
  | Resume i k clock =>
      match nth_error (p_tasks p) i with
      | Some (Wait e f) =>
          if fits e k
          then ran i (advance (f k) (set_clock clock (opened_by e k w))) [By i (Got (mkResp k [] None clock))]
          else p
      | Some (Lock _ x) =>
          match k with
          | KCancelTask => ran i (advance x (set_clock clock w)) [By i (Got (mkResp k [] None clock))]
          | _ => p
          end
      | _ => p
      end
  | Enter i =>
      match nth_error (p_tasks p) i with
      | Some (Lock m x) => ran i (advance (Lock m x) w) []
      | _ => p
      end
  | Lose c => let '(t, w') := lose c w in mkPool w' (p_tasks p) (p_log p ++ map Env t)
  | Push c code b =>
      match handler_of c code w with
      | Some (HClient _) => mkPool w (p_tasks p) (p_log p ++ [Pushed c code b])
      | _ => p
      end
  | Handle =>
      match due (p_log p) with
      | (c, code, b) :: _ =>
          let '(d, r) := handled code b (w_data w) in
          mkPool (set_data d w) (p_tasks p) (p_log p ++ [Applied c code b (match r with Ok _ => listeners_of code w | Err _ => [] end)])
      | [] => p
      end
  end.
(** the two cases of [Handle] *)
Lemma pstep_handle n w ts g :
  pstep n (mkPool w ts g) Handle = mkPool w ts g \/
  exists c code b l cbs, due g = (c, code, b) :: l /\
    cbs = (match snd (handled code b (w_data w)) with Ok _ => listeners_of code w | Err _ => [] end) /\
    pstep n (mkPool w ts g) Handle = mkPool (set_data (fst (handled code b (w_data w))) w) ts (g ++ [Applied c code b cbs]).
Proof.
  cbn [pstep p_log p_world p_tasks]. destruct (due g) as [|[[c code] b] l]; [left; reflexivity|right].
  exists c, code, b, l. eexists. split; [reflexivity|]. split; [reflexivity|]. destruct (handled code b (w_data w)) as [d [r|e]]; reflexivity.
Qed.
Lemma pstep_handle_at n p : pstep n p Handle = p \/
  exists c code b l cbs, due (p_log p) = (c, code, b) :: l /\
    cbs = (match snd (handled code b (w_data (p_world p))) with Ok _ => listeners_of code (p_world p) | Err _ => [] end) /\
    pstep n p Handle = mkPool (set_data (fst (handled code b (w_data (p_world p)))) (p_world p)) (p_tasks p) (p_log p ++ [Applied c code b cbs]).
Proof. destruct p as [w ts g]. apply pstep_handle. Qed.
Definition prun (n : nat) (p : pool) (es : list event) : pool := fold_left (pstep n) es p.
