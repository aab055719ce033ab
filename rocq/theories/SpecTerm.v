(** Vocabulary of Prop_Term.v: schedules that never end. *)
From Verif Require Import Py F64 World Gateway Api Tasks Pool.

(** [E k] is the event at time [k]; the pool at time [k], from [P] on *)
Fixpoint later (n : nat) (P : pool) (E : nat -> event) (k : nat) : pool :=
  match k with O => P | S k' => pstep n (later n P E k') (E k') end.

(** how many connections were opened, and whether the registration lock (client.py:30) is held *)
Definition opens (P : pool) : nat := List.length (w_conns (p_world P)).
Definition held (P : pool) : Prop := m_locked (w_cm (p_world P)) = true.

(** the call has returned or raised an error *)
Definition finished (t : task unit) : Prop := exists r, t = Done (Val r) \/ exists e, t = Done (Exc e).
(** the call waits for the lock *)
Definition queued (t : task unit) : Prop := exists m x, t = Lock m x.

(** No wait lasts for ever: a reply or a timeout, the end of a pause, an opened or a refused
    connection, the end of a closing one. *)
Definition waits_end (n : nat) (P : pool) (E : nat -> event) : Prop :=
  forall k i e f, nth_error (p_tasks (later n P E k)) i = Some (Wait e f) ->
    exists j r clk, (k <= j)%nat /\ E j = Resume i r clk /\ fits e r = true.
(** A call that waits for the lock gets it or is cancelled, unless the lock is taken again and again. *)
Definition lock_fair (n : nat) (P : pool) (E : nat -> event) : Prop :=
  forall k i m x, nth_error (p_tasks (later n P E k)) i = Some (Lock m x) ->
    exists j, (k <= j)%nat /\ (held (later n P E j) \/ E j = Enter i \/ exists clk, E j = Resume i KCancelTask clk).

(** From some time on nobody is cancelled while he waits for the lock. *)
Definition cancels_end (n : nat) (P : pool) (E : nat -> event) : Prop :=
  exists K, forall k i clk, (K <= k)%nat -> E k = Resume i KCancelTask clk -> forall m x, nth_error (p_tasks (later n P E k)) i <> Some (Lock m x).

(** how many connections a call opened, read off what it did *)
Fixpoint completed (t : trace) : nat :=
  match t with
  | [] => 0
  | Open _ _ _ :: t' => match t' with Got r :: _ => match r_kind r with KDone => S (completed t') | _ => completed t' end | _ => completed t' end
  | _ :: t' => completed t'
  end.
(** The lock goes to everyone who waits for it (asyncio.Lock is first come, first served), unless he
    is cancelled, or it is never released again. *)
Definition lock_served (n : nat) (P : pool) (E : nat -> event) : Prop :=
  forall k i m x, nth_error (p_tasks (later n P E k)) i = Some (Lock m x) ->
    (exists j, (k <= j)%nat /\ (E j = Enter i /\ ~ held (later n P E j) \/ exists clk, E j = Resume i KCancelTask clk)) \/ 
    (exists K, forall j, (K <= j)%nat -> held (later n P E j) /\ forall clk, E j <> Resume i KCancelTask clk).
