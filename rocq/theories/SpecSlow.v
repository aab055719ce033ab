(** What it means that the answers of a call come late, for Prop_Slow.v. *)
From Verif Require Import Py World Traces.

(** nothing else happened before the wait ended: no connection was lost and no data came *)
Definition quiet (r : resp) : Prop := r_lost r = [] /\ r_data r = None.
(** a try that comes to nothing for a message with code [X]: it timed out, or the answer was a
    refusal, or to some other message; 13 is "login rejected" *)
Definition futile (X : Z) (r : resp) : Prop :=
  quiet r /\ (r_kind r = KTimeout \/ exists c b, answer_of r = Some (c, b) /\ c <> X + 1 /\ c <> 13).
(** a pause that passes *)
Definition passes (p : resp) : Prop := quiet p /\ r_kind p = KDone.

(** The answer [r] to the message with code [X] and payload [b] on connection [c] comes to the
    [j]th try or a later one, at most [n] tries having come to nothing before: [l] is what the
    waits bring, [t] what is done. *)
Inductive late (n : Z) (c : nat) (X : Z) (b : bytes) (r : resp) : Z -> list resp -> trace -> Prop :=
| late_now j : late n c X b r j [r] [Send c X b; AwaitReply c 2000; Got r]
| late_more j q p l t : j <= n -> futile X q -> passes p -> late n c X b r (j + 1) l t ->
    late n c X b r j (q :: p :: l) (Send c X b :: AwaitReply c 2000 :: Got q :: Sleep (1000 * j) :: Got p :: t).

(** waits for something else than an answer *)
Definition waits_else (e : ev) : Prop :=
  match e with Open _ _ _ | AwaitFutures _ _ | AwaitClosed _ | Sleep _ => True | _ => False end.
(** effects that are neither messages nor waits *)
Definition at_once (e : ev) : Prop :=
  match e with Raw _ _ | CloseTransport _ | Lost _ | Callback _ => True | _ => False end.

(** In [t] every message is answered at once. [t'] is the same with some answers late, those to
    messages with code [X] by at most [n X] tries, and [e] is what its waits bring. *)
Inductive slower (n : Z -> Z) : trace -> list resp -> trace -> Prop :=
| slower_end : slower n [] [] []
| slower_ask c X b r a t e t' l s : answer_of r = Some (X + 1, a) -> late (n X) c X b r 1 l s -> slower n t e t' ->
    slower n (Send c X b :: AwaitReply c 2000 :: Got r :: t) (l ++ e) (s ++ t')
| slower_wait w r t e t' : waits_else w -> slower n t e t' -> slower n (w :: Got r :: t) (r :: e) (w :: Got r :: t')
| slower_else x t e t' : at_once x -> slower n t e t' -> slower n (x :: t) e (x :: t').

(** how many tries of a message may fail: the retry setting; the message that takes the client
    off the adapter's list (12524) and the ping (16) are sent once *)
Definition spare (w : world) (X : Z) : Z := if (X =? 12524) || (X =? 16) then 0 else w_retries w.

(** [w] with [k] as the retry setting and [j] as the client manager's copy of it (client.py:76) *)
Definition limits (k j : Z) (w : world) : world := set_cm (cmset_retries j (w_cm w)) (set_retries k w).
