(** Vocabulary of Prop_Bye.v. *)
From Verif Require Import Py World.

(** what closing a connection is made of, besides the wait for its futures: protocol.py:157-169 *)
Definition part_of_close (c : nat) (e : ev) : Prop :=
  match e with CloseTransport c' | AwaitClosed c' | Lost c' => c' = c | Callback _ | Got _ => True | _ => False end.
(** [t] is the beginning of closing [c] *)
Definition closes (c : nat) (force : bool) (t : trace) : Prop := exists t', t = AwaitFutures c force :: t' /\ Forall (part_of_close c) t'.
(** no wait is going on after [t] *)
Definition answered_all (t : trace) : Prop := t = [] \/ exists t' r, t = t' ++ [Got r].
