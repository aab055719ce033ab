(** Vocabulary of Prop_Keep.v. *)
From Verif Require Import Py World.

(** at most one message, [(X, p)] on [c], one wait for its answer, at most one end of that wait.
    (A connection whose transport is closing takes the message without writing it.) *)
Definition asked_once (c : nat) (X : Z) (p : bytes) (t : trace) : Prop :=
  t = [] \/ exists s, (s = [] \/ s = [Send c X p]) /\ (t = s ++ [AwaitReply c 2000] \/ exists r, t = s ++ [AwaitReply c 2000; Got r]).
