(** Vocabulary of Prop_Answer.v. *)
From Verif Require Import Py Utility World Net SpecNet.
From Verif Require Protocol.

(** the first of the messages taken from a connection that carries the id [id] *)
Definition first_with (id : Z) (l : list (option nat * message)) : option message :=
  option_map snd (find (fun x => Protocol.msg_id (snd x) =? id) l).
