(** Vocabulary of Prop_Own.v: the handlers the user registers for messages himself. *)
From Verif Require Import Py World Gateway Api Tasks Pool SpecPool Net SpecNet.

(** the runs of the user's handlers for messages of connection [c], in order: which one, and for what *)
Definition ran_own (c : nat) (g : list line) : list (nat * (Z * bytes)) :=
  flat_map (fun x => match x with Own c' u code b => if Nat.eqb c' c then [(u, (code, b))] else [] | _ => [] end) g.
(** ... those for messages of one code *)
Definition ran_for (code : Z) (l : list (nat * (Z * bytes))) : list (nat * (Z * bytes)) := filter (fun x => Z.eqb (fst (snd x)) code) l.
(** the user's handler for a message, if there is one: protocol.py:136-141 *)
Definition own_handler (c : nat) (w : world) (m : Z * bytes) : list (nat * (Z * bytes)) :=
  match handler_of c (fst m) w with Some (HUser u) => [(u, m)] | _ => [] end.
(** the user registered [u] for [code] on connection [c], and has neither registered another one nor taken it off *)
Definition registered n id mr rnd h (es : list nevent) (c u : nat) (code : Z) : Prop :=
  exists e1 e2 N1, es = e1 ++ NCall (RegisterHandler code u) :: e2 /\ on_wire n id mr rnd h e1 = Some N1 /\ w_proto (p_world (n_pool N1)) = Some c /\
    (forall v, ~ In (NCall (RegisterHandler code v)) e2) /\ ~ In (NCall (RemoveHandler code)) e2.
(** nobody subscribes (client.py:109) *)
Definition no_subscriptions (es : list nevent) : Prop := forall cb code, ~ In (NCall (Subscribe cb code)) es.
