(** Vocabulary of Prop_Told.v: who is subscribed to what, and which pushed messages came. *)
From Verif Require Import Py World Gateway Api Tasks Pool SpecPool Prop_Pool.

(** the messages that were handed to the client manager, and those it has dealt with, in order *)
Definition came_in (g : log) : list (nat * Z * bytes) := flat_map (fun x => match x with Pushed c code b => [(c, code, b)] | _ => [] end) g.
Definition dealt_with (g : log) : list (nat * Z * bytes) := flat_map (fun x => match x with Applied c code b _ => [(c, code, b)] | _ => [] end) g.
(** ... those of one connection *)
Definition of_conn (c : nat) (l : list (nat * Z * bytes)) : list (Z * bytes) :=
  flat_map (fun x => if Nat.eqb (fst (fst x)) c then [(snd (fst x), snd x)] else []) l.
Definition handles (es : list event) : nat := List.length (filter (fun e => match e with Handle => true | _ => false end) es).

(** [cb] has been subscribed to [code], by a call made on a live connection, and the function
    that ends the subscription has not been called since *)
Definition listening n id mr rnd h (es : list event) (cb : nat) (code : Z) : Prop :=
  exists e1 e2 P1, es = e1 ++ Pool.Call (Subscribe cb code) :: e2 /\ ran n id mr rnd h e1 = Some P1 /\
    attached (p_world P1) = true /\ ~ In (Pool.Call (Unsubscribe cb code)) e2.
(** the message cannot be decoded *)
Definition unreadable (code : Z) (b : bytes) (d : dict) : Prop :=
  exists x e, pushes code b x /\ snd (Calls.run_decoder x d) = Err e.
