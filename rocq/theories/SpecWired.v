(** Vocabulary of Prop_Wired.v: a subscription on the wire. *)
From Verif Require Import Py World Gateway Api Tasks Pool SpecPool Net SpecNet.

(** the user has not put a handler of his own for [code], nor taken one off *)
Definition unmeddled (code : Z) (es : list nevent) : Prop :=
  (forall h, ~ In (NCall (RegisterHandler code h)) es) /\ ~ In (NCall (RemoveHandler code)) es.
(** [cb] has been subscribed to [code], by a call made on a live connection, and the function
    that ends the subscription has not been called since *)
Definition tuned_in n id mr rnd h (es : list nevent) (cb : nat) (code : Z) : Prop :=
  exists e1 e2 N1, es = e1 ++ NCall (Subscribe cb code) :: e2 /\ on_wire n id mr rnd h e1 = Some N1 /\
    attached (p_world (n_pool N1)) = true /\ ~ In (NCall (Unsubscribe cb code)) e2.
(** the messages of one code *)
Definition of_code (code : Z) (l : list (Z * bytes)) : list (Z * bytes) := filter (fun m => Z.eqb (fst m) code) l.
(** messages of connection [c] *)
Definition on_conn (c : nat) (l : list (Z * bytes)) : list (nat * Z * bytes) := map (fun m => (c, fst m, snd m)) l.
(** how many tasks made for handlers ran *)
Definition handled_n (es : list nevent) : nat := List.length (filter (fun e => match e with NHandle => true | _ => false end) es).
