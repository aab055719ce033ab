(** Vocabulary of Prop_Hand.v: a subscription nobody interferes with. *)
From Verif Require Import Py World Gateway Api Tasks Pool SpecPool.

(** the user has not put a handler of his own for [code], nor taken one off *)
Definition undisturbed (code : Z) (es : list event) : Prop :=
  (forall h, ~ In (Pool.Call (RegisterHandler code h)) es) /\ ~ In (Pool.Call (RemoveHandler code)) es.
(** a remove-client message was sent on [c] *)
Definition signed_off (c : nat) (g : log) : Prop := exists i p, In (By i (Send c 12524 p)) g.
(** the client id: the one given to the gateway, or the random one *)
Definition valid_id (id : option Z) (rnd : Z) : Prop := match id with Some i => 0 <= i < 4294967296 | None => 0 <= rnd < 4294967296 end.
(** the client manager works on [c], which is up and not being closed *)
Definition works_on (c : nat) (w : world) : Prop := m_proto (w_cm w) = Some c /\ connected c w = true /\ c_closing (get_conn c w) = false.
