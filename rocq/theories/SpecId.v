(** What it means that two runs differ in the client id only, for Prop_Id.v. *)
From Verif Require Import Py Struct World Traces.

(** what the adapter is told when a client subscribes (12522) or unsubscribes (12524) under the id [a] *)
Definition introduction (a : Z) : bytes := le_enc 4 0 ++ le_enc 4 a.
(** the same effect, of a client with id [b] instead of [a] *)
Definition renamed (a b : Z) (e e' : ev) : Prop :=
  match e with
  | Send c X p => if (X =? 12522) || (X =? 12524) then (p = introduction a /\ e' = Send c X (introduction b)) \/ e' = e else e' = e
  | _ => e' = e
  end.
(** [w] under another client id *)
Definition with_id (b : Z) (w : world) : world :=
  set_cm (mkCM (m_proto (w_cm w)) (m_listeners (w_cm w)) (m_is_client (w_cm w)) (m_retries (w_cm w)) b (m_locked (w_cm w))) w.
