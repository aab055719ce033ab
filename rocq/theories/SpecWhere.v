(** Vocabulary of Prop_Where.v. *)
From Verif Require Import Py Utf World Gateway Pool.

(** gateway.ip, .port, .name and the type and subtype: gateway.py:67-81, 132-136 *)
Definition place (w : world) : option pystr * Z * Z * Z * pystr :=
  let a := w_addr w in (a_ip a, a_port a, a_type a, a_subtype a, a_name a).
(** what async_connect makes of them: an argument that is not None replaces what was there *)
Definition moved (x : connect_args) (p : option pystr * Z * Z * Z * pystr) : option pystr * Z * Z * Z * pystr :=
  let '(ip, port, ty, sub, name) := p in
  (match x_ip x with Some a => Some a | None => ip end, match x_port x with Some a => a | None => port end,
   match x_type x with Some a => a | None => ty end, match x_subtype x with Some a => a | None => sub end,
   match x_name x with Some a => a | None => name end).
(** a connection is opened to the address the gateway has *)
Definition dialled (w : world) (ip : option pystr) (port : Z) : Prop :=
  ip = a_ip (w_addr w) /\ port = a_port (w_addr w) /\ ip <> None /\ ip <> Some [].
