(** The keepalive ping of a registered client. *)
From Verif Require Import Py World Request.
Open Scope m_scope.

(** client.py:152-163 ClientManager._async_ping on the protocol [c]: errors are only logged; the
    value returned by async_request_ping (ping.py:7-13) is always None and ignored. *)
Definition async_ping (c : nat) : M unit :=
  mcatch (request_ping 0 c) is_comm_error (fun _ => mret tt).
