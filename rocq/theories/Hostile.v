(** An adapter that never lets a connect finish: it accepts each connection, answers the
    challenge, the login and the version request, and drops the connection while the
    configuration is requested.  Used by the refutation of C63. *)
From Verif Require Import Py F64 Struct Utf Utility Const Spec Decode World Request Gateway.

Definition clock0 : spec_float := S754_zero false.
Definition says_then (k : kind) (lost : list nat) : resp := mkResp k lost None clock0.
(** "POOL: 5.2 Build 736.0 Rel" *)
Definition version_reply : bytes := u32le 25 ++ u "POOL: 5.2 Build 736.0 Rel" ++ [0; 0; 0].
Definition mac_reply : bytes := u32le 4 ++ u "mac!".
(** float("5.2") and float("736.0"), at least for this host *)
Definition its_host : host := mkHost (fun s => if zlen s =? 3 then Some (f_of_Z 5) else Some (f_of_Z 736)) (fun _ => 0).
(** one round with connection [c] *)
Definition round_of (c : nat) : list resp :=
  [says_then KDone []; says_then KDone []; says_then (KReply 15 mac_reply) []; says_then (KReply 28 []) [];
   says_then (KReply 8121 version_reply) []; says_then KCancelFut [c]; says_then KDone []; says_then KDone []].
(** [k] rounds, the first with connection [c] *)
Fixpoint rounds (k c : nat) : list resp :=
  match k with O => [] | S k' => round_of c ++ rounds k' (S c) end.
(** a new gateway and the argument of its first async_connect *)
Definition fresh_gateway (env : list resp) : res world := new_gateway (Some 777) None 0 env its_host.
Definition to_adapter : connect_args := mkArgs (Some (u "10.0.0.9")) None None None None None.
