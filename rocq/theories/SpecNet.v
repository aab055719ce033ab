(** Vocabulary of Prop_Net.v: what can be read off the log of a run of Net.v. *)
From Verif Require Import Py F64 Struct Utf Utility Const Spec World Api Pool SpecPool Net.
From Verif Require Protocol P_Proto1.

Definition frames := P_Proto1.frames.   (* the concatenation of the frames (Spec.v) of messages *)

(** what the calls did, without the wire *)
Definition apis (g : list line) : Pool.log := flat_map (fun x => match x with Api y => [y] | _ => [] end) g.
(** the bytes that arrived on connection [c] and were looked at *)
Definition came (c : nat) (g : list line) : bytes :=
  flat_map (fun x => match x with Came c' b => if Nat.eqb c' c then b else [] | _ => [] end) g.
(** what the protocol object of connection [c] did *)
Definition wires (c : nat) (g : list line) : list Protocol.pout :=
  flat_map (fun x => match x with Wire c' o => if Nat.eqb c' c then [o] else [] | _ => [] end) g.
(** the messages taken from connection [c], in order, each with the request it was the answer to *)
Definition taken (c : nat) (g : list line) : list (option nat * message) :=
  flat_map (fun o => match o with
                     | Protocol.OutCompleted f m => [(Some f, m)]
                     | Protocol.OutHandler _ m | Protocol.OutDropped m => [(None, m)]
                     | _ => []
                     end) (wires c g).
(** the frames written to connection [c], in order *)
Definition written (c : nat) (g : list line) : list bytes :=
  flat_map (fun o => match o with Protocol.OutWrite b => [b] | _ => [] end) (wires c g).
(** the messages the calls sent on connection [c], in order *)
Definition sent (c : nat) (g : list line) : list (Z * bytes) :=
  flat_map (fun x => match x with By _ (Send c' X p) => if Nat.eqb c' c then [(X, p)] else [] | _ => [] end) (apis g).
(** the j-th message of a connection has the id j mod 32767 *)
Fixpoint numbered (j : nat) (l : list (Z * bytes)) : list bytes :=
  match l with [] => [] | (X, p) :: l' => frame (Z.of_nat j mod 32767, X, p) :: numbered (S j) l' end.

(** the bytes that came on [c] spell the messages taken from [c], and at most a part of another one *)
Definition heard (c : nat) (g : list line) : Prop :=
  exists rest, came c g = frames (map snd (taken c g)) ++ rest /\ Forall wf_msg (map snd (taken c g)) /\ incomplete rest.

(** Task [i] got (code, b) as the answer to its latest message: it had handed the message (X, p)
    to connection [c], which wrote it at once as a frame with some id, as request [f] of the
    connection; then it only waited; and message number [k] that came on [c], one that was not
    complete when the frame was written, has that id and is (code, b). *)
Definition exchange (g : list line) (i : nat) (code : Z) (b : bytes) (c k : nat) : Prop :=
  exists ga X p id f gb,
    g = ga ++ Api (By i (Send c X p)) :: Wire c (Protocol.OutRequest f id X p)
           :: Wire c (Protocol.OutWrite (frame (id, X, p))) :: gb /\
    own i (apis gb) = [AwaitReply c 2000] /\
    0 <= id <= 32766 /\
    heard c ga /\ heard c g /\
    (List.length (taken c ga) <= k)%nat /\
    nth_error (taken c g) k = Some (Some f, (id, code, b)).

(** A gateway in touch with the network: the calls, the deliveries and the disturbances [es]
    happen one after the other; what arrives is bytes. *)
Definition on_wire (n : nat) (id mr : option Z) (rnd : Z) (h : host) (es : list nevent) : option net :=
  match Gateway.new_gateway id mr rnd [] h with Ok w => Some (nrun n (nstart w) es) | Err _ => None end.
Definition octets (es : list nevent) : Prop := forall c b, In (NData c b) es -> wf_bytes b.

(** the connection [c] was lost: the transport said so, or the gateway closed it *)
Definition conn_lost (c : nat) (g : list line) : Prop :=
  In (Env (Lost c)) (apis g) \/ exists j, In (By j (Lost c)) (apis g).

(** the messages taken from [c] that answered no request, as (code, data) *)
Definition unasked (c : nat) (g : list line) : list (Z * bytes) :=
  flat_map (fun x => match x with (None, m) => [(Protocol.msg_code m, Protocol.msg_data m)] | _ => [] end) (taken c g).
(** the messages of [c] that were handed to the client manager without being asked for *)
Definition pushed (c : nat) (g : list line) : list (Z * bytes) :=
  flat_map (fun x => match x with Pushed c' code b => if Nat.eqb c' c then [(code, b)] else [] | _ => [] end) (apis g).
(** a list without some of its elements *)
Inductive some_of {X} : list X -> list X -> Prop :=
| some_nil l : some_of [] l
| some_skip x l l' : some_of l l' -> some_of l (x :: l')
| some_take x l l' : some_of l l' -> some_of (x :: l) (x :: l').
(** a user subscribed to the code of the message on [c], which is connected and is not being
    closed: protocol.py:135-139 *)
Definition subscribed (c : nat) (w : world) (m : Z * bytes) : bool :=
  match handler_of c (fst m) w with
  | Some (HClient _) => true
  | _ => false
  end.

(** what is written to connection [c] *)
Definition bytes_out (c : nat) (g : list line) : bytes :=
  flat_map (fun x => match x with
                     | Api (By _ (Raw c' b)) | Wire c' (Protocol.OutWrite b) => if Nat.eqb c' c then b else []
                     | _ => []
                     end) g.
(** CONNECTSERVERHOST, CR LF CR LF *)
Definition GREETING : bytes := [67; 79; 78; 78; 69; 67; 84; 83; 69; 82; 86; 69; 82; 72; 79; 83; 84; 13; 10; 13; 10].
