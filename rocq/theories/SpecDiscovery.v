(** Specification vocabulary for discovery: the format of a discovery response, independent of
    the model of discovery.py. *)
From Verif Require Import Py Utf Spec SpecParse.

(** [decimal s z]: [s] is the usual decimal spelling of [z], without leading zeros. *)
Definition decimal (s : pystr) (z : Z) : Prop :=
  numeral s z /\ (hd 0 s = 48 -> s = [48]).

(** [dotted s a b c d]: [s] is the IPv4 address a.b.c.d *)
Definition dotted (s : pystr) (a b c d : Z) : Prop :=
  exists sa sb sc sd, decimal sa a /\ decimal sb b /\ decimal sc c /\ decimal sd d
    /\ s = sa ++ 46 :: sb ++ 46 :: sc ++ 46 :: sd.

(** What an adapter announces. *)
Record announcement := { an_ip : Z * Z * Z * Z; an_port : Z; an_type : Z; an_subtype : Z; an_name : pystr }.
Definition announces (a : announcement) : Prop :=
  let '(x, y, z, t) := an_ip a in
  is_byte x /\ is_byte y /\ is_byte z /\ is_byte t /\ is_u16 (an_port a) /\ is_byte (an_type a)
  /\ is_byte (an_subtype a) /\ Forall scalar (an_name a).

(** The datagram that carries it: the word 2, the address, the port, type, subtype, then the name
    in UTF-8 up to the end of the datagram. *)
Definition datagram (a : announcement) (b : bytes) : Prop :=
  let '(x, y, z, t) := an_ip a in
  exists n, utf8_encode (an_name a) = Ok n
    /\ b = u32le 2 ++ [x; y; z; t] ++ u16le (an_port a) ++ [an_type a; an_subtype a] ++ n.

(** The host entry that describes it. *)
Definition describes (h : dict) (a : announcement) : Prop :=
  let '(x, y, z, t) := an_ip a in
  exists ip name, dotted ip x y z t /\ stripped (an_name a) name
    /\ h = [(KS "ip", VStr ip); (KS "port", VInt (an_port a)); (KS "gtype", VInt (an_type a));
            (KS "gsubtype", VInt (an_subtype a)); (KS "name", VStr name)].

(** [b] is a discovery response *)
Definition valid_datagram (b : bytes) : Prop := exists a, announces a /\ datagram a b.

(** [found bs hs]: [hs] describes the discovery responses among [bs], in order *)
Inductive found : list bytes -> list dict -> Prop :=
| found_nil : found [] []
| found_valid a b h bs hs : announces a -> datagram a b -> describes h a -> found bs hs -> found (b :: bs) (h :: hs)
| found_other b bs hs : ~ valid_datagram b -> found bs hs -> found (b :: bs) hs.
