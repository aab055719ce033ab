(** Specification vocabulary, independent of the model: how integers, strings, arrays,
    frames and times look on the wire.  Used only in theorem statements. *)
From Verif Require Import Py Utf.

(** integers on the wire, byte by byte *)
Definition u8 (v : Z) : bytes := [v].
Definition u16le (v : Z) : bytes := [v mod 256; v / 256 mod 256].
Definition u32le (v : Z) : bytes :=
  [v mod 256; v / 256 mod 256; v / 65536 mod 256; v / 16777216 mod 256].
Definition u16be (v : Z) : bytes := [v / 256 mod 256; v mod 256].
Definition u32be (v : Z) : bytes :=
  [v / 16777216 mod 256; v / 65536 mod 256; v / 256 mod 256; v mod 256].
(** signed 32-bit: two's complement *)
Definition i32le (v : Z) : bytes := u32le (v mod 4294967296).

Definition is_u8 (v : Z) : Prop := 0 <= v < 256.
Definition is_u16 (v : Z) : Prop := 0 <= v < 65536.
Definition is_u32 (v : Z) : Prop := 0 <= v < 4294967296.
Definition is_i32 (v : Z) : Prop := -2147483648 <= v < 2147483648.

(** a protocol frame: little-endian id, code, payload length, payload *)
Definition frame (m : Z * Z * bytes) : bytes :=
  let '(id, code, payload) := m in u16le id ++ u16le code ++ u32le (zlen payload) ++ payload.
Definition wf_msg (m : Z * Z * bytes) : Prop :=
  let '(id, code, payload) := m in
  is_u16 id /\ is_u16 code /\ wf_bytes payload /\ zlen payload < 4294967296.

(** Unicode scalar values *)
Definition scalar (c : Z) : Prop := (0 <= c < 55296) \/ (57344 <= c < 1114112).

(** A wire string: length word (bit 31 = UTF-16), the encoded bytes, NUL padding to a
    multiple of four. *)
Definition pad4 (n : Z) : Z := (- n) mod 4.
Definition nuls (n : Z) : bytes := repeat 0 (Z.to_nat n).
Definition wire_string (utf_16 : bool) (encoded : bytes) : bytes :=
  u32le (zlen encoded + (if utf_16 then 2147483648 else 0)) ++ encoded ++ nuls (pad4 (zlen encoded)).

(** A wire array: count, the bytes, padding to a multiple of four (padding value irrelevant). *)
Definition wire_array (items padding : bytes) : bytes := u32le (zlen items) ++ items ++ padding.

(** Leading and trailing NUL characters removed. *)
Definition stripped (s t : pystr) : Prop :=
  exists a b, s = repeat 0 a ++ t ++ repeat 0 b
  /\ (t = [] \/ (hd 1 t <> 0 /\ last t 1 <> 0)).

(** A date and time on the wire: eight 16-bit words. *)
Definition wire_time (year month weekday day hour minute second millisecond : Z) : bytes :=
  u16le year ++ u16le month ++ u16le weekday ++ u16le day
  ++ u16le hour ++ u16le minute ++ u16le second ++ u16le millisecond.

(** Day of the week (0 = Monday) of a Gregorian date, Sakamoto's congruence. *)
Definition day_of_week (year month day : Z) : Z :=
  let y := if month <? 3 then year - 1 else year in
  let t := nth (Z.to_nat (month - 1)) [0; 3; 2; 5; 0; 3; 5; 1; 4; 6; 2; 4] 0 in
  (y + y / 4 - y / 100 + y / 400 + t + day + 6) mod 7.

(** Bytes that do not start with a complete frame. *)
Definition incomplete (rest : bytes) : Prop := forall m tl, wf_msg m -> rest <> frame m ++ tl.

(** A text as sent: the encoding flag (true = UTF-16) and the characters. *)
Definition wname : Type := bool * pystr.
Definition encoded (n : wname) : bytes := match encode (fst n) (snd n) with Ok e => e | Err _ => [] end.
Definition wire_name (n : wname) : bytes := wire_string (fst n) (encoded n).
Definition name_ok (n : wname) : Prop := Forall scalar (snd n) /\ zlen (encoded n) < 2147483644.
