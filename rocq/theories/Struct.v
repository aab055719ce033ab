(** The fragment of Python's [struct] module the code uses (standard sizes, no
    alignment: every format string starts with "<" or ">"). *)
From Verif Require Import Py.

Fixpoint le_enc (n : nat) (v : Z) : bytes :=
  match n with O => [] | S n' => (v mod 256) :: le_enc n' (v / 256) end.
Fixpoint le_dec (b : bytes) : Z :=
  match b with [] => 0 | x :: r => x + 256 * le_dec r end.

Definition be_enc (n : nat) (v : Z) : bytes := rev (le_enc n v).
Definition be_dec (b : bytes) : Z := le_dec (rev b).

(** two's complement reading of an unsigned 32-bit value *)
Definition to_signed32 (z : Z) : Z := if z <? 2 ^ 31 then z else z - 2 ^ 32.

(** The single-value formats passed to getSome: "B", "H", "I", "i", ">H", ">I". *)
Inductive fmt := FB | FH | FI | Fi | FbH | FbI.

Definition fsize (f : fmt) : Z :=
  match f with FB => 1 | FH | FbH => 2 | FI | Fi | FbI => 4 end.

Definition funpack (f : fmt) (b : bytes) : Z :=
  match f with
  | FB | FH | FI => le_dec b
  | Fi => to_signed32 (le_dec b)
  | FbH | FbI => be_dec b
  end.

Definition slice (off n : Z) (b : bytes) : bytes :=
  firstn (Z.to_nat n) (skipn (Z.to_nat off) b).

(** struct.unpack_from(fmt, buff, off): struct.error unless the field is inside.
    Offsets in the code are never negative (Python would count those from the end; here
    they are refused). *)
Definition unpack_from (f : fmt) (b : bytes) (off : Z) : res Z :=
  if (0 <=? off) && (off + fsize f <=? zlen b) then Ok (funpack f (slice off (fsize f) b)) else Err EStruct.

(** struct.unpack_from("<{n}s", buff, off); a negative n makes the format invalid. *)
Definition unpack_bytes_from (n : Z) (b : bytes) (off : Z) : res bytes :=
  if (0 <=? off) && (0 <=? n) && (off + n <=? zlen b) then Ok (slice off n b) else Err EStruct.

(** struct.pack of one unsigned field of n bytes: struct.error when out of range. *)
Definition pack_u (n : nat) (v : Z) : res bytes :=
  if (0 <=? v) && (v <? 256 ^ Z.of_nat n) then Ok (le_enc n v) else Err EStruct.

(** struct.pack("<I", v) for an arbitrary Python value: non-integers are struct.error. *)
Definition pack_I (v : pv) : res bytes :=
  match v with VInt z => pack_u 4 z | _ => Err EStruct end.

Fixpoint pack_Is (l : list pv) : res bytes :=
  match l with
  | [] => Ok []
  | v :: l' => rbind (pack_I v) (fun a => rbind (pack_Is l') (fun b => Ok (a ++ b)))
  end.

(** "{n}s" packing: truncated or NUL-padded to n bytes. *)
Definition pack_s (n : Z) (b : bytes) : bytes :=
  firstn (Z.to_nat n) (b ++ repeat 0 (Z.to_nat n - List.length b)).
