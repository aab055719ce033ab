(** binary64 arithmetic of Python floats, on Coq's axiom-free [SpecFloat]
    (IEEE-754 round-to-nearest-even).  Models the [float] operations used in
    requests/status.py, requests/chemistry.py, gateway.py, const/common.py. *)
From Verif Require Import Py.

Definition fprec : Z := 53.
Definition femax : Z := 1024.

(** float(z): correctly rounded. *)
Definition f_of_Z (z : Z) : spec_float := binary_normalize fprec femax z 0 false.

Definition fdiv (a b : spec_float) : spec_float := SFdiv fprec femax a b.
Definition fmul (a b : spec_float) : spec_float := SFmul fprec femax a b.

(** An integer as an unrounded [spec_float] (mantissa of any size). *)
Definition f_exact (z : Z) : spec_float :=
  match z with
  | Z0 => S754_zero false
  | Zpos p => S754_finite false p 0
  | Zneg p => S754_finite true p 0
  end.

(** int / int (true division): the correctly rounded quotient of the exact integers
    ([SFdiv] divides mantissas of any size and rounds once). *)
Definition zdivf (a b : Z) : spec_float := fdiv (f_exact a) (f_exact b).

(** int(f): truncation toward zero; ValueError on nan, OverflowError on infinities. *)
Definition f_trunc (f : spec_float) : res Z :=
  match f with
  | S754_zero _ => Ok 0
  | S754_infinity _ => Err EOverflow
  | S754_nan => Err EValue
  | S754_finite s m e =>
      let a := if 0 <=? e then Z.pos m * 2 ^ e else Z.pos m / 2 ^ (- e) in
      Ok (if s then - a else a)
  end.

(** Comparison of an int with a float is exact in Python; None for nan. *)
Definition cmp_Zf (z : Z) (f : spec_float) : option comparison :=
  match f with
  | S754_nan => None
  | S754_infinity s => Some (if s then Gt else Lt)
  | S754_zero _ => Some (Z.compare z 0)
  | S754_finite s m e =>
      let n := if s then Z.neg m else Z.pos m in
      Some (if 0 <=? e then Z.compare z (n * 2 ^ e) else Z.compare (z * 2 ^ (- e)) n)
  end.

(** [a <= b] for Python numbers; TypeError otherwise. *)
Definition num_cmp (a b : pv) : res (option comparison) :=
  match a, b with
  | VInt x, VInt y => Ok (Some (Z.compare x y))
  | VInt x, VFloat g => Ok (cmp_Zf x g)
  | VFloat f, VInt y => Ok (match cmp_Zf y f with Some c => Some (CompOpp c) | None => None end)
  | VFloat f, VFloat g => Ok (SFcompare f g)
  | _, _ => Err EType
  end.

Definition num_leb (a b : pv) : res bool :=
  match num_cmp a b with
  | Ok (Some Gt) | Ok None => Ok false
  | Ok (Some _) => Ok true
  | Err e => Err e
  end.

Definition num_ltb (a b : pv) : res bool :=
  match num_cmp a b with
  | Ok (Some Lt) => Ok true
  | Ok _ => Ok false
  | Err e => Err e
  end.

(** [v == z] for an integer literal z: numbers compare by value, others are unequal. *)
Definition num_eqb (v : pv) (z : Z) : bool :=
  match v with
  | VInt x => Z.eqb x z
  | VFloat f => match cmp_Zf z f with Some Eq => true | _ => false end
  | _ => false
  end.
