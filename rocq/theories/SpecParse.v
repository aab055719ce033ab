(** Specification used by C80, C81, C83, C85: how enum members are spelled and what number a
    Python value is.  Used only in theorem statements. *)
From Verif Require Import Py.

(** ------------------------------------------------------------------ *)
(** * Spelling of enum members (C80).  Text is a list of code points. *)

(** [spells s n]: the text [s] is the member name [n] in any letter case, possibly with
    spaces for underscores and with apostrophes anywhere. *)
Inductive spells : pystr -> pystr -> Prop :=
| sp_nil : spells [] []
| sp_quote s n : spells s n -> spells (39 :: s) n
| sp_space s n : spells s n -> spells (32 :: s) (95 :: n)
| sp_lower c s n : 97 <= c <= 122 -> spells s n -> spells (c :: s) (c - 32 :: n)
| sp_same c s n : c <> 39 -> c <> 32 -> ~ 97 <= c <= 122 -> spells s n -> spells (c :: s) (c :: n).

(** [numeral s z]: [s] is a non-empty text of decimal digits with value [z] *)
Fixpoint digits_value (s : pystr) : Z :=
  match s with [] => 0 | c :: s' => (c - 48) * 10 ^ Z.of_nat (List.length s') + digits_value s' end.
Definition numeral (s : pystr) (z : Z) : Prop :=
  s <> [] /\ Forall (fun c => 48 <= c <= 57) s /\ z = digits_value s.

(** the member a text names *)
Definition names_member (e : list (string * Z)) (s : pystr) (n : string) (v : Z) : Prop :=
  In (n, v) e /\ (numeral s v \/ ((~ exists z, numeral s z) /\ spells s (u n))).

(** ------------------------------------------------------------------ *)
(** * The value of a Python number (C81, C83): a rational, an infinity or NaN *)
From Coq Require Import QArith.
Inductive extended := Finite (q : Q) | MinusInf | PlusInf | NaN.

Definition float_value (f : spec_float) : extended :=
  match f with
  | S754_zero _ => Finite 0
  | S754_infinity true => MinusInf
  | S754_infinity false => PlusInf
  | S754_nan => NaN
  | S754_finite s m e => Finite (inject_Z (if s then Z.neg m else Z.pos m) * 2 ^ e)
  end.
(** the values a Python float can have: the binary64 numbers *)
Definition python_float (f : spec_float) : Prop := valid_binary 53 1024 f = true.

Definition value_of (v : pv) : option extended :=
  match v with
  | VInt z => Some (Finite (inject_Z z))
  | VFloat f => Some (float_value f)
  | _ => None
  end.
Definition python_value (v : pv) : Prop := match v with VFloat f => python_float f | _ => True end.

(** the order of the extended line; NaN is not related to anything *)
Definition at_most (a b : extended) : Prop :=
  match a, b with
  | NaN, _ | _, NaN => False
  | MinusInf, _ | _, PlusInf => True
  | PlusInf, _ | _, MinusInf => False
  | Finite p, Finite q => (p <= q)%Q
  end.
Definition below (a b : extended) : Prop := at_most a b /\ ~ at_most b a.
Definition lies_between (lo x hi : pv) : Prop :=
  exists l v h, value_of lo = Some l /\ value_of x = Some v /\ value_of hi = Some h
  /\ at_most l v /\ at_most v h.
Close Scope Q_scope.
