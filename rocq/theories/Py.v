(** Python values, exceptions and dictionaries used by the model.

    Models CPython builtins as used by /repo/screenlogicpy, not a file of the
    repository.  Simplifications: exceptions carry their class only (no message
    text); [bool] is not distinguished from [int]; identity of mutable objects
    is handled by paths (see [upd_at]). *)
From Coq Require Export List ZArith Bool String Ascii Lia.
From Coq Require Import DecimalString DecimalZ.
From Coq.Floats Require Export SpecFloat.
Export ListNotations.
Open Scope Z_scope.
Open Scope list_scope.

(** Exception classes.  The ScreenLogic* classes are const/common.py:20-67. *)
Inductive exn :=
| EStruct          (* struct.error *)
| ESLError         (* ScreenLogicError              common.py:34-37 *)
| ESLRequest       (* ScreenLogicRequestError       common.py:46-49 *)
| ESLConnection    (* ScreenLogicConnectionError    common.py:52-55 *)
| ESLResponse      (* ScreenLogicResponseError      common.py:58-61 *)
| ESLLogin         (* ScreenLogicLoginError         common.py:64-67 *)
| EValue           (* ValueError *)
| EUnicodeDecode   (* UnicodeDecodeError (a ValueError) *)
| EUnicodeEncode   (* UnicodeEncodeError (a ValueError) *)
| EKey             (* KeyError *)
| EIndex           (* IndexError *)
| EType            (* TypeError *)
| EAttribute       (* AttributeError *)
| ERuntime         (* RuntimeError *)
| EOverflow        (* OverflowError *)
| EInvalidState    (* asyncio.InvalidStateError *)
| ECancelled.      (* asyncio.CancelledError *)

(** [ScreenLogicCommunicationError] and its subclasses, common.py:40-67. *)
Definition is_comm_error (e : exn) : bool :=
  match e with
  | ESLRequest | ESLConnection | ESLResponse | ESLLogin => true
  | _ => false
  end.

(** [ScreenLogicException] and its subclasses, common.py:20-67. *)
Definition is_sl_exception (e : exn) : bool :=
  match e with ESLError => true | _ => is_comm_error e end.

(** [except ValueError] also catches its subclasses. *)
Definition is_value_error (e : exn) : bool :=
  match e with EValue | EUnicodeDecode | EUnicodeEncode => true | _ => false end.

Inductive res (A : Type) := Ok (a : A) | Err (e : exn).
Arguments Ok {A} _. Arguments Err {A} _.

Definition rbind {A B} (r : res A) (f : A -> res B) : res B :=
  match r with Ok a => f a | Err e => Err e end.

(** bytes: a list of integers, each meant to be in 0..255 (see [is_byte]). *)
Definition bytes := list Z.
Definition is_byte (z : Z) : Prop := 0 <= z < 256.
Definition is_byteb (z : Z) : bool := (0 <=? z) && (z <? 256).
Definition wf_bytes (b : bytes) : Prop := Forall is_byte b.

(** str: a list of code points. *)
Definition pystr := list Z.

Fixpoint u (s : string) : pystr :=
  match s with
  | EmptyString => []
  | String a s' => Z.of_N (N_of_ascii a) :: u s'
  end.

(** Dictionary keys: the code uses constant ASCII strings and integers. *)
Inductive key := KS (s : string) | KI (z : Z).

Definition key_eqb (a b : key) : bool :=
  match a, b with
  | KS s, KS t => String.eqb s t
  | KI x, KI y => Z.eqb x y
  | _, _ => false
  end.

Inductive pv :=
| VNone
| VInt (z : Z)
| VFloat (f : spec_float)
| VStr (s : pystr)
| VBytes (b : bytes)
| VList (l : list pv)
| VTuple (l : list pv)
| VDict (d : list (key * pv)).

Definition dict := list (key * pv).

(** dict.get *)
Fixpoint dget (k : key) (d : dict) : option pv :=
  match d with
  | [] => None
  | (k', v) :: d' => if key_eqb k k' then Some v else dget k d'
  end.

(** d[k] = v : in place if the key exists, else appended (insertion order). *)
Fixpoint dset (k : key) (v : pv) (d : dict) : dict :=
  match d with
  | [] => [(k, v)]
  | (k', v') :: d' => if key_eqb k k' then (k', v) :: d' else (k', v') :: dset k v d'
  end.

(** d.pop(k) *)
Fixpoint dpop (k : key) (d : dict) : dict :=
  match d with
  | [] => []
  | (k', v') :: d' => if key_eqb k k' then d' else (k', v') :: dpop k d'
  end.

Definition din (k : key) (d : dict) : bool :=
  match dget k d with Some _ => true | None => false end.

Definition dvalues (d : dict) : list pv := map snd d.

Definition path := list key.

(** Following a path through dictionaries only. *)
Fixpoint pget (p : path) (v : pv) : option pv :=
  match p with
  | [] => Some v
  | k :: p' =>
      match v with
      | VDict d => match dget k d with Some v' => pget p' v' | None => None end
      | _ => None
      end
  end.

Definition dpget (p : path) (d : dict) : option pv := pget p (VDict d).

(** Run an update on the dictionary object reached by path [p].  The decoders
    of the repository hold references to nested dictionaries in local variables;
    no decoder replaces a dictionary it holds a reference to, so a reference and
    its path denote the same object.  [None]: something on the path is not a dictionary. *)
Fixpoint upd_at (p : path) (f : dict -> option dict) (d : dict) : option dict :=
  match p with
  | [] => f d
  | k :: p' =>
      match dget k d with
      | Some (VDict d1) =>
          match upd_at p' f d1 with
          | Some d1' => Some (dset k (VDict d1') d)
          | None => None
          end
      | _ => None
      end
  end.

(** The decoder monad: the data dictionary is mutated in place, so a raised
    exception leaves the mutations done so far. *)
Definition DM (A : Type) := dict -> dict * res A.

Definition dret {A} (a : A) : DM A := fun d => (d, Ok a).
Definition draise {A} (e : exn) : DM A := fun d => (d, Err e).
Definition dlift {A} (r : res A) : DM A := fun d => (d, r).
Definition dbind {A B} (m : DM A) (f : A -> DM B) : DM B :=
  fun d => match m d with (d', Ok a) => f a d' | (d', Err e) => (d', Err e) end.
Definition dread : DM dict := fun d => (d, Ok d).

Declare Scope dm_scope.
Delimit Scope dm_scope with dm.
Notation "x <- m ;; k" := (dbind m (fun x => k))
  (at level 100, m at next level, right associativity) : dm_scope.
Notation "' pat <- m ;; k" := (dbind m (fun x => match x with pat => k end))
  (at level 100, pat pattern, m at next level, right associativity) : dm_scope.
Notation "m ;;; k" := (dbind m (fun _ => k))
  (at level 100, right associativity) : dm_scope.

(** [ref = parent.setdefault(k, v0)] where [parent] is the dictionary at path [p]. *)
Definition setdefault (p : path) (k : key) (v0 : pv) : DM unit :=
  fun d =>
    match upd_at p (fun d1 => Some (if din k d1 then d1 else dset k v0 d1)) d with
    | Some d' => (d', Ok tt)
    | None => (d, Err EAttribute)   (* 'int' object has no attribute 'setdefault' *)
    end.

(** [ref[k] = v] where [ref] is the dictionary at path [p]. *)
Definition assign (p : path) (k : key) (v : pv) : DM unit :=
  fun d =>
    match upd_at p (fun d1 => Some (dset k v d1)) d with
    | Some d' => (d', Ok tt)
    | None => (d, Err EType)        (* object does not support item assignment *)
    end.

(** Decimal rendering of an integer: str(z). *)
Definition string_of_Z (z : Z) : string := NilZero.string_of_int (Z.to_int z).
Definition str_of_Z (z : Z) : pystr := u (string_of_Z z).

(** Format spec ":02" / ":03" for a non-negative integer (zero padding on the left). *)
Fixpoint zeros (n : nat) : string :=
  match n with O => EmptyString | S n' => String "0" (zeros n') end.
Definition zpad (w : nat) (s : string) : string := (zeros (w - String.length s) ++ s)%string.

(** str.strip(chars) and friends *)
Fixpoint lstrip (p : Z -> bool) (s : pystr) : pystr :=
  match s with
  | [] => []
  | c :: s' => if p c then lstrip p s' else s
  end.
Definition rstrip (p : Z -> bool) (s : pystr) : pystr := rev (lstrip p (rev s)).
Definition strip (p : Z -> bool) (s : pystr) : pystr := rstrip p (lstrip p s).

(** str.isspace() characters, the ones [str.strip()] and [str.split()] remove. *)
Definition is_space (c : Z) : bool :=
  ((9 <=? c) && (c <=? 13)) || ((28 <=? c) && (c <=? 32)) || (c =? 133) || (c =? 160)
  || (c =? 5760) || ((8192 <=? c) && (c <=? 8202)) || (c =? 8232) || (c =? 8233)
  || (c =? 8239) || (c =? 8287) || (c =? 12288).

(** str.split() without arguments. [cur] is the current word, reversed. *)
Fixpoint split_aux (s : pystr) (cur : pystr) : list pystr :=
  match s with
  | [] => match cur with [] => [] | _ => [rev cur] end
  | c :: s' =>
      if is_space c
      then match cur with [] => split_aux s' [] | _ => rev cur :: split_aux s' [] end
      else split_aux s' (c :: cur)
  end.
Definition split (s : pystr) : list pystr := split_aux s [].

Fixpoint pystr_eqb (a b : pystr) : bool :=
  match a, b with
  | [], [] => true
  | x :: a', y :: b' => (x =? y) && pystr_eqb a' b'
  | _, _ => false
  end.

Definition zlen {A} (l : list A) : Z := Z.of_nat (List.length l).
