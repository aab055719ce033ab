(** Specification vocabulary for export and import: equality of Python values, and which values
    JSON can carry. *)
From Coq Require Import Permutation.
From Verif Require Import Py SpecParse Data.

(** Equal Python values: dictionaries are equal when they have the same entries, in any order. *)
Inductive equal : ov -> ov -> Prop :=
| eq_none : equal ONone ONone
| eq_int z : equal (OInt z) (OInt z)
| eq_float f : equal (OFloat f) (OFloat f)
| eq_str s : equal (OStr s) (OStr s)
| eq_bytes b : equal (OBytes b) (OBytes b)
| eq_list l l' : Forall2 equal l l' -> equal (OList l) (OList l')
| eq_tuple l l' : Forall2 equal l l' -> equal (OTuple l) (OTuple l')
| eq_dict d d1 d' : Permutation d d1 ->
    Forall2 (fun a b => fst a = fst b /\ equal (snd a) (snd b)) d1 d' -> equal (ODict d) (ODict d')
| eq_set r r' d d' : equal r r' -> equal d d' -> equal (ORSet r d) (ORSet r' d').

Definition equal_collection (a b : collection) : Prop :=
  equal (decoded_complete a) (decoded_complete b)
  /\ Forall2 (fun x y => fst x = fst y /\ equal (snd x) (snd y)) (fields a) (fields b).

(** A key JSON can carry: a non-negative integer, or a text that is not all digits *)
Definition key_ok (k : key) : Prop :=
  match k with KI z => 0 <= z | KS s => ~ exists z, numeral (u s) z end.

(** A value JSON can carry with these hooks: tuples only as three-element "value"s and three-element
    lists not there, none of the marker keys, bytes of bytes. *)
Inductive exportable : ov -> Prop :=
| ex_none : exportable ONone
| ex_int z : exportable (OInt z)
| ex_float f : exportable (OFloat f)
| ex_str s : exportable (OStr s)
| ex_bytes b : wf_bytes b -> exportable (OBytes b)
| ex_list l : Forall exportable l -> exportable (OList l)
| ex_dict d : NoDup (map fst d) -> Forall key_ok (map fst d) -> ~ In (KS "__type") (map fst d) ->
    ~ (In (KS "decoded") (map fst d) /\ In (KS "raw") (map fst d)) ->
    Forall (fun x => exportable_at (fst x) (snd x)) d -> exportable (ODict d)
with exportable_at : key -> ov -> Prop :=
| ex_triple a b c : exportable a -> exportable b -> exportable c -> exportable_at (KS "value") (OTuple [a; b; c])
| ex_plain k v : exportable v -> (k = KS "value" -> ~ exists a b c, v = OList [a; b; c]) -> exportable_at k v.

(** A response set with such contents *)
Inductive exportable_set : ov -> Prop :=
| ex_set b d : wf_bytes b -> exportable (ODict d) -> exportable_set (ORSet (OBytes b) (ODict d)).

(** A field of a collection: absent, one response set, or a list of them *)
Inductive exportable_field : ov -> Prop :=
| exf_none : exportable_field ONone
| exf_one s : exportable_set s -> exportable_field s
| exf_many l : Forall exportable_set l -> exportable_field (OList l).

Definition exportable_collection (c : collection) : Prop :=
  (exists d, decoded_complete c = ODict d /\ exportable (ODict d))
  /\ Forall (fun x => exportable_field (snd x)) (fields c).

(** [inside x v]: the value [x] occurs in [v] *)
Inductive inside (x : ov) : ov -> Prop :=
| in_here : inside x x
| in_list v l : In v l -> inside x v -> inside x (OList l)
| in_tuple v l : In v l -> inside x v -> inside x (OTuple l)
| in_dict k v d : In (k, v) d -> inside x v -> inside x (ODict d)
| in_raw r d : inside x r -> inside x (ORSet r d)
| in_decoded r d : inside x d -> inside x (ORSet r d).

(** no dictionary in [v] has a negative integer among its keys *)
Definition no_negative_keys (v : ov) : Prop := forall d z x, inside (ODict d) v -> In (KI z, x) d -> 0 <= z.
(** every bytes object in [v] consists of bytes *)
Definition real_bytes (v : ov) : Prop := forall b, inside (OBytes b) v -> wf_bytes b.

(** the requests a collection keeps the responses of (const/common.py:122-130) *)
Definition requests : list string :=
  ["version"; "config"; "status"; "pumps"; "chemistry"; "scg"; "color"; "date_time"]%string.

(** [numbered i l]: the members of [l] under the keys i, i+1, ... *)
Fixpoint numbered (i : Z) (l : list ov) : odict :=
  match l with [] => [] | v :: l' => (KI i, v) :: numbered (i + 1) l' end.
