(** Model of SLIntEnum, SLValueRange and the device enums' helper functions.
    const/common.py:70-119, 186-191; device_const/*.py. *)
From Verif Require Import Py F64 Const.

(** str.upper / str.title / str.isdigit on ASCII text.  Simplification: code points
    outside ASCII are left alone and are never digits; the theorems about parse are
    restricted to ASCII strings (CPython folds e.g. U+0131 to "I"). *)
Definition is_lower (c : Z) : bool := (97 <=? c) && (c <=? 122).
Definition is_upper (c : Z) : bool := (65 <=? c) && (c <=? 90).
Definition is_digit (c : Z) : bool := (48 <=? c) && (c <=? 57).
Definition upper1 (c : Z) : Z := if is_lower c then c - 32 else c.
Definition lower1 (c : Z) : Z := if is_upper c then c + 32 else c.
Definition is_alpha (c : Z) : bool := is_lower c || is_upper c.
Definition str_upper (s : pystr) : pystr := map upper1 s.
Definition str_lower (s : pystr) : pystr := map lower1 s.
Definition str_isdigit (s : pystr) : bool :=
  match s with [] => false | _ => forallb is_digit s end.

Fixpoint title_aux (prev_alpha : bool) (s : pystr) : pystr :=
  match s with
  | [] => []
  | c :: s' => (if prev_alpha then lower1 c else upper1 c) :: title_aux (is_alpha c) s'
  end.
Definition str_title (s : pystr) : pystr := title_aux false s.

(** str.replace(old, new) for a one-character [old] *)
Definition replace1 (old : Z) (new : pystr) (s : pystr) : pystr :=
  flat_map (fun c => if c =? old then new else [c]) s.

Fixpoint prefixb (p s : pystr) : bool :=
  match p, s with
  | [], _ => true
  | _, [] => false
  | x :: p', y :: s' => (x =? y) && prefixb p' s'
  end.

(** str.replace(old, new) for non-empty [old], left to right, non overlapping.
    [skip] counts characters of an already replaced occurrence. *)
Fixpoint replace_aux (old new : pystr) (skip : nat) (s : pystr) : pystr :=
  match s with
  | [] => []
  | c :: s' =>
      match skip with
      | S k => replace_aux old new k s'
      | O => if prefixb old s then new ++ replace_aux old new (List.length old - 1) s'
             else c :: replace_aux old new 0 s'
      end
  end.
Definition str_replace (old new s : pystr) : pystr := replace_aux old new 0 s.

(** int(s) for a string of ASCII digits *)
Definition int_of_digits (s : pystr) : Z := fold_left (fun a c => 10 * a + (c - 48)) s 0.

Definition enum := list (string * Z).

(** cls(value): the member with that value, ValueError otherwise *)
Fixpoint enum_by_value (e : enum) (v : Z) : res (string * Z) :=
  match e with
  | [] => Err EValue
  | (n, x) :: e' => if x =? v then Ok (n, x) else enum_by_value e' v
  end.

(** cls[name]: KeyError otherwise *)
Fixpoint enum_by_name (e : enum) (s : pystr) : res (string * Z) :=
  match e with
  | [] => Err EKey
  | (n, x) :: e' => if pystr_eqb (u n) s then Ok (n, x) else enum_by_name e' s
  end.

(** except (KeyError, ValueError): return None if default is None else cls(default) *)
Definition enum_default (e : enum) (default : option Z) : res (option (string * Z)) :=
  match default with
  | None => Ok None
  | Some d => match enum_by_value e d with Ok m => Ok (Some m) | Err x => Err x end
  end.

(** const/common.py:71-83 SLIntEnum.parse.  Values that are neither int nor str have no
    isdigit attribute (bytes do, but bytes.replace(" ", ..) is a TypeError; an all-digit
    bytes value is outside the model and reported as TypeError too). *)
Definition parse (e : enum) (value : pv) (default : option Z) : res (option (string * Z)) :=
  let handler r :=
    match r with
    | Ok m => Ok (Some m)
    | Err x => match x with
               | EKey | EValue => enum_default e default
               | _ => Err x
               end
    end in
  match value with
  | VInt z => handler (enum_by_value e z)
  | VStr s =>
      if str_isdigit s then handler (enum_by_value e (int_of_digits s))
      else handler (enum_by_name e (str_upper (replace1 39 [] (replace1 32 [95] s))))
  | VBytes _ => Err EType
  | _ => Err EAttribute
  end.

(** const/common.py:85-91 parsable_values *)
Definition parsable_values (e : enum) : list pystr :=
  flat_map (fun m => [str_of_Z (snd m); str_lower (u (fst m))]) e.

(** const/common.py:93-98 title *)
Definition base_title (name : string) : pystr := str_title (replace1 95 [32] (u name)).

(** device_const/heat.py:12-13 HEAT_MODE.title *)
Definition heat_mode_title (name : string) : pystr :=
  str_replace (u "Dont") (u "Don't") (base_title name).

(** device_const/pump.py:10-12 PUMP_TYPE.title *)
Definition pump_type_title (name : string) : pystr :=
  str_replace (u "Intelliflow") (u "IntelliFlow") (base_title name).

(** [m.title for m in ENUM] *)
Definition titles (e : enum) : list pv := map (fun m => VStr (base_title (fst m))) e.
Definition heat_mode_titles : list pv := map (fun m => VStr (heat_mode_title (fst m))) HEAT_MODE.

(** const/common.py:101-119 SLValueRange *)
Record vrange := mkRange { r_min : pv; r_max : pv }.

(** [a <= v <= b] evaluates the first comparison first. *)
Definition in_range (r : vrange) (v : pv) : res bool :=
  rbind (num_leb (r_min r) v) (fun b => if b then num_leb v (r_max r) else Ok false).

Definition range_check (r : vrange) (v : pv) : res unit :=
  rbind (in_range r v) (fun b => if b then Ok tt else Err EValue).

(** float literals of the repository: 7.2, 7.6, 0.1, 0.5 as nearest binary64 *)
Definition f7_2 : spec_float := zdivf 72 10.
Definition f7_6 : spec_float := zdivf 76 10.
Definition f0_1 : spec_float := zdivf 1 10.
Definition f0_5 : spec_float := zdivf 1 2.
Definition fneg (f : spec_float) : spec_float := SFopp f.

(** device_const/chemistry.py:82-88 CHEM_RANGE *)
Definition CHEM_RANGE_PH_SETPOINT := mkRange (VFloat f7_2) (VFloat f7_6).
Definition CHEM_RANGE_ORP_SETPOINT := mkRange (VInt 400) (VInt 800).
Definition CHEM_RANGE_CALCIUM_HARDNESS := mkRange (VInt 25) (VInt 800).
Definition CHEM_RANGE_CYANURIC_ACID := mkRange (VInt 0) (VInt 201).
Definition CHEM_RANGE_TOTAL_ALKALINITY := mkRange (VInt 25) (VInt 800).
Definition CHEM_RANGE_SALT_TDS := mkRange (VInt 500) (VInt 6500).

(** device_const/scg.py:22-25 SCG_RANGE *)
Definition SCG_RANGE_POOL_SETPOINT := mkRange (VInt 0) (VInt 100).
Definition SCG_RANGE_SPA_SETPOINT := mkRange (VInt 0) (VInt 100).
Definition SCG_RANGE_SUPER_CHLOR_RT := mkRange (VInt 0) (VInt 72).

(** const/common.py:114-119 parse_check: the string-to-number conversions are oracles
    ([None] = ValueError). *)
Definition parse_check (py_int py_float : pystr -> option pv) (r : vrange) (s : pystr) : res pv :=
  let conv := match r_min r with VFloat _ => py_float s | _ => py_int s end in
  match conv with
  | None => Err EValue
  | Some v => rbind (in_range r v) (fun b => if b then Ok v else Err EValue)
  end.

(** device_const/chemistry.py:25-38 BALANCE.from_saturation *)
Definition from_saturation (sat : pv) : res pystr :=
  rbind (in_range (mkRange (VFloat (fneg f0_1)) (VFloat f0_1)) sat) (fun a =>
  if a then Ok BALANCE_IDEAL
  else rbind (in_range (mkRange (VFloat (fneg f0_5)) (VFloat f0_5)) sat) (fun b =>
  if b then Ok BALANCE_NORMAL
  else rbind (num_ltb sat (VFloat (fneg f0_5))) (fun c =>
  Ok (if c then BALANCE_CORROSIVE else BALANCE_SCALING)))).

(** const/common.py:189-191 ON_OFF.from_bool(x).value *)
Definition on_off (x : Z) : Z := if x =? 0 then ON_OFF_OFF else ON_OFF_ON.

Fixpoint zassoc {A} (k : Z) (l : list (Z * A)) : option A :=
  match l with [] => None | (x, a) :: l' => if k =? x then Some a else zassoc k l' end.

(** device_const/system.py:37-42 model_from_type *)
Definition model_from_type (controller_type hardware_type : Z) : pystr :=
  match zassoc controller_type CONTROLLER_HARDWARE_MAP with
  | Some m => match zassoc hardware_type m with
              | Some s => u s
              | None => u "Unknown Model C:" ++ str_of_Z controller_type ++ u " H:" ++ str_of_Z hardware_type
              end
  | None => u "Unknown Model C:" ++ str_of_Z controller_type ++ u " H:" ++ str_of_Z hardware_type
  end.

(** requests/config.py:69-74: [member.name for member in EQUIPMENT_FLAG
    if member in EQUIPMENT_FLAG(flags)] *)
Definition equipment_list (flags : Z) : list pv :=
  map (fun m => VStr (u (fst m)))
      (filter (fun m => Z.land (snd m) flags =? snd m) EQUIPMENT_FLAG).
