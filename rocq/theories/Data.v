(** Model of screenlogicpy/data.py: response collections and their export to and import from JSON.
    JSON text itself (json.dump / json.load, the file and its UTF-8 encoding) is CPython's and is
    not modelled: what json.dump writes is read by json.load as the same tree.  The tree that is
    written, the [default] function, and the [object_hook] applied to every object that is read,
    innermost first, are modelled. *)
From Verif Require Import Py F64 Struct Utf Utility Const Enum Decode.

(** Python values with ScreenLogicResponseSet instances (data.py:27-30). *)
Inductive ov :=
| ONone
| OInt (z : Z)
| OFloat (f : spec_float)
| OStr (s : pystr)
| OBytes (b : bytes)
| OList (l : list ov)
| OTuple (l : list ov)
| ODict (d : list (key * ov))
| ORSet (raw decoded : ov).

(** The values of the gateway's dictionaries, as such values. *)
Fixpoint inj (v : pv) : ov :=
  match v with
  | VNone => ONone
  | VInt z => OInt z
  | VFloat f => OFloat f
  | VStr s => OStr s
  | VBytes b => OBytes b
  | VList l => OList (map inj l)
  | VTuple l => OTuple (map inj l)
  | VDict d => ODict (map (fun x => (fst x, inj (snd x))) d)
  end.

Definition odict := list (key * ov).
Fixpoint oget (k : key) (d : odict) : option ov :=
  match d with
  | [] => None
  | (k', v) :: d' => if key_eqb k k' then Some v else oget k d'
  end.
Fixpoint oset (k : key) (v : ov) (d : odict) : odict :=
  match d with
  | [] => [(k, v)]
  | (k', v') :: d' => if key_eqb k k' then (k', v) :: d' else (k', v') :: oset k v d'
  end.
Fixpoint opop (k : key) (d : odict) : odict :=
  match d with
  | [] => []
  | (k', v') :: d' => if key_eqb k k' then d' else (k', v') :: opop k d'
  end.

(** data.py:33-43 ScreenLogicResponseCollection: the fields, in order, with their defaults. *)
Record collection := {
  decoded_complete : ov;
  c_version : ov; c_config : ov; c_status : ov; c_pumps : ov;
  c_chemistry : ov; c_scg : ov; c_color : ov; c_date_time : ov }.

(** the optional fields by name, in field order *)
Definition fields (c : collection) : list (string * ov) :=
  [("version", c_version c); ("config", c_config c); ("status", c_status c); ("pumps", c_pumps c);
   ("chemistry", c_chemistry c); ("scg", c_scg c); ("color", c_color c); ("date_time", c_date_time c)]%string.

(** data.py:15-24 REQUEST_DECODE_FUNCS: the decoders by key, const/common.py:122-130.  [DOne] is
    called with two arguments, [DIdx] needs the third one (pump_index). *)
Inductive decoder := DOne (f : bytes -> DM unit) | DIdx (f : bytes -> Z -> DM unit).
Section Build.
Context (py_float : pystr -> option spec_float) (host : spec_float).
Definition REQUEST_DECODE_FUNCS : list (string * decoder) :=
  [("version", DOne (decode_version py_float)); ("config", DOne decode_pool_config);
   ("status", DOne decode_pool_status); ("pumps", DIdx decode_pump_status);
   ("chemistry", DOne decode_chemistry); ("scg", DOne decode_scg_config);
   ("color", DOne decode_color_update); ("date_time", DOne (decode_date_time host))]%string.

(** run a decoder on a new dictionary *)
Definition decode_new (m : DM unit) (raw : bytes) : res ov :=
  match m [] with
  | (d, Ok _) => Ok (ORSet (OBytes raw) (inj (VDict d)))
  | (_, Err e) => Err e
  end.

(** data.py:51-57 the loop over a dictionary of raw responses.  Calling a decoder with the wrong
    number of arguments is a TypeError, and so is decoding what is not bytes; an index that is not
    an int is not modelled (TypeError here). *)
Fixpoint build_many (dec : decoder) (d : dict) : res (list ov) :=
  match d with
  | [] => Ok []
  | (k, v) :: d' =>
      match dec, k, v with
      | DIdx f, KI idx, VBytes b =>
          rbind (decode_new (f b idx) b) (fun s => rbind (build_many dec d') (fun r => Ok (s :: r)))
      | _, _, _ => Err EType
      end
  end.
(** data.py:49-61, one round of the loop over the table; [None]: no keyword argument is set *)
Definition build_one (raw : dict) (req : string) (dec : decoder) : res (option ov) :=
  match dget (KS req) raw with
  | None => Ok None
  | Some v =>
      if truthy v then
        match v with
        | VDict d => rbind (build_many dec d) (fun l => Ok (Some (OList l)))
        | VBytes b =>
            match dec with
            | DOne f => rbind (decode_new (f b) b) (fun s => Ok (Some s))
            | DIdx _ => Err EType
            end
        | _ => Err EType
        end
      else Ok None
  end.
Fixpoint build_args (raw : dict) (table : list (string * decoder)) : res (list (string * ov)) :=
  match table with
  | [] => Ok []
  | (req, dec) :: t =>
      rbind (build_one raw req dec) (fun a =>
      rbind (build_args raw t) (fun r =>
      Ok (match a with Some v => (req, v) :: r | None => r end)))
  end.

(** ScreenLogicResponseCollection( **kwargs): a missing optional field is None *)
Definition kwarg (args : list (string * ov)) (k : string) : ov :=
  match find (fun x => String.eqb (fst x) k) args with Some (_, v) => v | None => ONone end.
Definition make_collection (data : ov) (args : list (string * ov)) : collection :=
  {| decoded_complete := data;
     c_version := kwarg args "version"; c_config := kwarg args "config"; c_status := kwarg args "status";
     c_pumps := kwarg args "pumps"; c_chemistry := kwarg args "chemistry"; c_scg := kwarg args "scg";
     c_color := kwarg args "color"; c_date_time := kwarg args "date_time" |}.

(** data.py:46-63 build_response_collection *)
Definition build_response_collection (raw data : dict) : res collection :=
  rbind (build_args raw REQUEST_DECODE_FUNCS) (fun args =>
  Ok (make_collection (inj (VDict data)) args)).
End Build.

(** dataclasses.asdict, applied to a field value: response sets become dictionaries, containers
    are copied. *)
Fixpoint asdict (v : ov) : ov :=
  match v with
  | ORSet r d => ODict [(KS "raw", asdict r); (KS "decoded", asdict d)]
  | OList l => OList (map asdict l)
  | OTuple l => OTuple (map asdict l)
  | ODict d => ODict (map (fun x => (fst x, asdict (snd x))) d)
  | _ => v
  end.
Definition asdict_collection (c : collection) : odict :=
  (KS "decoded_complete", asdict (decoded_complete c))
  :: map (fun x => (KS (fst x), asdict (snd x))) (fields c).

(** x["raw"] *)
Definition item_raw (v : ov) : res ov :=
  match v with
  | ODict d => match oget (KS "raw") d with Some x => Ok x | None => Err EKey end
  | _ => Err EType
  end.
(** data.py:74-77  for idx, val in enumerate(data_request): data_dict[idx] = val["raw"] *)
Fixpoint deconstruct_list (i : Z) (l : list ov) (acc : odict) : res odict :=
  match l with
  | [] => Ok acc
  | v :: l' => rbind (item_raw v) (fun r => deconstruct_list (i + 1) l' (oset (KI i) r acc))
  end.
Fixpoint deconstruct_fields (l : odict) (raw : odict) : res odict :=
  match l with
  | [] => Ok raw
  | (dr, v) :: l' =>
      if key_eqb dr (KS "decoded_complete") then deconstruct_fields l' raw
      else match v with
           | OList items =>
               rbind (deconstruct_list 0 items []) (fun d => deconstruct_fields l' (oset dr (ODict d) raw))
           | ONone => deconstruct_fields l' (oset dr ONone raw)
           | _ => rbind (item_raw v) (fun r => deconstruct_fields l' (oset dr r raw))
           end
  end.
(** data.py:66-82 deconstruct_response_collection (raw.setdefault(dr, {}) finds no such key, since
    the field names are distinct) *)
Definition deconstruct_response_collection (c : collection) : res (odict * ov) :=
  rbind (deconstruct_fields (asdict_collection c) []) (fun raw => Ok (raw, decoded_complete c)).

(** ------------------------------------------------------------------ *)
(** repr(bytes) and eval of it: CPython builtins, Objects/bytesobject.c PyBytes_Repr and the
    tokenizer/compiler for a bytes literal. *)
Definition hex1 (n : Z) : Z := if n <? 10 then 48 + n else 87 + n.
Definition repr_byte (quote c : Z) : pystr :=
  if (c =? quote) || (c =? 92) then [92; c]
  else if c =? 9 then [92; 116]
  else if c =? 10 then [92; 110]
  else if c =? 13 then [92; 114]
  else if (c <? 32) || (127 <=? c) then [92; 120; hex1 (c / 16); hex1 (c mod 16)]
  else [c].
Definition bytes_repr (b : bytes) : pystr :=
  let quote := if existsb (Z.eqb 39) b && negb (existsb (Z.eqb 34) b) then 34 else 39 in
  98 :: quote :: flat_map (repr_byte quote) b ++ [quote].

Definition unhex (c : Z) : option Z :=
  if (48 <=? c) && (c <=? 57) then Some (c - 48)
  else if (97 <=? c) && (c <=? 102) then Some (c - 87)
  else if (65 <=? c) && (c <=? 70) then Some (c - 55)
  else None.
Definition octal (c : Z) : bool := (48 <=? c) && (c <=? 55).
Definition ocons (z : Z) (r : option bytes) : option bytes := match r with Some b => Some (z :: b) | None => None end.
(** the text after the opening quote; [None]: not (only) a bytes literal *)
Fixpoint literal (quote : Z) (s : pystr) : option bytes :=
  match s with
  | [] => None
  | c :: r =>
      if c =? quote then match r with [] => Some [] | _ => None end
      else if c =? 10 then None
      else if negb (c =? 92) then (if (0 <=? c) && (c <? 128) then ocons c (literal quote r) else None)
      else match r with
           | [] => None
           | e :: r1 =>
               if e =? 10 then literal quote r1
               else if (e =? 92) || (e =? 39) || (e =? 34) then ocons e (literal quote r1)
               else if e =? 97 then ocons 7 (literal quote r1)
               else if e =? 98 then ocons 8 (literal quote r1)
               else if e =? 102 then ocons 12 (literal quote r1)
               else if e =? 110 then ocons 10 (literal quote r1)
               else if e =? 114 then ocons 13 (literal quote r1)
               else if e =? 116 then ocons 9 (literal quote r1)
               else if e =? 118 then ocons 11 (literal quote r1)
               else if e =? 120 then
                 match r1 with
                 | h :: l :: r2 =>
                     match unhex h, unhex l with
                     | Some a, Some b => ocons (16 * a + b) (literal quote r2)
                     | _, _ => None
                     end
                 | _ => None
                 end
               else if octal e then
                 match r1 with
                 | o2 :: r2 =>
                     if octal o2 then
                       match r2 with
                       | o3 :: r3 =>
                           if octal o3
                           then ocons (((e - 48) * 64 + (o2 - 48) * 8 + (o3 - 48)) mod 256) (literal quote r3)
                           else ocons ((e - 48) * 8 + (o2 - 48)) (literal quote r2)
                       | [] => None
                       end
                     else ocons (e - 48) (literal quote r1)
                 | [] => None
                 end
               else if (0 <=? e) && (e <? 128) then ocons 92 (ocons e (literal quote r1)) else None
           end
  end.
(** eval(s) for a bytes literal b'...' or b"..." (not triple-quoted).  Any other text is an
    arbitrary Python expression, which eval would run: not modelled, [None]. *)
Definition eval_bytes (s : pystr) : option bytes :=
  match s with
  | 98 :: quote :: r =>
      if (quote =? 39) || (quote =? 34) then
        match r with
        | q1 :: q2 :: _ => if (q1 =? quote) && (q2 =? quote) then None else literal quote r
        | _ => literal quote r
        end
      else None
  | _ => None
  end.

(** ------------------------------------------------------------------ *)
(** JSON trees; keys are ASCII, like the keys of the dictionaries *)
Inductive json :=
| JNull | JInt (z : Z) | JFloat (f : spec_float) | JStr (s : pystr)
| JList (l : list json) | JObj (o : list (string * json)).

(** the key json.dump writes for a dictionary key: str(int) for an int *)
Definition json_key (k : key) : string := match k with KS s => s | KI z => string_of_Z z end.

Section MapRes.
  Context {A B : Type} (f : A -> res B).
  Fixpoint mapr (l : list A) : res (list B) :=
    match l with
    | [] => Ok []
    | x :: l' => rbind (f x) (fun y => rbind (mapr l') (fun r => Ok (y :: r)))
    end.
End MapRes.

(** data.py:132-140 write_sl_data_json with default = bytes_json_encoder (data.py:126-129): bytes
    become {"__type": "<class 'bytes'>", "repr": repr(o)}; for anything else unknown the encoder
    returns the object itself, which json.dump reports as a circular reference (ValueError). *)
Definition bytes_json_encoder (b : bytes) : json :=
  JObj [("__type", JStr (u "<class 'bytes'>")); ("repr", JStr (bytes_repr b))]%string.
Fixpoint dump (v : ov) : res json :=
  match v with
  | ONone => Ok JNull
  | OInt z => Ok (JInt z)
  | OFloat f => Ok (JFloat f)
  | OStr s => Ok (JStr s)
  | OBytes b => Ok (bytes_json_encoder b)
  | OList l | OTuple l => rbind (mapr dump l) (fun l' => Ok (JList l'))
  | ODict d =>
      rbind (mapr (fun x => rbind (dump (snd x)) (fun j => Ok (json_key (fst x), j))) d) (fun o => Ok (JObj o))
  | ORSet _ _ => Err EValue
  end.

(** data.py:88-97 int_key_json_decoder.  str.isdigit is modelled for ASCII keys. *)
Definition int_key_json_decoder (o : odict) : odict :=
  let strkeys := flat_map (fun x => match fst x with KS s => if str_isdigit (u s) then [s] else [] | KI _ => [] end) o in
  fold_left (fun o s =>
      match oget (KS s) o with
      | Some v => oset (KI (int_of_digits (u s))) v (opop (KS s) o)
      | None => o
      end) strkeys o.

(** data.py:101-106 value_list_json_decoder *)
Definition value_list_json_decoder (o : odict) : odict :=
  int_key_json_decoder
    match oget (KS "value") o with
    | Some (OList [a; b; c]) => oset (KS "value") (OTuple [a; b; c]) o
    | _ => o
    end.

(** data.py:109-112 response_set_json_decoder; a further key is an unexpected keyword argument *)
Definition response_set_json_decoder (o : odict) : res ov :=
  match oget (KS "decoded") o, oget (KS "raw") o with
  | Some d, Some r =>
      if Nat.eqb (List.length o) 2 then Ok (ORSet r d) else Err EType
  | _, _ => Ok (ODict (value_list_json_decoder o))
  end.

(** data.py:115-118 bytes_json_decoder.  [ERuntime] stands for whatever evaluating another text
    does (not modelled). *)
Definition bytes_json_decoder (o : odict) : res ov :=
  match oget (KS "__type") o with
  | Some _ =>
      match oget (KS "repr") o with
      | Some (OStr s) => match eval_bytes s with Some b => Ok (OBytes b) | None => Err ERuntime end
      | Some _ => Err EType
      | None => Err EKey
      end
  | None => response_set_json_decoder o
  end.

(** data.py:121-123 read_sl_data_json: the members of an object become a dictionary (a later
    duplicate wins), then the hook. *)
Fixpoint load (j : json) : res ov :=
  match j with
  | JNull => Ok ONone
  | JInt z => Ok (OInt z)
  | JFloat f => Ok (OFloat f)
  | JStr s => Ok (OStr s)
  | JList l => rbind (mapr load l) (fun l' => Ok (OList l'))
  | JObj o =>
      rbind (mapr (fun x => rbind (load (snd x)) (fun v => Ok (fst x, v))) o) (fun l =>
      bytes_json_decoder (fold_left (fun d x => oset (KS (fst x)) (snd x) d) l []))
  end.

(** data.py:147-150 export_response_collection, 143-144 import_response_collection: the field names
    are the keyword arguments; an unknown or missing one is a TypeError. *)
Definition export_response_collection (c : collection) : res json := dump (ODict (asdict_collection c)).
Definition field_names : list string :=
  ["version"; "config"; "status"; "pumps"; "chemistry"; "scg"; "color"; "date_time"]%string.
Definition import_response_collection (j : json) : res collection :=
  rbind (load j) (fun v =>
  match v with
  | ODict o =>
      match oget (KS "decoded_complete") o with
      | None => Err EType
      | Some data =>
          if forallb (fun x => match fst x with
                               | KS s => String.eqb s "decoded_complete" || existsb (String.eqb s) field_names
                               | KI _ => false end) o
          then Ok (make_collection data
                 (flat_map (fun n => match oget (KS n) o with Some x => [(n, x)] | None => [] end) field_names))
          else Err EType
      end
  | _ => Err EType
  end).
