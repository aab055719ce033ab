(** Specification vocabulary for the data tree: what a path of keys leads to.  Used in
    theorem statements only. *)
From Verif Require Import Py.

(** [v] is stored under [k]: the first entry with that key, as in a Python dict *)
Definition entry (d : dict) (k : key) (v : pv) : Prop :=
  exists d1 d2, d = d1 ++ (k, v) :: d2 /\ ~ In k (map fst d1).

(** following a path through dicts (by key) and lists (by index); a stored None counts as
    nothing stored *)
Inductive leads : pv -> path -> pv -> Prop :=
| leads_here v : leads v [] v
| leads_dict d k v p x : entry d k v -> v <> VNone -> leads v p x -> leads (VDict d) (k :: p) x
| leads_list l i v p x : 0 <= i -> nth_error l (Z.to_nat i) = Some v -> v <> VNone ->
    leads v p x -> leads (VList l) (KI i :: p) x.

(** the value an API call uses for an optional argument: the one given, or else the one
    the controller reported *)
Definition chosen (arg : option pv) (d : dict) (p : path) (v : pv) : Prop :=
  match arg with Some a => v = a | None => leads (VDict d) p v end.

(** messages a gateway may send while (re)connecting: challenge, login, version,
    configuration, add client, remove client *)
Definition connecting (code : Z) : Prop := In code [14; 27; 8120; 12532; 12522; 12524].

(** an item number listed in a section of the data *)
Definition listed (d : dict) (section : key) (id : Z) : Prop :=
  exists m v, entry d section (VDict m) /\ entry m (KI id) v.
Definition is_number (v : pv) : Prop := match v with VInt _ | VFloat _ => True | _ => False end.
