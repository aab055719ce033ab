(** The shape of the [data] dictionary the decoders rely on: which places hold dictionaries.
    Specification vocabulary for the decoder theorems (C27-C42).  Derived from the uses in
    /repo/screenlogicpy/requests: every place a decoder indexes into, and the firmware minor
    version, which config.py:65 compares with a number. *)
From Verif Require Import Py F64 Const Decode.

(** one step of a pattern: a fixed key, or any integer key *)
Inductive pat := PK (k : key) | PAny.
(** what a place must hold when it is present: [KCont] a dictionary the decoders write into,
    [KDict] a dictionary that is only read or replaced as a whole, [KNum] a number *)
Inductive kd := KCont | KDict | KNum.

Definition ksp (l : list key) : list pat := map PK l.

Definition table : list (list pat * kd) :=
  [ ([], KCont);
    (ksp [DEVICE_CONTROLLER], KCont);
    (ksp [DEVICE_CONTROLLER; GROUP_SENSOR], KCont);
    (ksp [DEVICE_CONTROLLER; GROUP_CONFIGURATION], KCont);
    (ksp [DEVICE_CONTROLLER; GROUP_CONFIGURATION; ATTR_BODY_TYPE], KCont);
    (ksp [DEVICE_CONTROLLER; GROUP_CONFIGURATION; ATTR_BODY_TYPE] ++ [PAny], KCont);
    (ksp [DEVICE_CONTROLLER; GROUP_CONFIGURATION; VALUE_IS_CELSIUS], KDict);
    (ksp [DEVICE_CONTROLLER; GROUP_EQUIPMENT], KCont);
    (ksp [DEVICE_CONTROLLER; GROUP_DATE_TIME], KCont);
    (ksp [DEVICE_CONTROLLER; GROUP_COLOR_LIGHTS], KCont);
    (ksp [DEVICE_BODY], KCont);
    (ksp [DEVICE_BODY] ++ [PAny], KCont);
    (ksp [DEVICE_CIRCUIT], KCont);
    (ksp [DEVICE_CIRCUIT] ++ [PAny], KCont);
    (ksp [DEVICE_CIRCUIT] ++ [PAny; PK GROUP_CONFIGURATION], KCont);
    (ksp [DEVICE_PUMP], KCont);
    (ksp [DEVICE_PUMP] ++ [PAny], KCont);
    (ksp [DEVICE_PUMP] ++ [PAny; PK VALUE_STATE], KCont);
    (ksp [DEVICE_PUMP] ++ [PAny; PK VALUE_PRESET], KCont);
    (ksp [DEVICE_PUMP] ++ [PAny; PK VALUE_PRESET; PAny], KCont);
    (ksp [DEVICE_INTELLICHEM], KCont);
    (ksp [DEVICE_INTELLICHEM; GROUP_SENSOR], KCont);
    (ksp [DEVICE_INTELLICHEM; GROUP_CONFIGURATION], KCont);
    (ksp [DEVICE_INTELLICHEM; GROUP_DOSE_STATUS], KCont);
    (ksp [DEVICE_INTELLICHEM; GROUP_ALARM], KCont);
    (ksp [DEVICE_INTELLICHEM; GROUP_ALERT], KCont);
    (ksp [DEVICE_INTELLICHEM; GROUP_WATER_BALANCE], KCont);
    (ksp [DEVICE_SCG], KCont);
    (ksp [DEVICE_SCG; GROUP_SENSOR], KCont);
    (ksp [DEVICE_SCG; GROUP_CONFIGURATION], KCont);
    (ksp [DEVICE_ADAPTER], KCont);
    (ksp [DEVICE_ADAPTER; VALUE_FIRMWARE], KDict);
    (ksp [DEVICE_ADAPTER; VALUE_FIRMWARE; ATTR_MINOR], KNum);
    (ksp [KS "equipment"], KCont) ].

Definition okkd (k : kd) (v : pv) : bool :=
  match k, v with
  | KCont, VDict _ | KDict, VDict _ | KNum, VInt _ | KNum, VFloat _ => true
  | _, _ => false
  end.

Fixpoint matchp (r : list pat) (q : path) : bool :=
  match r, q with
  | [], [] => true
  | PK k :: r', a :: q' => key_eqb k a && matchp r' q'
  | PAny :: r', KI _ :: q' => matchp r' q'
  | _, _ => false
  end.

(** Well-shaped data: every place named in the table holds, if present, what it should. *)
Definition Shape (d : dict) : Prop :=
  forall r k q v, In (r, k) table -> matchp r q = true -> dpget q d = Some v -> okkd k v = true.
