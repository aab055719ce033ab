(** Model of the response decoders in /repo/screenlogicpy/requests.
    Each decoder is written in the state monad [DM]: the [data] dictionary is mutated in
    place and a raised exception keeps the mutations made so far.  Python local variables
    holding references to nested dictionaries become paths (see Py.upd_at).  Each
    [.._body] returns the final value of the Python local [offset]; the decoder itself
    returns nothing, as in the code. *)
From Verif Require Import Py F64 Struct Utf Utility Const Enum.
Open Scope dm_scope.

(** getSome / getString / getArray inside a decoder *)
Definition rd (f : fmt) (buff : bytes) (offset : Z) : DM (Z * Z) := dlift (getSome f buff offset).
Definition rds (buff : bytes) (offset : Z) : DM (pystr * Z) := dlift (getString buff offset).
Definition rda (buff : bytes) (offset : Z) : DM (list Z * Z) := dlift (getArray buff offset).

Definition dunit (m : DM Z) : DM unit := m ;;; dret tt.

(** [for i in range(n)] threading the offset *)
Fixpoint dloop (n : nat) (i : Z) (body : Z -> Z -> DM Z) (offset : Z) : DM Z :=
  match n with
  | O => dret offset
  | S n' => offset' <- body i offset ;; dloop n' (i + 1) body offset'
  end.

(** x.get(k, {}) followed by another .get: AttributeError when x is not a dict *)
Definition py_get (v : pv) (k : key) (default : pv) : res pv :=
  match v with
  | VDict d => Ok (match dget k d with Some x => x | None => default end)
  | _ => Err EAttribute
  end.

(** Python truthiness *)
Definition truthy (v : pv) : bool :=
  match v with
  | VNone => false
  | VInt z => negb (z =? 0)
  | VFloat (S754_zero _) => false
  | VFloat _ => true
  | VStr [] | VBytes [] | VList [] | VTuple [] | VDict [] => false
  | _ => true
  end.

(** utility.py:148-156 getTemperatureUnit *)
Definition getTemperatureUnit (data : dict) : res pv :=
  rbind (py_get (VDict data) DEVICE_CONTROLLER (VDict [])) (fun c =>
  rbind (py_get c GROUP_CONFIGURATION (VDict [])) (fun c =>
  rbind (py_get c VALUE_IS_CELSIUS (VDict [])) (fun c =>
  rbind (py_get c ATTR_VALUE VNone) (fun v =>
  Ok (VStr (if truthy v then UNIT_CELSIUS else UNIT_FAHRENHEIT)))))).

(** utility.py:159-160 getAdapterVersion *)
Definition getAdapterVersion (data : dict) : res pv :=
  rbind (py_get (VDict data) DEVICE_ADAPTER (VDict [])) (fun c =>
  rbind (py_get c VALUE_FIRMWARE (VDict [])) (fun c =>
  py_get c ATTR_MINOR VNone)).

Definition rdata {A} (f : dict -> res A) : DM A := d <- dread ;; dlift (f d).

Definition vs (s : string) : pv := VStr (u s).

(** ------------------------------------------------------------------ *)
(** status.py:29-231 decode_pool_status *)

Definition pCTL : path := [DEVICE_CONTROLLER].
Definition pCTLSENSOR : path := [DEVICE_CONTROLLER; GROUP_SENSOR].
Definition pCTLCONFIG : path := [DEVICE_CONTROLLER; GROUP_CONFIGURATION].

(** status.py:90-92  data.get(CONTROLLER, {}).get(CONFIGURATION, {}).get(BODY_TYPE) *)
Definition read_body_setpoints (data : dict) : res pv :=
  rbind (py_get (VDict data) DEVICE_CONTROLLER (VDict [])) (fun c =>
  rbind (py_get c GROUP_CONFIGURATION (VDict [])) (fun c =>
  py_get c ATTR_BODY_TYPE VNone)).

(** x[k] on a Python value: KeyError when absent, TypeError when not a dict *)
Definition py_item (v : pv) (k : key) : res pv :=
  match v with
  | VDict d => match dget k d with Some x => Ok x | None => Err EKey end
  | _ => Err EType
  end.

(** BODY_TYPE.parse(bodyType) on an int never raises: unknown values become POOL. *)
Definition body_type_of (bodyType : Z) : string * Z :=
  match parse BODY_TYPE (VInt bodyType) (Some 0) with
  | Ok (Some m) => m
  | _ => ("POOL"%string, 0)
  end.

(** status.py:104-107.  [body_setpoints] is a reference to a dictionary the decoder does
    not modify, so reading it before the loop is the same as reading it in the loop. *)
Definition status_body_setpoints (body_setpoints : pv) (bt : Z) (p : path) : DM unit :=
  if truthy body_setpoints then
    bts <- dlift (py_get body_setpoints (KI bt) VNone) ;;
    if truthy bts then
      mn <- dlift (py_item bts ATTR_MIN_SETPOINT) ;;
      assign p ATTR_MIN_SETPOINT mn ;;;
      mx <- dlift (py_item bts ATTR_MAX_SETPOINT) ;;
      assign p ATTR_MAX_SETPOINT mx
    else dret tt
  else dret tt.

(** status.py:97-150, one round of the body loop *)
Definition status_body (temperature_unit body_setpoints : pv) (buff : bytes) (i offset : Z) : DM Z :=
  setdefault [DEVICE_BODY] (KI i) (VDict []) ;;;
  let p := [DEVICE_BODY; KI i] in
  '(bodyType, offset) <- rd FI buff offset ;;
  let body_type := body_type_of bodyType in
  assign p ATTR_BODY_TYPE (VInt (snd body_type)) ;;;
  status_body_setpoints body_setpoints (snd body_type) p ;;;
  let body_name := base_title (fst body_type) in
  assign p ATTR_NAME (VStr body_name) ;;;
  '(lastTemp, offset) <- rd Fi buff offset ;;
  assign p VALUE_LAST_TEMPERATURE (VDict [
    (ATTR_NAME, VStr (u "Last " ++ body_name ++ u " Temperature"));
    (ATTR_VALUE, VInt lastTemp);
    (ATTR_UNIT, temperature_unit);
    (ATTR_DEVICE_TYPE, VStr DEVICE_TYPE_TEMPERATURE);
    (ATTR_STATE_TYPE, VStr STATE_TYPE_MEASUREMENT)]) ;;;
  '(heatStatus, offset) <- rd Fi buff offset ;;
  assign p VALUE_HEAT_STATE (VDict [
    (ATTR_NAME, VStr (body_name ++ u " Heat"));
    (ATTR_VALUE, VInt heatStatus);
    (ATTR_DEVICE_TYPE, VStr DEVICE_TYPE_ENUM);
    (ATTR_ENUM_OPTIONS, VList (titles HEAT_STATE))]) ;;;
  '(heatSetPoint, offset) <- rd Fi buff offset ;;
  assign p VALUE_HEAT_SETPOINT (VDict [
    (ATTR_NAME, VStr (body_name ++ u " Heat Set Point"));
    (ATTR_VALUE, VInt heatSetPoint);
    (ATTR_UNIT, temperature_unit);
    (ATTR_DEVICE_TYPE, VStr DEVICE_TYPE_TEMPERATURE)]) ;;;
  '(coolSetPoint, offset) <- rd Fi buff offset ;;
  assign p VALUE_COOL_SETPOINT (VDict [
    (ATTR_NAME, VStr (body_name ++ u " Cool Set Point"));
    (ATTR_VALUE, VInt coolSetPoint);
    (ATTR_UNIT, temperature_unit);
    (ATTR_DEVICE_TYPE, VStr DEVICE_TYPE_TEMPERATURE)]) ;;;
  '(heatMode, offset) <- rd Fi buff offset ;;
  assign p VALUE_HEAT_MODE (VDict [
    (ATTR_NAME, VStr (body_name ++ u " Heat Mode"));
    (ATTR_VALUE, VInt heatMode);
    (ATTR_DEVICE_TYPE, VStr DEVICE_TYPE_ENUM);
    (ATTR_ENUM_OPTIONS, VList heat_mode_titles)]) ;;;
  dret offset.

(** "if ATTR.CIRCUIT_ID not in circuit_indexed: circuit_indexed[CIRCUIT_ID] = id",
    status.py:161-162.  On a dict this is setdefault. *)
Definition status_circuit_id (p : path) (circuit_id : Z) : DM unit :=
  setdefault p ATTR_CIRCUIT_ID (VInt circuit_id).

(** the colour triple, status.py:166-173 and config.py:106-113 *)
Definition color_dict (cs cp cg : Z) : pv :=
  VDict [(ATTR_COLOR_SET, VInt cs); (ATTR_COLOR_POSITION, VInt cp); (ATTR_COLOR_STAGGER, VInt cg)].

(** status.py:157-178, one round of the circuit loop *)
Definition status_circuit (buff : bytes) (i offset : Z) : DM Z :=
  '(circuit_id, offset) <- rd FI buff offset ;;
  setdefault [DEVICE_CIRCUIT] (KI circuit_id) (VDict []) ;;;
  let p := [DEVICE_CIRCUIT; KI circuit_id] in
  status_circuit_id p circuit_id ;;;
  '(value, offset) <- rd FI buff offset ;;
  assign p ATTR_VALUE (VInt value) ;;;
  '(color_set, offset) <- rd FB buff offset ;;
  '(color_position, offset) <- rd FB buff offset ;;
  '(color_stagger, offset) <- rd FB buff offset ;;
  assign p GROUP_COLOR (color_dict color_set color_position color_stagger) ;;;
  setdefault p GROUP_CONFIGURATION (VDict []) ;;;
  '(delay, offset) <- rd FB buff offset ;;
  assign [DEVICE_CIRCUIT; KI circuit_id; GROUP_CONFIGURATION] ATTR_DELAY (VInt delay) ;;;
  dret offset.

(** status.py:180-231 *)
Definition status_tail (buff : bytes) (offset : Z) : DM Z :=
  '(pH, offset) <- rd Fi buff offset ;;
  assign pCTLSENSOR VALUE_PH (VDict [
    (ATTR_NAME, vs "pH"); (ATTR_VALUE, VFloat (zdivf pH 100));
    (ATTR_UNIT, VStr UNIT_PH); (ATTR_STATE_TYPE, VStr STATE_TYPE_MEASUREMENT)]) ;;;
  '(orp, offset) <- rd Fi buff offset ;;
  assign pCTLSENSOR VALUE_ORP (VDict [
    (ATTR_NAME, vs "ORP"); (ATTR_VALUE, VInt orp);
    (ATTR_UNIT, VStr UNIT_MILLIVOLT); (ATTR_STATE_TYPE, VStr STATE_TYPE_MEASUREMENT)]) ;;;
  '(saturation, offset) <- rd Fi buff offset ;;
  assign pCTLSENSOR VALUE_SATURATION (VDict [
    (ATTR_NAME, vs "Saturation Index"); (ATTR_VALUE, VFloat (zdivf saturation 100));
    (ATTR_UNIT, VStr UNIT_SATURATION_INDEX); (ATTR_STATE_TYPE, VStr STATE_TYPE_MEASUREMENT)]) ;;;
  '(saltPPM, offset) <- rd Fi buff offset ;;
  assign pCTLSENSOR VALUE_SALT_PPM (VDict [
    (ATTR_NAME, vs "Salt"); (ATTR_VALUE, VInt (saltPPM * 50));
    (ATTR_UNIT, VStr UNIT_PARTS_PER_MILLION); (ATTR_STATE_TYPE, VStr STATE_TYPE_MEASUREMENT)]) ;;;
  '(pHTank, offset) <- rd Fi buff offset ;;
  assign pCTLSENSOR VALUE_PH_SUPPLY_LEVEL (VDict [
    (ATTR_NAME, vs "pH Supply Level"); (ATTR_VALUE, VInt pHTank);
    (ATTR_STATE_TYPE, VStr STATE_TYPE_MEASUREMENT)]) ;;;
  '(orpTank, offset) <- rd Fi buff offset ;;
  assign pCTLSENSOR VALUE_ORP_SUPPLY_LEVEL (VDict [
    (ATTR_NAME, vs "ORP Supply Level"); (ATTR_VALUE, VInt orpTank);
    (ATTR_STATE_TYPE, VStr STATE_TYPE_MEASUREMENT)]) ;;;
  '(alert, offset) <- rd Fi buff offset ;;
  assign pCTLSENSOR VALUE_ACTIVE_ALERT (VDict [
    (ATTR_NAME, vs "Active Alert"); (ATTR_VALUE, VInt alert);
    (ATTR_DEVICE_TYPE, VStr DEVICE_TYPE_ALARM)]) ;;;
  dret offset.

(** status.py:30-83 *)
Definition status_head (buff : bytes) : DM (Z * pv) :=
  setdefault [] DEVICE_CONTROLLER (VDict []) ;;;
  setdefault pCTL GROUP_SENSOR (VDict []) ;;;
  '(state, offset) <- rd FI buff 0 ;;
  assign pCTLSENSOR VALUE_STATE (VDict [
    (ATTR_NAME, vs "Controller State"); (ATTR_VALUE, VInt state);
    (ATTR_DEVICE_TYPE, VStr DEVICE_TYPE_ENUM);
    (ATTR_ENUM_OPTIONS, VList (titles CONTROLLER_STATE))]) ;;;
  '(freezeMode, offset) <- rd FB buff offset ;;
  assign pCTLSENSOR VALUE_FREEZE_MODE (VDict [
    (ATTR_NAME, vs "Freeze Mode"); (ATTR_VALUE, VInt (on_off (Z.land freezeMode 8)))]) ;;;
  setdefault pCTL GROUP_CONFIGURATION (VDict []) ;;;
  '(remotes, offset) <- rd FB buff offset ;;
  assign pCTLCONFIG VALUE_REMOTES (VInt remotes) ;;;
  '(poolDelay, offset) <- rd FB buff offset ;;
  assign pCTLSENSOR VALUE_POOL_DELAY (VDict [
    (ATTR_NAME, vs "Pool Delay"); (ATTR_VALUE, VInt poolDelay)]) ;;;
  '(spaDelay, offset) <- rd FB buff offset ;;
  assign pCTLSENSOR VALUE_SPA_DELAY (VDict [
    (ATTR_NAME, vs "Spa Delay"); (ATTR_VALUE, VInt spaDelay)]) ;;;
  '(cleanerDelay, offset) <- rd FB buff offset ;;
  assign pCTLSENSOR VALUE_CLEANER_DELAY (VDict [
    (ATTR_NAME, vs "Cleaner Delay"); (ATTR_VALUE, VInt cleanerDelay)]) ;;;
  '(u9, offset1) <- rd FB buff offset ;;
  assign pCTLCONFIG (UNKNOWN offset) (VInt u9) ;;;
  '(u10, offset2) <- rd FB buff offset1 ;;
  assign pCTLCONFIG (UNKNOWN offset1) (VInt u10) ;;;
  '(u11, offset3) <- rd FB buff offset2 ;;
  assign pCTLCONFIG (UNKNOWN offset2) (VInt u11) ;;;
  temperature_unit <- rdata getTemperatureUnit ;;
  '(airTemp, offset) <- rd Fi buff offset3 ;;
  assign pCTLSENSOR VALUE_AIR_TEMPERATURE (VDict [
    (ATTR_NAME, vs "Air Temperature"); (ATTR_VALUE, VInt airTemp);
    (ATTR_UNIT, temperature_unit); (ATTR_DEVICE_TYPE, VStr DEVICE_TYPE_TEMPERATURE);
    (ATTR_STATE_TYPE, VStr STATE_TYPE_MEASUREMENT)]) ;;;
  dret (offset, temperature_unit).

(** status.py:29-231 *)
Definition status_body_all (buff : bytes) : DM Z :=
  '(offset, temperature_unit) <- status_head buff ;;
  '(bodiesCount, offset) <- rd FI buff offset ;;
  let bodiesCount := Z.min bodiesCount 2 in
  body_setpoints <- rdata read_body_setpoints ;;
  setdefault [] DEVICE_BODY (VDict []) ;;;
  offset <- dloop (Z.to_nat bodiesCount) 0 (status_body temperature_unit body_setpoints buff) offset ;;
  '(circuitCount, offset) <- rd FI buff offset ;;
  setdefault [] DEVICE_CIRCUIT (VDict []) ;;;
  offset <- dloop (Z.to_nat circuitCount) 0 (status_circuit buff) offset ;;
  status_tail buff offset.

Definition decode_pool_status (buff : bytes) : DM unit := dunit (status_body_all buff).

(** ------------------------------------------------------------------ *)
(** config.py:25-154 decode_pool_config *)

(** config.py:34-40, one round of the set point loop *)
Definition config_setpoint (buff : bytes) (i offset : Z) : DM Z :=
  setdefault [DEVICE_CONTROLLER; GROUP_CONFIGURATION; ATTR_BODY_TYPE] (KI i) (VDict []) ;;;
  let p := [DEVICE_CONTROLLER; GROUP_CONFIGURATION; ATTR_BODY_TYPE; KI i] in
  '(mn, offset) <- rd FB buff offset ;;
  assign p ATTR_MIN_SETPOINT (VInt mn) ;;;
  '(mx, offset) <- rd FB buff offset ;;
  assign p ATTR_MAX_SETPOINT (VInt mx) ;;;
  dret offset.

(** config.py:64-66: the 736.0 firmware mask.  [minor <= 736] on a non-number is a TypeError. *)
Definition mask_flags (minor : pv) (flags : Z) : res Z :=
  match minor with
  | VNone => Ok flags
  | _ => rbind (num_leb minor (VInt 736)) (fun b =>
         Ok (if b then Z.land flags EQUIPMENT_MASK_736 else flags))
  end.

(** config.py:85-123, one round of the circuit loop *)
Definition config_circuit (buff : bytes) (i offset : Z) : DM Z :=
  '(circuit_id, offset) <- rd Fi buff offset ;;
  setdefault [DEVICE_CIRCUIT] (KI circuit_id) (VDict []) ;;;
  let p := [DEVICE_CIRCUIT; KI circuit_id] in
  let pc := [DEVICE_CIRCUIT; KI circuit_id; GROUP_CONFIGURATION] in
  assign p ATTR_CIRCUIT_ID (VInt circuit_id) ;;;
  '(name, offset) <- rds buff offset ;;
  assign p ATTR_NAME (VStr name) ;;;
  setdefault p GROUP_CONFIGURATION (VDict []) ;;;
  '(name_index, offset) <- rd FB buff offset ;;
  assign pc ATTR_NAME_INDEX (VInt name_index) ;;;
  '(func, offset) <- rd FB buff offset ;;
  assign p ATTR_FUNCTION (VInt func) ;;;
  '(interface, offset) <- rd FB buff offset ;;
  assign p ATTR_INTERFACE (VInt interface) ;;;
  '(flags, offset) <- rd FB buff offset ;;
  assign pc VALUE_FLAGS (VInt flags) ;;;
  '(color_set, offset) <- rd FB buff offset ;;
  '(color_position, offset) <- rd FB buff offset ;;
  '(color_stagger, offset) <- rd FB buff offset ;;
  assign p GROUP_COLOR (color_dict color_set color_position color_stagger) ;;;
  '(device_id, offset) <- rd FB buff offset ;;
  assign p ATTR_DEVICE_ID (VInt device_id) ;;;
  '(runtime, offset) <- rd FH buff offset ;;
  assign pc ATTR_DEFAULT_RUNTIME (VInt runtime) ;;;
  '(x1, offset1) <- rd FB buff offset ;;
  assign pc (UNKNOWN offset) (VInt x1) ;;;
  '(x2, offset2) <- rd FB buff offset1 ;;
  assign pc (UNKNOWN offset1) (VInt x2) ;;;
  dret offset2.

(** config.py:128-141, the colour loop (the local list [colors] is the accumulator) *)
Fixpoint config_colors (n : nat) (buff : bytes) (offset : Z) (colors : list pv) : DM (list pv * Z) :=
  match n with
  | O => dret (colors, offset)
  | S n' =>
      '(colorName, offset) <- rds buff offset ;;
      '(rgbR, offset) <- rd FI buff offset ;;
      '(rgbG, offset) <- rd FI buff offset ;;
      '(rgbB, offset) <- rd FI buff offset ;;
      config_colors n' buff offset
        (colors ++ [VDict [(ATTR_NAME, VStr colorName);
                           (ATTR_VALUE, VTuple [VInt rgbR; VInt rgbG; VInt rgbB])]])
  end.

(** config.py:148-150, one round of the pump loop *)
Definition config_pump (buff : bytes) (i offset : Z) : DM Z :=
  setdefault [DEVICE_PUMP] (KI i) (VDict []) ;;;
  '(x, offset) <- rd FB buff offset ;;
  assign [DEVICE_PUMP; KI i] VALUE_DATA (VInt x) ;;;
  dret offset.

(** config.py:26-77 *)
Definition config_head (buff : bytes) : DM Z :=
  setdefault [] DEVICE_CONTROLLER (VDict []) ;;;
  '(controller_id, offset) <- rd FI buff 0 ;;
  assign pCTL VALUE_CONTROLLER_ID (VInt controller_id) ;;;
  setdefault pCTL GROUP_CONFIGURATION (VDict []) ;;;
  setdefault pCTLCONFIG ATTR_BODY_TYPE (VDict []) ;;;
  offset <- dloop 2 0 (config_setpoint buff) offset ;;
  '(degC, offset) <- rd FB buff offset ;;
  assign pCTLCONFIG VALUE_IS_CELSIUS (VDict [
    (ATTR_NAME, vs "Is Celsius"); (ATTR_VALUE, VInt degC)]) ;;;
  '(c_type, offset) <- rd FB buff offset ;;
  assign pCTLCONFIG VALUE_CONTROLLER_TYPE (VInt c_type) ;;;
  '(h_type, offset) <- rd FB buff offset ;;
  assign pCTLCONFIG VALUE_HARDWARE_TYPE (VInt h_type) ;;;
  assign pCTL VALUE_MODEL (VDict [
    (ATTR_NAME, vs "Model"); (ATTR_VALUE, VStr (model_from_type c_type h_type))]) ;;;
  '(cdata, offset) <- rd FB buff offset ;;
  assign pCTLCONFIG VALUE_CONTROLLER_DATA (VInt cdata) ;;;
  setdefault pCTL GROUP_EQUIPMENT (VDict []) ;;;
  '(equipFlags, offset) <- rd FI buff offset ;;
  minor <- rdata getAdapterVersion ;;
  equipFlags <- dlift (mask_flags minor equipFlags) ;;
  assign [DEVICE_CONTROLLER; GROUP_EQUIPMENT] VALUE_FLAGS (VInt equipFlags) ;;;
  assign [DEVICE_CONTROLLER; GROUP_EQUIPMENT] VALUE_LIST (VList (equipment_list equipFlags)) ;;;
  '(cname, offset) <- rds buff offset ;;
  assign pCTLCONFIG VALUE_DEFAULT_CIRCUIT_NAME (VStr cname) ;;;
  dret offset.

Definition config_body_all (buff : bytes) : DM Z :=
  offset <- config_head buff ;;
  '(circuitCount, offset) <- rd FI buff offset ;;
  assign pCTLCONFIG VALUE_CIRCUIT_COUNT (VInt circuitCount) ;;;
  setdefault [] DEVICE_CIRCUIT (VDict []) ;;;
  offset <- dloop (Z.to_nat circuitCount) 0 (config_circuit buff) offset ;;
  '(colorCount, offset) <- rd FI buff offset ;;
  assign pCTLCONFIG VALUE_COLOR_COUNT (VInt colorCount) ;;;
  '(colors, offset) <- config_colors (Z.to_nat colorCount) buff offset [] ;;
  assign pCTLCONFIG GROUP_COLOR (VList colors) ;;;
  setdefault [] DEVICE_PUMP (VDict []) ;;;
  offset <- dloop 8 0 (config_pump buff) offset ;;
  '(tab_flags, offset) <- rd FI buff offset ;;
  assign pCTLCONFIG VALUE_INTERFACE_TAB_FLAGS (VInt tab_flags) ;;;
  '(show_alarms, offset) <- rd FI buff offset ;;
  assign pCTLCONFIG VALUE_SHOW_ALARMS (VInt show_alarms) ;;;
  dret offset.

Definition decode_pool_config (buff : bytes) : DM unit := dunit (config_body_all buff).

(** ------------------------------------------------------------------ *)
(** chemistry.py:37-308 decode_chemistry *)
Definition pCHEM : path := [DEVICE_INTELLICHEM].
Definition pCHEMSENSOR : path := [DEVICE_INTELLICHEM; GROUP_SENSOR].
Definition pCHEMCONFIG : path := [DEVICE_INTELLICHEM; GROUP_CONFIGURATION].
Definition pCHEMDOSE : path := [DEVICE_INTELLICHEM; GROUP_DOSE_STATUS].
Definition pCHEMALARM : path := [DEVICE_INTELLICHEM; GROUP_ALARM].
Definition pCHEMALERT : path := [DEVICE_INTELLICHEM; GROUP_ALERT].
Definition pCHEMBALANCE : path := [DEVICE_INTELLICHEM; GROUP_WATER_BALANCE].

(** a measurement entry {name, value, unit, state_type: measurement} *)
Definition d_meas (name : string) (v : pv) (unit_ : pystr) : pv :=
  VDict [(ATTR_NAME, vs name); (ATTR_VALUE, v); (ATTR_UNIT, VStr unit_);
         (ATTR_STATE_TYPE, VStr STATE_TYPE_MEASUREMENT)].
(** a set point entry {name, value, unit, min_setpoint, max_setpoint} *)
Definition d_setp (name : string) (v : pv) (unit_ : pystr) (r : vrange) : pv :=
  VDict [(ATTR_NAME, vs name); (ATTR_VALUE, v); (ATTR_UNIT, VStr unit_);
         (ATTR_MIN_SETPOINT, r_min r); (ATTR_MAX_SETPOINT, r_max r)].
(** a dose total entry {name, value, unit, device_type, state_type: total_increasing} *)
Definition d_total (name : string) (v : pv) (unit_ dtype : pystr) : pv :=
  VDict [(ATTR_NAME, vs name); (ATTR_VALUE, v); (ATTR_UNIT, VStr unit_);
         (ATTR_DEVICE_TYPE, VStr dtype); (ATTR_STATE_TYPE, VStr STATE_TYPE_TOTAL_INCREASING)].
(** an alarm entry {name, value: ON_OFF.from_bool(flags & mask).value, device_type: alarm} *)
Definition d_alarm (name : string) (flags mask : Z) : pv :=
  VDict [(ATTR_NAME, vs name); (ATTR_VALUE, VInt (on_off (Z.land flags mask)));
         (ATTR_DEVICE_TYPE, VStr DEVICE_TYPE_ALARM)].
(** an alert entry {name, value: ON_OFF.from_bool(flags & mask).value} *)
Definition d_alert (name : string) (flags mask : Z) : pv :=
  VDict [(ATTR_NAME, vs name); (ATTR_VALUE, VInt (on_off (Z.land flags mask)))].
(** a dosing state entry {name, value, device_type: enum, enum_options} *)
Definition d_dose (name : string) (v : Z) : pv :=
  VDict [(ATTR_NAME, vs name); (ATTR_VALUE, VInt v); (ATTR_DEVICE_TYPE, VStr DEVICE_TYPE_ENUM);
         (ATTR_ENUM_OPTIONS, VList (titles DOSE_STATE))].

(** chemistry.py:136-142  (saturation - 256) / 100 if saturation & 0x80 else saturation / 100 *)
Definition chem_saturation (s : Z) : pv :=
  VFloat (if Z.land s 128 =? 0 then zdivf s 100 else zdivf (s - 256) 100).

(** chemistry.py:38-142 *)
Definition chem_part1 (buff : bytes) : DM Z :=
  setdefault [] DEVICE_INTELLICHEM (VDict []) ;;;
  '(u0, offset) <- rd FI buff 0 ;;
  assign pCHEM (UNKNOWN 0) (VInt u0) ;;;
  '(u4, offset1) <- rd FB buff offset ;;
  assign pCHEM (UNKNOWN offset) (VInt u4) ;;;
  setdefault pCHEM GROUP_SENSOR (VDict []) ;;;
  '(pH, offset) <- rd FbH buff offset1 ;;
  assign pCHEMSENSOR VALUE_PH_NOW (d_meas "pH Now" (VFloat (zdivf pH 100)) UNIT_PH) ;;;
  '(orp, offset) <- rd FbH buff offset ;;
  assign pCHEMSENSOR VALUE_ORP_NOW (d_meas "ORP Now" (VInt orp) UNIT_MILLIVOLT) ;;;
  setdefault pCHEM GROUP_CONFIGURATION (VDict []) ;;;
  '(pHSetpoint, offset) <- rd FbH buff offset ;;
  assign pCHEMCONFIG VALUE_PH_SETPOINT
    (d_setp "pH Setpoint" (VFloat (zdivf pHSetpoint 100)) UNIT_PH CHEM_RANGE_PH_SETPOINT) ;;;
  '(orpSetpoint, offset) <- rd FbH buff offset ;;
  assign pCHEMCONFIG VALUE_ORP_SETPOINT
    (d_setp "ORP Setpoint" (VInt orpSetpoint) UNIT_MILLIVOLT CHEM_RANGE_ORP_SETPOINT) ;;;
  setdefault pCHEM GROUP_DOSE_STATUS (VDict []) ;;;
  '(pHDoseTime, offset) <- rd FbI buff offset ;;
  assign pCHEMDOSE VALUE_PH_LAST_DOSE_TIME
    (d_total "Last pH Dose Time" (VInt pHDoseTime) UNIT_SECOND DEVICE_TYPE_DURATION) ;;;
  '(orpDoseTime, offset) <- rd FbI buff offset ;;
  assign pCHEMDOSE VALUE_ORP_LAST_DOSE_TIME
    (d_total "Last ORP Dose Time" (VInt orpDoseTime) UNIT_SECOND DEVICE_TYPE_DURATION) ;;;
  '(pHDoseVolume, offset) <- rd FbH buff offset ;;
  assign pCHEMDOSE VALUE_PH_LAST_DOSE_VOLUME
    (d_total "Last pH Dose Volume" (VInt pHDoseVolume) UNIT_MILLILITER DEVICE_TYPE_VOLUME) ;;;
  '(orpDoseVolume, offset) <- rd FbH buff offset ;;
  assign pCHEMDOSE VALUE_ORP_LAST_DOSE_VOLUME
    (d_total "Last ORP Dose Volume" (VInt orpDoseVolume) UNIT_MILLILITER DEVICE_TYPE_VOLUME) ;;;
  '(pHSupplyLevel, offset) <- rd FB buff offset ;;
  assign pCHEMSENSOR VALUE_PH_SUPPLY_LEVEL (VDict [
    (ATTR_NAME, vs "pH Supply Level"); (ATTR_VALUE, VInt pHSupplyLevel);
    (ATTR_STATE_TYPE, VStr STATE_TYPE_MEASUREMENT)]) ;;;
  '(orpSupplyLevel, offset) <- rd FB buff offset ;;
  assign pCHEMSENSOR VALUE_ORP_SUPPLY_LEVEL (VDict [
    (ATTR_NAME, vs "ORP Supply Level"); (ATTR_VALUE, VInt orpSupplyLevel);
    (ATTR_STATE_TYPE, VStr STATE_TYPE_MEASUREMENT)]) ;;;
  '(saturation, offset) <- rd FB buff offset ;;
  assign pCHEMSENSOR VALUE_SATURATION
    (d_meas "Saturation Index" (chem_saturation saturation) UNIT_SATURATION_INDEX) ;;;
  dret offset.

(** chemistry.py:144-194 *)
Definition chem_part2 (buff : bytes) (offset : Z) : DM Z :=
  '(cal, offset) <- rd FbH buff offset ;;
  assign pCHEMCONFIG VALUE_CALCIUM_HARDNESS
    (d_setp "Calcium Hardness" (VInt cal) UNIT_PARTS_PER_MILLION CHEM_RANGE_CALCIUM_HARDNESS) ;;;
  '(cya, offset) <- rd FbH buff offset ;;
  assign pCHEMCONFIG VALUE_CYA
    (d_setp "Cyanuric Acid" (VInt cya) UNIT_PARTS_PER_MILLION CHEM_RANGE_CYANURIC_ACID) ;;;
  '(alk, offset) <- rd FbH buff offset ;;
  assign pCHEMCONFIG VALUE_TOTAL_ALKALINITY
    (d_setp "Total Alkalinity" (VInt alk) UNIT_PARTS_PER_MILLION CHEM_RANGE_TOTAL_ALKALINITY) ;;;
  '(saltPPM, offset) <- rd FB buff offset ;;
  assign pCHEMCONFIG VALUE_SALT_TDS_PPM
    (d_setp "Salt/TDS" (VInt (saltPPM * 50)) UNIT_PARTS_PER_MILLION CHEM_RANGE_SALT_TDS) ;;;
  '(probe, offset) <- rd FB buff offset ;;
  assign pCHEMCONFIG VALUE_PROBE_IS_CELSIUS (VInt probe) ;;;
  temperature_unit <- rdata getTemperatureUnit ;;
  '(waterTemp, offset) <- rd FB buff offset ;;
  assign pCHEMSENSOR VALUE_PH_PROBE_WATER_TEMP (VDict [
    (ATTR_NAME, vs "pH Probe Water Temperature"); (ATTR_VALUE, VInt waterTemp);
    (ATTR_UNIT, temperature_unit); (ATTR_DEVICE_TYPE, VStr DEVICE_TYPE_TEMPERATURE);
    (ATTR_STATE_TYPE, VStr STATE_TYPE_MEASUREMENT)]) ;;;
  dret offset.

(** chemistry.py:196-240 *)
Definition chem_part3 (buff : bytes) (offset : Z) : DM Z :=
  setdefault pCHEM GROUP_ALARM (VDict []) ;;;
  '(alarms, offset) <- rd FB buff offset ;;
  assign pCHEMALARM VALUE_FLAGS (VInt alarms) ;;;
  assign pCHEMALARM VALUE_FLOW_ALARM (d_alarm "Flow Alarm" alarms ALARM_FLAG_FLOW) ;;;
  assign pCHEMALARM VALUE_PH_HIGH_ALARM (d_alarm "pH HIGH Alarm" alarms ALARM_FLAG_PH_HIGH) ;;;
  assign pCHEMALARM VALUE_PH_LOW_ALARM (d_alarm "pH LOW Alarm" alarms ALARM_FLAG_PH_LOW) ;;;
  assign pCHEMALARM VALUE_ORP_HIGH_ALARM (d_alarm "ORP HIGH Alarm" alarms ALARM_FLAG_ORP_HIGH) ;;;
  assign pCHEMALARM VALUE_ORP_LOW_ALARM (d_alarm "ORP LOW Alarm" alarms ALARM_FLAG_ORP_LOW) ;;;
  assign pCHEMALARM VALUE_PH_SUPPLY_ALARM (d_alarm "pH Supply Alarm" alarms ALARM_FLAG_PH_SUPPLY) ;;;
  assign pCHEMALARM VALUE_ORP_SUPPLY_ALARM (d_alarm "ORP Supply Alarm" alarms ALARM_FLAG_ORP_SUPPLY) ;;;
  assign pCHEMALARM VALUE_PROBE_FAULT_ALARM (d_alarm "Probe Fault" alarms ALARM_FLAG_PROBE_FAULT) ;;;
  dret offset.

(** chemistry.py:242-308 *)
Definition chem_part4 (buff : bytes) (offset : Z) : DM Z :=
  setdefault pCHEM GROUP_ALERT (VDict []) ;;;
  '(alerts, offset) <- rd FB buff offset ;;
  assign pCHEMALERT VALUE_FLAGS (VInt alerts) ;;;
  assign pCHEMALERT VALUE_PH_LOCKOUT (d_alert "pH Lockout" alerts ALERT_FLAG_PH_LOCKOUT) ;;;
  assign pCHEMALERT VALUE_PH_LIMIT (d_alert "pH Dose Limit Reached" alerts ALERT_FLAG_PH_LIMIT) ;;;
  assign pCHEMALERT VALUE_ORP_LIMIT (d_alert "ORP Dose Limit Reached" alerts ALERT_FLAG_ORP_LIMIT) ;;;
  '(dose_flags, offset) <- rd FB buff offset ;;
  assign pCHEMDOSE VALUE_FLAGS (VInt dose_flags) ;;;
  assign pCHEMDOSE VALUE_PH_DOSING_STATE
    (d_dose "pH Dosing State" (Z.shiftr (Z.land dose_flags DOSE_MASK_PH_STATE) 4)) ;;;
  assign pCHEMDOSE VALUE_ORP_DOSING_STATE
    (d_dose "ORP Dosing State" (Z.shiftr (Z.land dose_flags DOSE_MASK_ORP_STATE) 6)) ;;;
  '(config_flags, offset) <- rd FB buff offset ;;
  assign pCHEMCONFIG VALUE_FLAGS (VInt config_flags) ;;;
  '(vMinor, offset) <- rd FB buff offset ;;
  '(vMajor, offset) <- rd FB buff offset ;;
  assign pCHEM VALUE_FIRMWARE (VDict [
    (ATTR_NAME, vs "IntelliChem Firmware");
    (ATTR_VALUE, vs (string_of_Z vMajor ++ "." ++ zpad 3 (string_of_Z vMinor))%string);
    (ATTR_MAJOR, VInt vMajor); (ATTR_MINOR, VInt vMinor)]) ;;;
  setdefault pCHEM GROUP_WATER_BALANCE (VDict []) ;;;
  '(balance_flags, offset) <- rd FB buff offset ;;
  assign pCHEMBALANCE VALUE_FLAGS (VInt balance_flags) ;;;
  assign pCHEMBALANCE VALUE_CORROSIVE (d_alarm "SI Corrosive" balance_flags BALANCE_FLAG_CORROSIVE) ;;;
  assign pCHEMBALANCE VALUE_SCALING (d_alarm "SI Scaling" balance_flags BALANCE_FLAG_SCALING) ;;;
  '(u44, offset1) <- rd FB buff offset ;;
  assign pCHEM (UNKNOWN offset) (VInt u44) ;;;
  '(u45, offset2) <- rd FB buff offset1 ;;
  assign pCHEM (UNKNOWN offset1) (VInt u45) ;;;
  '(u46, offset3) <- rd FB buff offset2 ;;
  assign pCHEM (UNKNOWN offset2) (VInt u46) ;;;
  dret offset3.

Definition chem_body_all (buff : bytes) : DM Z :=
  offset <- chem_part1 buff ;;
  offset <- chem_part2 buff offset ;;
  offset <- chem_part3 buff offset ;;
  chem_part4 buff offset.

Definition decode_chemistry (buff : bytes) : DM unit := dunit (chem_body_all buff).

(** ------------------------------------------------------------------ *)
(** pump.py:21-88 decode_pump_status *)

(** pump.py:54-61: the scan over data[CIRCUIT].values().  [circuit[DEVICE_ID]] is evaluated
    for every circuit until the break; KeyError if it is missing (TypeError when the
    entry is not a dict).  [name] is "Default" or a circuit name taken earlier. *)
Fixpoint pump_find (did : Z) (name : pv) (circuits : list pv) : res pv :=
  match circuits with
  | [] => Ok name
  | c :: cs =>
      rbind (py_item c ATTR_DEVICE_ID) (fun x =>
      if num_eqb x did && match name with VStr s => pystr_eqb s (u "Default") | _ => false end
      then py_item c ATTR_NAME
      else pump_find did name cs)
  end.

(** pump.py:53-54: "if DEVICE.CIRCUIT in data: for circuit in data[DEVICE.CIRCUIT].values()" *)
Definition pump_name_step (did : Z) (name : pv) (data : dict) : res pv :=
  match dget DEVICE_CIRCUIT data with
  | None => Ok name
  | Some (VDict cs) => pump_find did name (dvalues cs)
  | Some _ => Err EAttribute
  end.

(** pump.py:50-63, the preset loop; threads [name] and [offset] *)
Fixpoint pump_presets (n : nat) (i : Z) (pump_index : Z) (buff : bytes) (name : pv) (offset : Z)
  : DM (pv * Z) :=
  match n with
  | O => dret (name, offset)
  | S n' =>
      setdefault [DEVICE_PUMP; KI pump_index; VALUE_PRESET] (KI i) (VDict []) ;;;
      let p := [DEVICE_PUMP; KI pump_index; VALUE_PRESET; KI i] in
      '(did, offset) <- rd FI buff offset ;;
      assign p ATTR_DEVICE_ID (VInt did) ;;;
      name <- rdata (pump_name_step did name) ;;
      '(sp, offset) <- rd FI buff offset ;;
      assign p ATTR_SETPOINT (VInt sp) ;;;
      '(rpm, offset) <- rd FI buff offset ;;
      assign p ATTR_IS_RPM (VInt rpm) ;;;
      pump_presets n' (i + 1) pump_index buff name offset
  end.

(** pump.py:65: name.strip().strip(",") + " Pump"; AttributeError when not a str *)
Definition pump_name (name : pv) : res pystr :=
  match name with
  | VStr s => Ok (strip (fun c => c =? 44) (strip is_space s) ++ u " Pump")
  | _ => Err EAttribute
  end.

Definition pump_body_all (buff : bytes) (pump_index : Z) : DM Z :=
  let p := [DEVICE_PUMP; KI pump_index] in
  setdefault [] DEVICE_PUMP (VDict []) ;;;
  setdefault [DEVICE_PUMP] (KI pump_index) (VDict []) ;;;
  '(ty, offset) <- rd FI buff 0 ;;
  assign p VALUE_TYPE (VInt ty) ;;;
  '(pump_state, offset) <- rd FI buff offset ;;
  setdefault p VALUE_STATE (VDict [(ATTR_NAME, VStr []); (ATTR_VALUE, VInt 0)]) ;;;
  (if Z.land pump_state 2147483648 =? 0
   then assign [DEVICE_PUMP; KI pump_index; VALUE_STATE] ATTR_VALUE (VInt pump_state)
   else dret tt) ;;;
  '(curW, offset) <- rd FI buff offset ;;
  assign p VALUE_WATTS_NOW (VDict []) ;;;
  '(curR, offset) <- rd FI buff offset ;;
  assign p VALUE_RPM_NOW (VDict []) ;;;
  '(u16, offset1) <- rd FI buff offset ;;
  assign p (UNKNOWN offset) (VInt u16) ;;;
  '(curG, offset) <- rd FI buff offset1 ;;
  assign p VALUE_GPM_NOW (VDict []) ;;;
  '(u24, offset2) <- rd FI buff offset ;;
  assign p (UNKNOWN offset) (VInt u24) ;;;
  setdefault p VALUE_PRESET (VDict []) ;;;
  '(name, offset) <- pump_presets 8 0 pump_index buff (vs "Default") offset2 ;;
  name <- dlift (pump_name name) ;;
  assign [DEVICE_PUMP; KI pump_index; VALUE_STATE] ATTR_NAME (VStr name) ;;;
  assign p VALUE_WATTS_NOW (VDict [
    (ATTR_NAME, VStr (name ++ u " Watts Now")); (ATTR_VALUE, VInt curW);
    (ATTR_UNIT, VStr UNIT_WATT); (ATTR_DEVICE_TYPE, VStr DEVICE_TYPE_POWER);
    (ATTR_STATE_TYPE, VStr STATE_TYPE_MEASUREMENT)]) ;;;
  assign p VALUE_RPM_NOW (VDict [
    (ATTR_NAME, VStr (name ++ u " RPM Now")); (ATTR_VALUE, VInt curR);
    (ATTR_UNIT, VStr UNIT_REVOLUTIONS_PER_MINUTE);
    (ATTR_STATE_TYPE, VStr STATE_TYPE_MEASUREMENT)]) ;;;
  assign p VALUE_GPM_NOW (VDict [
    (ATTR_NAME, VStr (name ++ u " GPM Now")); (ATTR_VALUE, VInt curG);
    (ATTR_UNIT, VStr UNIT_GALLONS_PER_MINUTE);
    (ATTR_STATE_TYPE, VStr STATE_TYPE_MEASUREMENT)]) ;;;
  dret offset.

Definition decode_pump_status (buff : bytes) (pump_index : Z) : DM unit :=
  dunit (pump_body_all buff pump_index).

(** ------------------------------------------------------------------ *)
(** scg.py:23-82 decode_scg_config *)
Definition pSCG : path := [DEVICE_SCG].
Definition pSCGSENSOR : path := [DEVICE_SCG; GROUP_SENSOR].
Definition pSCGCONFIG : path := [DEVICE_SCG; GROUP_CONFIGURATION].

Definition scg_body_all (buff : bytes) : DM Z :=
  setdefault [] DEVICE_SCG (VDict []) ;;;
  '(present, offset) <- rd FI buff 0 ;;
  assign pSCG VALUE_SCG_PRESENT (VInt present) ;;;
  setdefault pSCG GROUP_SENSOR (VDict []) ;;;
  '(state, offset) <- rd FI buff offset ;;
  assign pSCGSENSOR VALUE_STATE (VDict [
    (ATTR_NAME, vs "Chlorinator");
    (ATTR_VALUE, VInt (on_off (Z.land state STATUS_FLAG_SCG_ACTIVE)))]) ;;;
  setdefault pSCG GROUP_CONFIGURATION (VDict []) ;;;
  '(level1, offset) <- rd FI buff offset ;;
  assign pSCGCONFIG VALUE_POOL_SETPOINT (VDict [
    (ATTR_NAME, vs "Pool Chlorinator Setpoint"); (ATTR_VALUE, VInt level1);
    (ATTR_UNIT, VStr UNIT_PERCENT);
    (ATTR_MIN_SETPOINT, r_min SCG_RANGE_POOL_SETPOINT);
    (ATTR_MAX_SETPOINT, r_max SCG_RANGE_POOL_SETPOINT);
    (ATTR_STEP, VInt 1); (ATTR_BODY_TYPE, VInt BODY_TYPE_POOL)]) ;;;
  '(level2, offset) <- rd FI buff offset ;;
  assign pSCGCONFIG VALUE_SPA_SETPOINT (VDict [
    (ATTR_NAME, vs "Spa Chlorinator Setpoint"); (ATTR_VALUE, VInt level2);
    (ATTR_UNIT, VStr UNIT_PERCENT);
    (ATTR_MIN_SETPOINT, r_min SCG_RANGE_SPA_SETPOINT);
    (ATTR_MAX_SETPOINT, r_max SCG_RANGE_SPA_SETPOINT);
    (ATTR_STEP, VInt 1); (ATTR_BODY_TYPE, VInt BODY_TYPE_SPA)]) ;;;
  '(salt, offset) <- rd FI buff offset ;;
  assign pSCGSENSOR VALUE_SALT_PPM (d_meas "Chlorinator Salt" (VInt (salt * 50)) UNIT_PARTS_PER_MILLION) ;;;
  '(flags, offset) <- rd FI buff offset ;;
  assign pSCG VALUE_FLAGS (VInt flags) ;;;
  assign pSCG VALUE_SUPER_CHLORINATE (VDict [
    (ATTR_NAME, vs "Super Chlorinate");
    (ATTR_VALUE, VInt (on_off (Z.land flags STATE_FLAG_SUPER_CHLORINATE)))]) ;;;
  '(superChlorTimer, offset) <- rd FI buff offset ;;
  assign pSCGCONFIG VALUE_SUPER_CHLOR_TIMER (VDict [
    (ATTR_NAME, vs "Super Chlorination Timer"); (ATTR_VALUE, VInt superChlorTimer);
    (ATTR_UNIT, VStr UNIT_HOUR);
    (ATTR_MIN_SETPOINT, r_min SCG_RANGE_SUPER_CHLOR_RT);
    (ATTR_MAX_SETPOINT, r_max SCG_RANGE_SUPER_CHLOR_RT);
    (ATTR_STEP, VInt 1)]) ;;;
  dret offset.

Definition decode_scg_config (buff : bytes) : DM unit := dunit (scg_body_all buff).

(** ------------------------------------------------------------------ *)
(** requests/gateway.py:18-27 decode_version.  [py_float] is float(str): an oracle,
    None = ValueError. *)
Definition py_index {A} (l : list A) (n : nat) : res A :=
  match nth_error l n with Some x => Ok x | None => Err EIndex end.
Definition py_float_of (py_float : pystr -> option spec_float) (s : pystr) : res spec_float :=
  match py_float s with Some f => Ok f | None => Err EValue end.

Definition decode_version (py_float : pystr -> option spec_float) (buff : bytes) : DM unit :=
  setdefault [] DEVICE_ADAPTER (VDict []) ;;;
  firmware <- dlift (decodeMessageString buff) ;;
  let fw_parts := split firmware in
  major <- dlift (rbind (py_index fw_parts 1) (py_float_of py_float)) ;;
  minor <- dlift (rbind (py_index fw_parts 3) (py_float_of py_float)) ;;
  assign [DEVICE_ADAPTER] VALUE_FIRMWARE (VDict [
    (ATTR_NAME, vs "Protocol Adapter Firmware"); (ATTR_VALUE, VStr firmware);
    (ATTR_MAJOR, VFloat major); (ATTR_MINOR, VFloat minor)]).

(** ------------------------------------------------------------------ *)
(** datetime.timestamp() of an aware (UTC) datetime: (self - epoch).total_seconds() =
    (days * 86400 + seconds) * 10**6 + microseconds) / 10**6.  719163 = date(1970,1,1).toordinal(). *)
Definition dt_micros (t : datetime) : Z :=
  ((ymd2ord (dt_year t) (dt_month t) (dt_day t) - 719163) * 86400
   + dt_hour t * 3600 + dt_minute t * 60 + dt_second t) * 1000000 + dt_micro t.
Definition dt_timestamp (t : datetime) : spec_float := zdivf (dt_micros t) 1000000.

(** requests/datetime.py:22-37 decode_date_time; [host] = datetime.now(utc).timestamp() (clock oracle) *)
Definition pDATETIME : path := [DEVICE_CONTROLLER; GROUP_DATE_TIME].
Definition datetime_body (host : spec_float) (buff : bytes) : DM Z :=
  setdefault [] DEVICE_CONTROLLER (VDict []) ;;;
  setdefault pCTL GROUP_DATE_TIME (VDict []) ;;;
  '(dt, offset) <- dlift (getTime buff 0) ;;
  assign pDATETIME VALUE_TIMESTAMP (VFloat (dt_timestamp dt)) ;;;
  assign pDATETIME VALUE_TIMESTAMP_HOST (VFloat host) ;;;
  '(auto_dst, offset) <- rd FI buff offset ;;
  assign pDATETIME VALUE_AUTO_DST (VDict [
    (ATTR_NAME, vs "Automatic Daylight Saving Time"); (ATTR_VALUE, VInt auto_dst)]) ;;;
  dret offset.
Definition decode_date_time (host : spec_float) (buff : bytes) : DM unit :=
  dunit (datetime_body host buff).

(** ------------------------------------------------------------------ *)
(** lights.py:27-38 decode_color_update *)
Definition pCOLOR : path := [DEVICE_CONTROLLER; GROUP_COLOR_LIGHTS].
Definition color_body (buff : bytes) : DM Z :=
  setdefault [] DEVICE_CONTROLLER (VDict []) ;;;
  setdefault pCTL GROUP_COLOR_LIGHTS (VDict []) ;;;
  '(mode, offset) <- rd FI buff 0 ;;
  assign pCOLOR ATTR_COLOR_MODE (VInt mode) ;;;
  '(progress, offset) <- rd FI buff offset ;;
  assign pCOLOR ATTR_PROGRESS (VInt progress) ;;;
  '(limit, offset) <- rd FI buff offset ;;
  assign pCOLOR ATTR_LIMIT (VInt limit) ;;;
  '(text, offset) <- rds buff offset ;;
  assign pCOLOR ATTR_TEXT (VStr text) ;;;
  dret offset.
Definition decode_color_update (buff : bytes) : DM unit := dunit (color_body buff).

(** ------------------------------------------------------------------ *)
(** equipment.py:19-40 decode_equipment_config *)
Definition pEQUIP : path := [KS "equipment"].
Definition equip_array (k : string) (buff : bytes) (offset : Z) : DM Z :=
  '(l, offset) <- rda buff offset ;;
  assign pEQUIP (KS k) (VList (map VInt l)) ;;;
  dret offset.
Definition equipment_body (buff : bytes) : DM Z :=
  setdefault [] (KS "equipment") (VDict []) ;;;
  '(ct, offset) <- rd FB buff 0 ;;
  assign pEQUIP (KS "controllerType") (VInt ct) ;;;
  '(ht, offset) <- rd FB buff offset ;;
  assign pEQUIP (KS "hardwareType") (VInt ht) ;;;
  '(x2, offset1) <- rd FB buff offset ;;
  assign pEQUIP (UNKNOWN offset) (VInt x2) ;;;
  '(x3, offset2) <- rd FB buff offset1 ;;
  assign pEQUIP (UNKNOWN offset1) (VInt x3) ;;;
  '(cd, offset) <- rd FI buff offset2 ;;
  assign pEQUIP (KS "controllerData") (VInt cd) ;;;
  offset <- equip_array "versionDataArray" buff offset ;;
  offset <- equip_array "speedDataArray" buff offset ;;
  offset <- equip_array "valveDataArray" buff offset ;;
  offset <- equip_array "remoteDataArray" buff offset ;;
  offset <- equip_array "sensorDataArray" buff offset ;;
  offset <- equip_array "delayDataArray" buff offset ;;
  offset <- equip_array "macrosDataArray" buff offset ;;
  offset <- equip_array "miscDataArray" buff offset ;;
  offset <- equip_array "lightDataArray" buff offset ;;
  offset <- equip_array "flowsDataArray" buff offset ;;
  offset <- equip_array "sgsDataArray" buff offset ;;
  equip_array "spaFlowsDataArray" buff offset.
Definition decode_equipment_config (buff : bytes) : DM unit := dunit (equipment_body buff).
