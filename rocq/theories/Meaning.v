(** Specification: what each decoded message must leave in the data, written with the
    literal key names a user passes to get_data.  Used only in theorem statements. *)
From Verif Require Import Py F64 Utf Decode Spec Messages.

Definition fact : Type := path * pv.
Definition at1 (a : string) (v : pv) : fact := ([KS a], v).
Definition at2 (a b : string) (v : pv) : fact := ([KS a; KS b], v).
Definition at3 (a b c : string) (v : pv) : fact := ([KS a; KS b; KS c], v).
Definition at4 (a b c e : string) (v : pv) : fact := ([KS a; KS b; KS c; KS e], v).

(** a text without its leading and trailing NULs *)
Fixpoint drop_nuls (s : pystr) : pystr := match s with 0 :: s' => drop_nuls s' | _ => s end.
Definition trim (s : pystr) : pystr := rev (drop_nuls (rev (drop_nuls s))).
Definition text (n : wname) : pv := VStr (trim (snd n)).

(** x / 100 as the nearest binary64 number *)
Definition hundredths (x : Z) : pv := VFloat (zdivf x 100).
(** a byte read as a signed number *)
Definition signed8 (x : Z) : Z := if x <? 128 then x else x - 256.

(** the controller's temperature unit according to the data: degrees Celsius iff the stored
    is_celsius value is there and true in the Python sense (for a number: not zero) *)
Definition temp_unit (d : dict) : pv :=
  match dpget [KS "controller"; KS "configuration"; KS "is_celsius"; KS "value"] d with
  | Some v => if truthy v then VStr [176; 67] else VStr [176; 70]
  | None => VStr [176; 70]
  end.

(** ---- status (C27) ---- *)
Definition status_facts (unit_ : pv) (m : status_msg) : list fact :=
  [ at4 "controller" "sensor" "state" "value" (VInt (s_state m));
    at4 "controller" "sensor" "freeze_mode" "value" (VInt (bit (s_freeze m) 3));
    at3 "controller" "configuration" "remotes" (VInt (s_remotes m));
    at4 "controller" "sensor" "pool_delay" "value" (VInt (s_pool_delay m));
    at4 "controller" "sensor" "spa_delay" "value" (VInt (s_spa_delay m));
    at4 "controller" "sensor" "cleaner_delay" "value" (VInt (s_cleaner_delay m));
    at3 "controller" "configuration" "unknown_at_offset_09" (VInt (s_unk1 m));
    at3 "controller" "configuration" "unknown_at_offset_10" (VInt (s_unk2 m));
    at3 "controller" "configuration" "unknown_at_offset_11" (VInt (s_unk3 m));
    at4 "controller" "sensor" "air_temperature" "value" (VInt (s_air m));
    at4 "controller" "sensor" "air_temperature" "unit" unit_;
    at4 "controller" "sensor" "ph" "value" (hundredths (s_ph m));
    at4 "controller" "sensor" "orp" "value" (VInt (s_orp m));
    at4 "controller" "sensor" "saturation" "value" (hundredths (s_sat m));
    at4 "controller" "sensor" "salt_ppm" "value" (VInt (s_salt m * 50));
    at4 "controller" "sensor" "ph_supply_level" "value" (VInt (s_ph_tank m));
    at4 "controller" "sensor" "orp_supply_level" "value" (VInt (s_orp_tank m));
    at4 "controller" "sensor" "active_alert" "value" (VInt (s_alert m)) ].

(** a body is a spa (1) when the message says 1, a pool (0) otherwise *)
Definition kind (b : body_msg) : Z := if b_type b =? 1 then 1 else 0.
Definition kind_name (b : body_msg) : string := if b_type b =? 1 then "Spa" else "Pool".
Definition limits_at (d : dict) (t : Z) (k : string) : option pv :=
  dpget [KS "controller"; KS "configuration"; KS "body_type"; KI t; KS k] d.
(** facts about the i-th body; the set point limits are those the configuration gave *)
Definition body_facts (unit_ : pv) (mn mx : option pv) (i : Z) (b : body_msg) : list fact :=
  let p k := KS "body" :: KI i :: k in
  [ (p [KS "body_type"], VInt (kind b));
    (p [KS "name"], VStr (u (kind_name b)));
    (p [KS "last_temperature"; KS "value"], VInt (b_temp b));
    (p [KS "last_temperature"; KS "unit"], unit_);
    (p [KS "heat_state"; KS "value"], VInt (b_heat b));
    (p [KS "heat_setpoint"; KS "value"], VInt (b_set b));
    (p [KS "heat_setpoint"; KS "unit"], unit_);
    (p [KS "cool_setpoint"; KS "value"], VInt (b_cool b));
    (p [KS "cool_setpoint"; KS "unit"], unit_);
    (p [KS "heat_mode"; KS "value"], VInt (b_mode b)) ]
  ++ match mn, mx with
     | Some a, Some z => [(p [KS "min_setpoint"], a); (p [KS "max_setpoint"], z)]
     | _, _ => []
     end.
Definition circ_facts (c : circ_msg) : list fact :=
  let p k := KS "circuit" :: KI (c_id c) :: k in
  [ (p [KS "value"], VInt (c_value c));
    (p [KS "color"; KS "color_set"], VInt (c_set c));
    (p [KS "color"; KS "color_position"], VInt (c_pos c));
    (p [KS "color"; KS "color_stagger"], VInt (c_stag c));
    (p [KS "configuration"; KS "delay"], VInt (c_delay c)) ].

(** the stored set point limits of pool (0) and spa (1) are either complete or empty *)
Definition limits_complete (d : dict) : Prop :=
  forall t dd, t = 0 \/ t = 1 -> dpget [KS "controller"; KS "configuration"; KS "body_type"; KI t] d = Some (VDict dd) ->
  dd = [] \/ (exists a b, dget (KS "min_setpoint") dd = Some a /\ dget (KS "max_setpoint") dd = Some b).

(** ---- configuration (C29, C41) ---- *)
(** adapter firmware minor version known and at most 736 *)
Definition old_firmware (d : dict) : bool :=
  match dpget [KS "adapter"; KS "firmware"; KS "minor"] d with
  | Some v => match num_leb v (VInt 736) with Ok b => b | Err _ => false end
  | None => false
  end.
Definition kept_flags (old : bool) (flags : Z) : Z := if old then flags mod 65536 else flags.
(** names of the known equipment flags, by bit number *)
Definition equipment_names : list (Z * string) :=
  [ (0, "SOLAR"); (1, "SOLAR_AS_HEAT_PUMP"); (2, "CHLORINATOR"); (3, "INTELLIBRITE");
    (4, "INTELLIFLO_0"); (5, "INTELLIFLO_1"); (6, "INTELLIFLO_2"); (7, "INTELLIFLO_3");
    (8, "INTELLIFLO_4"); (9, "INTELLIFLO_5"); (10, "INTELLIFLO_6"); (11, "INTELLIFLO_7");
    (12, "NO_SPECIAL_LIGHTS"); (13, "HAS_COOLING"); (14, "MAGIC_STREAM"); (15, "INTELLICHEM");
    (16, "HYBRID_HEATER") ]%string.
Definition equipment_of (flags : Z) : list pv :=
  map (fun x => VStr (u (snd x))) (filter (fun x => Z.testbit flags (fst x)) equipment_names).
Definition color_entry (c : color_msg) : pv :=
  VDict [(KS "name", text (co_name c)); (KS "value", VTuple [VInt (co_r c); VInt (co_g c); VInt (co_b c)])].
Definition config_facts (old : bool) (model : pystr) (m : config_msg) : list fact :=
  let flags := kept_flags old (g_equip m) in
  let lim t k v := ([KS "controller"; KS "configuration"; KS "body_type"; KI t; KS k], VInt v) in
  let pump i v := ([KS "pump"; KI i; KS "data"], VInt v) in
  [ at2 "controller" "controller_id" (VInt (g_id m));
    lim 0 "min_setpoint"%string (g_min0 m); lim 0 "max_setpoint"%string (g_max0 m);
    lim 1 "min_setpoint"%string (g_min1 m); lim 1 "max_setpoint"%string (g_max1 m);
    at4 "controller" "configuration" "is_celsius" "value" (VInt (g_celsius m));
    at3 "controller" "configuration" "controller_type" (VInt (g_ctype m));
    at3 "controller" "configuration" "hardware_type" (VInt (g_htype m));
    at3 "controller" "model" "value" (VStr model);
    at3 "controller" "configuration" "controller_data" (VInt (g_cdata m));
    at3 "controller" "equipment" "flags" (VInt flags);
    at3 "controller" "equipment" "list" (VList (equipment_of flags));
    at3 "controller" "configuration" "generic_circuit_name" (text (g_name m));
    at3 "controller" "configuration" "circuit_count" (VInt (zlen (g_circuits m)));
    at3 "controller" "configuration" "color_count" (VInt (zlen (g_colors m)));
    at3 "controller" "configuration" "color" (VList (map color_entry (g_colors m)));
    pump 0 (g_p0 m); pump 1 (g_p1 m); pump 2 (g_p2 m); pump 3 (g_p3 m);
    pump 4 (g_p4 m); pump 5 (g_p5 m); pump 6 (g_p6 m); pump 7 (g_p7 m);
    at3 "controller" "configuration" "interface_tab_flags" (VInt (g_tabs m));
    at3 "controller" "configuration" "show_alarms" (VInt (g_alarms m)) ].
Definition ccirc_facts (c : ccirc_msg) : list fact :=
  let p k := KS "circuit" :: KI (cc_id c) :: k in
  [ (p [KS "circuit_id"], VInt (cc_id c));
    (p [KS "name"], text (cc_name c));
    (p [KS "configuration"; KS "name_index"], VInt (cc_name_index c));
    (p [KS "function"], VInt (cc_function c));
    (p [KS "interface"], VInt (cc_interface c));
    (p [KS "configuration"; KS "flags"], VInt (cc_flags c));
    (p [KS "color"; KS "color_set"], VInt (cc_set c));
    (p [KS "color"; KS "color_position"], VInt (cc_pos c));
    (p [KS "color"; KS "color_stagger"], VInt (cc_stag c));
    (p [KS "device_id"], VInt (cc_device c));
    (p [KS "configuration"; KS "default_runtime"], VInt (cc_runtime c)) ].

(** ---- chemistry (C28) ---- *)
Definition chem4 (a b c : string) (v : pv) : fact := at4 "intellichem" a b c v.
Definition chem_facts (unit_ : pv) (m : chem_msg) : list fact :=
  [ at2 "intellichem" "unknown_at_offset_00" (VInt (h_unk0 m));
    at2 "intellichem" "unknown_at_offset_04" (VInt (h_unk4 m));
    chem4 "sensor" "ph_now" "value" (hundredths (h_ph m));
    chem4 "sensor" "orp_now" "value" (VInt (h_orp m));
    chem4 "configuration" "ph_setpoint" "value" (hundredths (h_ph_set m));
    chem4 "configuration" "orp_setpoint" "value" (VInt (h_orp_set m));
    chem4 "dose_status" "ph_last_dose_time" "value" (VInt (h_ph_time m));
    chem4 "dose_status" "orp_last_dose_time" "value" (VInt (h_orp_time m));
    chem4 "dose_status" "ph_last_dose_volume" "value" (VInt (h_ph_vol m));
    chem4 "dose_status" "orp_last_dose_volume" "value" (VInt (h_orp_vol m));
    chem4 "sensor" "ph_supply_level" "value" (VInt (h_ph_supply m));
    chem4 "sensor" "orp_supply_level" "value" (VInt (h_orp_supply m));
    chem4 "sensor" "saturation" "value" (hundredths (signed8 (h_sat m)));
    chem4 "configuration" "calcium_hardness" "value" (VInt (h_calcium m));
    chem4 "configuration" "cya" "value" (VInt (h_cya m));
    chem4 "configuration" "total_alkalinity" "value" (VInt (h_alk m));
    chem4 "configuration" "salt_tds_ppm" "value" (VInt (h_salt m * 50));
    at3 "intellichem" "configuration" "probe_is_celsius" (VInt (h_celsius m));
    chem4 "sensor" "ph_probe_water_temp" "value" (VInt (h_temp m));
    chem4 "sensor" "ph_probe_water_temp" "unit" unit_;
    at3 "intellichem" "alarm" "flags" (VInt (h_alarms m));
    chem4 "alarm" "flow_alarm" "value" (VInt (bit (h_alarms m) 0));
    chem4 "alarm" "ph_high_alarm" "value" (VInt (bit (h_alarms m) 1));
    chem4 "alarm" "ph_low_alarm" "value" (VInt (bit (h_alarms m) 2));
    chem4 "alarm" "orp_high_alarm" "value" (VInt (bit (h_alarms m) 3));
    chem4 "alarm" "orp_low_alarm" "value" (VInt (bit (h_alarms m) 4));
    chem4 "alarm" "ph_supply_alarm" "value" (VInt (bit (h_alarms m) 5));
    chem4 "alarm" "orp_supply_alarm" "value" (VInt (bit (h_alarms m) 6));
    chem4 "alarm" "probe_fault_alarm" "value" (VInt (bit (h_alarms m) 7));
    at3 "intellichem" "alert" "flags" (VInt (h_alerts m));
    chem4 "alert" "ph_lockout" "value" (VInt (bit (h_alerts m) 0));
    chem4 "alert" "ph_limit" "value" (VInt (bit (h_alerts m) 1));
    chem4 "alert" "orp_limit" "value" (VInt (bit (h_alerts m) 2));
    at3 "intellichem" "dose_status" "flags" (VInt (h_dose m));
    chem4 "dose_status" "ph_dosing_state" "value" (VInt (h_dose m / 16 mod 4));
    chem4 "dose_status" "orp_dosing_state" "value" (VInt (h_dose m / 64 mod 4));
    at3 "intellichem" "configuration" "flags" (VInt (h_config m));
    at3 "intellichem" "firmware" "major" (VInt (h_major m));
    at3 "intellichem" "firmware" "minor" (VInt (h_minor m));
    at3 "intellichem" "firmware" "value"
      (VStr (u (string_of_Z (h_major m) ++ "." ++ zpad 3 (string_of_Z (h_minor m)))%string));
    at3 "intellichem" "water_balance" "flags" (VInt (h_balance m));
    chem4 "water_balance" "corrosive" "value" (VInt (bit (h_balance m) 0));
    chem4 "water_balance" "scaling" "value" (VInt (bit (h_balance m) 1));
    at2 "intellichem" "unknown_at_offset_44" (VInt (h_unk44 m));
    at2 "intellichem" "unknown_at_offset_45" (VInt (h_unk45 m));
    at2 "intellichem" "unknown_at_offset_46" (VInt (h_unk46 m)) ].

(** ---- salt chlorine generator (C31) ---- *)
Definition scg_facts (m : scg_msg) : list fact :=
  [ at2 "scg" "scg_present" (VInt (sc_present m));
    at4 "scg" "sensor" "state" "value" (VInt (bit (sc_state m) 0));
    at4 "scg" "sensor" "salt_ppm" "value" (VInt (sc_salt m * 50));
    at4 "scg" "configuration" "pool_setpoint" "value" (VInt (sc_pool m));
    at4 "scg" "configuration" "spa_setpoint" "value" (VInt (sc_spa m));
    at2 "scg" "flags" (VInt (sc_flags m));
    at3 "scg" "super_chlorinate" "value" (VInt (bit (sc_flags m) 0));
    at4 "scg" "configuration" "super_chlor_timer" "value" (VInt (sc_timer m)) ].

(** ---- colour update (C34) ---- *)
Definition color_facts (m : color_update) : list fact :=
  [ at3 "controller" "color_lights" "color_mode" (VInt (cu_mode m));
    at3 "controller" "color_lights" "progress" (VInt (cu_progress m));
    at3 "controller" "color_lights" "limit" (VInt (cu_limit m));
    at3 "controller" "color_lights" "text" (text (cu_text m)) ].

(** ---- equipment (C35) ---- *)
Definition ints (a : warr) : pv := VList (map VInt (fst a)).
Definition eq2 (a : string) (v : pv) : fact := at2 "equipment" a v.
Definition equip_facts (m : equip_msg) : list fact :=
  [ eq2 "controllerType" (VInt (q_ctype m)); eq2 "hardwareType" (VInt (q_htype m));
    eq2 "controllerData" (VInt (q_cdata m));
    eq2 "versionDataArray" (ints (q_version m)); eq2 "speedDataArray" (ints (q_speed m));
    eq2 "valveDataArray" (ints (q_valve m)); eq2 "remoteDataArray" (ints (q_remote m));
    eq2 "sensorDataArray" (ints (q_sensor m)); eq2 "delayDataArray" (ints (q_delay m));
    eq2 "macrosDataArray" (ints (q_macros m)); eq2 "miscDataArray" (ints (q_misc m));
    eq2 "lightDataArray" (ints (q_light m)); eq2 "flowsDataArray" (ints (q_flows m));
    eq2 "sgsDataArray" (ints (q_sgs m)); eq2 "spaFlowsDataArray" (ints (q_spaflows m)) ].

(** ---- pump (C30, C40) ---- *)
Definition preset_facts (idx i : Z) (p : preset_msg) : list fact :=
  let q k := [KS "pump"; KI idx; KS "preset"; KI i; KS k] in
  [ (q "device_id"%string, VInt (r_device p)); (q "setpoint"%string, VInt (r_setpoint p));
    (q "is_rpm"%string, VInt (r_is_rpm p)) ].
Fixpoint presets_facts (idx i : Z) (l : list preset_msg) : list fact :=
  match l with [] => [] | p :: r => preset_facts idx i p ++ presets_facts idx (i + 1) r end.
Definition pump_facts (idx : Z) (name : pystr) (m : pump_msg) : list fact :=
  let P k := KS "pump" :: KI idx :: k in
  [ (P [KS "type"], VInt (p_type m));
    (P [KS "state"; KS "name"], VStr name);
    (P [KS "watts_now"; KS "value"], VInt (p_watts m));
    (P [KS "watts_now"; KS "name"], VStr (name ++ u " Watts Now"));
    (P [KS "rpm_now"; KS "value"], VInt (p_rpm m));
    (P [KS "rpm_now"; KS "name"], VStr (name ++ u " RPM Now"));
    (P [KS "gpm_now"; KS "value"], VInt (p_gpm m));
    (P [KS "gpm_now"; KS "name"], VStr (name ++ u " GPM Now"));
    (P [KS "unknown_at_offset_16"], VInt (p_unk16 m));
    (P [KS "unknown_at_offset_24"], VInt (p_unk24 m)) ]
  ++ presets_facts idx 0 (p_presets m).
(** the circuit table as (device id, name) pairs, in the order of the data; [None] when an
    entry has no integer device id or no text name *)
Definition circuit_pair (v : pv) : option (Z * pystr) :=
  match v with
  | VDict c => match dget (KS "device_id") c, dget (KS "name") c with
               | Some (VInt i), Some (VStr s) => Some (i, s) | _, _ => None end
  | _ => None
  end.
Fixpoint circuit_pairs (l : list pv) : option (list (Z * pystr)) :=
  match l with
  | [] => Some []
  | v :: r => match circuit_pair v, circuit_pairs r with Some p, Some q => Some (p :: q) | _, _ => None end
  end.
Definition circuit_table (d : dict) : option (list (Z * pystr)) :=
  match dget (KS "circuit") d with
  | None => Some []
  | Some (VDict cs) => circuit_pairs (map snd cs)
  | Some _ => None
  end.
(** The pump's label: the name of the first circuit driven by one of the presets, presets in
    order ("Default" counts as no name). *)
Fixpoint circuit_name (t : list (Z * pystr)) (device : Z) : option pystr :=
  match t with [] => None | (i, s) :: r => if i =? device then Some s else circuit_name r device end.
Fixpoint pump_label (t : list (Z * pystr)) (l : list preset_msg) : pystr :=
  match l with
  | [] => u "Default"
  | p :: r => match circuit_name t (r_device p) with
              | Some s => if pystr_eqb s (u "Default") then pump_label t r else s
              | None => pump_label t r
              end
  end.

(** spaces around, then commas around, are removed from the label *)
Fixpoint drop_while (p : Z -> bool) (s : pystr) : pystr :=
  match s with [] => [] | c :: s' => if p c then drop_while p s' else s end.
Definition trim_of (p : Z -> bool) (s : pystr) : pystr := rev (drop_while p (rev (drop_while p s))).
Definition pump_title (label : pystr) : pystr := trim_of (fun c => c =? 44) (trim_of is_space label) ++ u " Pump".

(** ---- firmware version (C32) ---- *)
(** the white-space separated words of a text *)
Inductive words : pystr -> list pystr -> Prop :=
| words_end sp : Forall (fun c => is_space c = true) sp -> words sp []
| words_more sp w rest ws : Forall (fun c => is_space c = true) sp -> w <> [] ->
    Forall (fun c => is_space c = false) w -> (rest = [] \/ exists c r, rest = c :: r /\ is_space c = true) ->
    words rest ws -> words (sp ++ w ++ rest) (w :: ws).
Definition version_facts (t : pystr) (major minor : spec_float) : list fact :=
  [ at3 "adapter" "firmware" "value" (VStr t);
    at3 "adapter" "firmware" "major" (VFloat major);
    at3 "adapter" "firmware" "minor" (VFloat minor) ].

(** ---- date and time (C33) ---- *)
Definition leap (y : Z) : Prop := y mod 400 = 0 \/ (y mod 4 = 0 /\ y mod 100 <> 0).
Definition month_days (y m n : Z) : Prop :=
  (m = 2 /\ (leap y /\ n = 29 \/ ~ leap y /\ n = 28))
  \/ (In m [4; 6; 9; 11] /\ n = 30) \/ (In m [1; 3; 5; 7; 8; 10; 12] /\ n = 31).
(** a date and time of day of the Gregorian calendar, years 1..9999 *)
Definition real_time (y mo d h mi s ms : Z) : Prop :=
  1 <= y <= 9999 /\ (exists n, month_days y mo n /\ 1 <= d <= n) /\ 0 <= h <= 23 /\ 0 <= mi <= 59 /\ 0 <= s <= 59
  /\ 0 <= ms <= 999.
(** days since 1970-01-01: years start in March, 146097 days in 400 years *)
Definition days_since_epoch (y m d : Z) : Z :=
  let y' := if m <=? 2 then y - 1 else y in
  let m' := if m <=? 2 then m + 9 else m - 3 in
  365 * y' + y' / 4 - y' / 100 + y' / 400 + (153 * m' + 2) / 5 + d - 1 - 719468.
Definition posix_micros (y mo d h mi s ms : Z) : Z :=
  (((days_since_epoch y mo d * 24 + h) * 60 + mi) * 60 + s) * 1000000 + ms * 1000.
Definition datetime_facts (timestamp host : spec_float) (dst : Z) : list fact :=
  [ at3 "controller" "date_time" "timestamp" (VFloat timestamp);
    at3 "controller" "date_time" "timestamp_host" (VFloat host);
    at4 "controller" "date_time" "auto_dst" "value" (VInt dst) ].
