(** Specification: what each controller message looks like on the wire, as records of the
    values it carries.  Field order and widths are those of the Pentair ScreenLogic protocol
    that the decoders of /repo/screenlogicpy/requests read.  Used only in theorem statements. *)
From Verif Require Import Py Utf Spec.

(** [d] holds value [v] at a path; [vals] checks a list of (key, value) below a path *)
Definition holds (d : dict) (p : path) (v : pv) : Prop := dpget p d = Some v.
Definition entry (s : string) : path := [KS s; KS "value"].

(** one bit of a flag word as 0/1 *)
Definition bit (flags n : Z) : Z := if Z.testbit flags n then 1 else 0.

(** ---- status ---- *)
Record body_msg := { b_type : Z; b_temp : Z; b_heat : Z; b_set : Z; b_cool : Z; b_mode : Z }.
Record circ_msg := { c_id : Z; c_value : Z; c_set : Z; c_pos : Z; c_stag : Z; c_delay : Z }.
Record status_msg := {
  s_state : Z; s_freeze : Z; s_remotes : Z; s_pool_delay : Z; s_spa_delay : Z; s_cleaner_delay : Z;
  s_unk1 : Z; s_unk2 : Z; s_unk3 : Z; s_air : Z;
  s_bodies : list body_msg; s_circuits : list circ_msg;
  s_ph : Z; s_orp : Z; s_sat : Z; s_salt : Z; s_ph_tank : Z; s_orp_tank : Z; s_alert : Z }.

Definition wire_body (b : body_msg) : bytes :=
  u32le (b_type b) ++ i32le (b_temp b) ++ i32le (b_heat b) ++ i32le (b_set b) ++ i32le (b_cool b) ++ i32le (b_mode b).
Definition wire_circ (c : circ_msg) : bytes :=
  u32le (c_id c) ++ u32le (c_value c) ++ u8 (c_set c) ++ u8 (c_pos c) ++ u8 (c_stag c) ++ u8 (c_delay c).
Definition wire_status (m : status_msg) : bytes :=
  u32le (s_state m) ++ u8 (s_freeze m) ++ u8 (s_remotes m) ++ u8 (s_pool_delay m) ++ u8 (s_spa_delay m)
  ++ u8 (s_cleaner_delay m) ++ u8 (s_unk1 m) ++ u8 (s_unk2 m) ++ u8 (s_unk3 m) ++ i32le (s_air m)
  ++ u32le (zlen (s_bodies m)) ++ List.concat (map wire_body (s_bodies m))
  ++ u32le (zlen (s_circuits m)) ++ List.concat (map wire_circ (s_circuits m))
  ++ i32le (s_ph m) ++ i32le (s_orp m) ++ i32le (s_sat m) ++ i32le (s_salt m)
  ++ i32le (s_ph_tank m) ++ i32le (s_orp_tank m) ++ i32le (s_alert m).

Definition body_ok (b : body_msg) : Prop :=
  is_u32 (b_type b) /\ is_i32 (b_temp b) /\ is_i32 (b_heat b) /\ is_i32 (b_set b) /\ is_i32 (b_cool b) /\ is_i32 (b_mode b).
Definition circ_ok (c : circ_msg) : Prop :=
  is_u32 (c_id c) /\ is_u32 (c_value c) /\ is_u8 (c_set c) /\ is_u8 (c_pos c) /\ is_u8 (c_stag c) /\ is_u8 (c_delay c).
Definition status_ok (m : status_msg) : Prop :=
  is_u32 (s_state m) /\ is_i32 (s_air m) /\ zlen (s_bodies m) <= 2 /\ Forall body_ok (s_bodies m)
  /\ zlen (s_circuits m) < 4294967296 /\ Forall circ_ok (s_circuits m)
  /\ is_i32 (s_ph m) /\ is_i32 (s_orp m) /\ is_i32 (s_sat m) /\ is_i32 (s_salt m)
  /\ is_i32 (s_ph_tank m) /\ is_i32 (s_orp_tank m) /\ is_i32 (s_alert m).

(** ---- configuration ---- *)
Record ccirc_msg := {
  cc_id : Z; cc_name : wname; cc_name_index : Z; cc_function : Z; cc_interface : Z; cc_flags : Z;
  cc_set : Z; cc_pos : Z; cc_stag : Z; cc_device : Z; cc_runtime : Z; cc_unk1 : Z; cc_unk2 : Z }.
Record color_msg := { co_name : wname; co_r : Z; co_g : Z; co_b : Z }.
Record config_msg := {
  g_id : Z; g_min0 : Z; g_max0 : Z; g_min1 : Z; g_max1 : Z; g_celsius : Z; g_ctype : Z; g_htype : Z;
  g_cdata : Z; g_equip : Z; g_name : wname; g_circuits : list ccirc_msg; g_colors : list color_msg;
  g_p0 : Z; g_p1 : Z; g_p2 : Z; g_p3 : Z; g_p4 : Z; g_p5 : Z; g_p6 : Z; g_p7 : Z;
  g_tabs : Z; g_alarms : Z }.

Definition wire_ccirc (c : ccirc_msg) : bytes :=
  i32le (cc_id c) ++ wire_name (cc_name c) ++ u8 (cc_name_index c) ++ u8 (cc_function c) ++ u8 (cc_interface c)
  ++ u8 (cc_flags c) ++ u8 (cc_set c) ++ u8 (cc_pos c) ++ u8 (cc_stag c) ++ u8 (cc_device c)
  ++ u16le (cc_runtime c) ++ u8 (cc_unk1 c) ++ u8 (cc_unk2 c).
Definition wire_color (c : color_msg) : bytes :=
  wire_name (co_name c) ++ u32le (co_r c) ++ u32le (co_g c) ++ u32le (co_b c).
Definition wire_config (m : config_msg) : bytes :=
  u32le (g_id m) ++ u8 (g_min0 m) ++ u8 (g_max0 m) ++ u8 (g_min1 m) ++ u8 (g_max1 m) ++ u8 (g_celsius m)
  ++ u8 (g_ctype m) ++ u8 (g_htype m) ++ u8 (g_cdata m) ++ u32le (g_equip m) ++ wire_name (g_name m)
  ++ u32le (zlen (g_circuits m)) ++ List.concat (map wire_ccirc (g_circuits m))
  ++ u32le (zlen (g_colors m)) ++ List.concat (map wire_color (g_colors m))
  ++ u8 (g_p0 m) ++ u8 (g_p1 m) ++ u8 (g_p2 m) ++ u8 (g_p3 m) ++ u8 (g_p4 m) ++ u8 (g_p5 m) ++ u8 (g_p6 m) ++ u8 (g_p7 m)
  ++ u32le (g_tabs m) ++ u32le (g_alarms m).

Definition ccirc_ok (c : ccirc_msg) : Prop := is_i32 (cc_id c) /\ name_ok (cc_name c) /\ is_u16 (cc_runtime c).
Definition color_ok (c : color_msg) : Prop := name_ok (co_name c) /\ is_u32 (co_r c) /\ is_u32 (co_g c) /\ is_u32 (co_b c).
Definition config_ok (m : config_msg) : Prop :=
  is_u32 (g_id m) /\ is_u32 (g_equip m) /\ name_ok (g_name m)
  /\ zlen (g_circuits m) < 4294967296 /\ Forall ccirc_ok (g_circuits m)
  /\ zlen (g_colors m) < 4294967296 /\ Forall color_ok (g_colors m)
  /\ is_u32 (g_tabs m) /\ is_u32 (g_alarms m).

(** ---- chemistry ---- *)
Record chem_msg := {
  h_unk0 : Z; h_unk4 : Z; h_ph : Z; h_orp : Z; h_ph_set : Z; h_orp_set : Z; h_ph_time : Z; h_orp_time : Z;
  h_ph_vol : Z; h_orp_vol : Z; h_ph_supply : Z; h_orp_supply : Z; h_sat : Z; h_calcium : Z; h_cya : Z; h_alk : Z;
  h_salt : Z; h_celsius : Z; h_temp : Z; h_alarms : Z; h_alerts : Z; h_dose : Z; h_config : Z;
  h_minor : Z; h_major : Z; h_balance : Z; h_unk44 : Z; h_unk45 : Z; h_unk46 : Z }.
Definition wire_chem (m : chem_msg) : bytes :=
  u32le (h_unk0 m) ++ u8 (h_unk4 m) ++ u16be (h_ph m) ++ u16be (h_orp m) ++ u16be (h_ph_set m) ++ u16be (h_orp_set m)
  ++ u32be (h_ph_time m) ++ u32be (h_orp_time m) ++ u16be (h_ph_vol m) ++ u16be (h_orp_vol m)
  ++ u8 (h_ph_supply m) ++ u8 (h_orp_supply m) ++ u8 (h_sat m) ++ u16be (h_calcium m) ++ u16be (h_cya m) ++ u16be (h_alk m)
  ++ u8 (h_salt m) ++ u8 (h_celsius m) ++ u8 (h_temp m) ++ u8 (h_alarms m) ++ u8 (h_alerts m) ++ u8 (h_dose m)
  ++ u8 (h_config m) ++ u8 (h_minor m) ++ u8 (h_major m) ++ u8 (h_balance m)
  ++ u8 (h_unk44 m) ++ u8 (h_unk45 m) ++ u8 (h_unk46 m).
Definition chem_ok (m : chem_msg) : Prop :=
  is_u32 (h_unk0 m) /\ is_u16 (h_ph m) /\ is_u16 (h_orp m) /\ is_u16 (h_ph_set m) /\ is_u16 (h_orp_set m)
  /\ is_u32 (h_ph_time m) /\ is_u32 (h_orp_time m) /\ is_u16 (h_ph_vol m) /\ is_u16 (h_orp_vol m)
  /\ is_u8 (h_sat m) /\ is_u16 (h_calcium m) /\ is_u16 (h_cya m) /\ is_u16 (h_alk m) /\ is_u8 (h_dose m)
  /\ is_u8 (h_major m) /\ is_u8 (h_minor m).

(** ---- pump ---- *)
Record preset_msg := { r_device : Z; r_setpoint : Z; r_is_rpm : Z }.
Record pump_msg := { p_type : Z; p_state : Z; p_watts : Z; p_rpm : Z; p_unk16 : Z; p_gpm : Z; p_unk24 : Z;
  p_presets : list preset_msg }.
Definition wire_preset (p : preset_msg) : bytes := u32le (r_device p) ++ u32le (r_setpoint p) ++ u32le (r_is_rpm p).
Definition wire_pump (m : pump_msg) : bytes :=
  u32le (p_type m) ++ u32le (p_state m) ++ u32le (p_watts m) ++ u32le (p_rpm m) ++ u32le (p_unk16 m)
  ++ u32le (p_gpm m) ++ u32le (p_unk24 m) ++ List.concat (map wire_preset (p_presets m)).
Definition preset_ok (p : preset_msg) : Prop := is_u32 (r_device p) /\ is_u32 (r_setpoint p) /\ is_u32 (r_is_rpm p).
Definition pump_ok (m : pump_msg) : Prop :=
  is_u32 (p_type m) /\ is_u32 (p_state m) /\ is_u32 (p_watts m) /\ is_u32 (p_rpm m) /\ is_u32 (p_unk16 m)
  /\ is_u32 (p_gpm m) /\ is_u32 (p_unk24 m) /\ zlen (p_presets m) = 8 /\ Forall preset_ok (p_presets m).

(** ---- salt chlorine generator ---- *)
Record scg_msg := { sc_present : Z; sc_state : Z; sc_pool : Z; sc_spa : Z; sc_salt : Z; sc_flags : Z; sc_timer : Z }.
Definition wire_scg (m : scg_msg) : bytes :=
  u32le (sc_present m) ++ u32le (sc_state m) ++ u32le (sc_pool m) ++ u32le (sc_spa m) ++ u32le (sc_salt m)
  ++ u32le (sc_flags m) ++ u32le (sc_timer m).
Definition scg_ok (m : scg_msg) : Prop :=
  is_u32 (sc_present m) /\ is_u32 (sc_state m) /\ is_u32 (sc_pool m) /\ is_u32 (sc_spa m) /\ is_u32 (sc_salt m)
  /\ is_u32 (sc_flags m) /\ is_u32 (sc_timer m).

(** ---- colour update ---- *)
Record color_update := { cu_mode : Z; cu_progress : Z; cu_limit : Z; cu_text : wname }.
Definition wire_color_update (m : color_update) : bytes :=
  u32le (cu_mode m) ++ u32le (cu_progress m) ++ u32le (cu_limit m) ++ wire_name (cu_text m).
Definition color_update_ok (m : color_update) : Prop :=
  is_u32 (cu_mode m) /\ is_u32 (cu_progress m) /\ is_u32 (cu_limit m) /\ name_ok (cu_text m).

(** ---- equipment ---- an array with its padding *)
Definition warr : Type := bytes * bytes.
Definition wire_arr (a : warr) : bytes := wire_array (fst a) (snd a).
Definition arr_ok (a : warr) : Prop := zlen (fst a) < 4294967296 /\ zlen (snd a) = pad4 (zlen (fst a)).
Record equip_msg := {
  q_ctype : Z; q_htype : Z; q_unk2 : Z; q_unk3 : Z; q_cdata : Z;
  q_version : warr; q_speed : warr; q_valve : warr; q_remote : warr; q_sensor : warr; q_delay : warr;
  q_macros : warr; q_misc : warr; q_light : warr; q_flows : warr; q_sgs : warr; q_spaflows : warr }.
Definition wire_equip (m : equip_msg) : bytes :=
  u8 (q_ctype m) ++ u8 (q_htype m) ++ u8 (q_unk2 m) ++ u8 (q_unk3 m) ++ u32le (q_cdata m)
  ++ wire_arr (q_version m) ++ wire_arr (q_speed m) ++ wire_arr (q_valve m) ++ wire_arr (q_remote m)
  ++ wire_arr (q_sensor m) ++ wire_arr (q_delay m) ++ wire_arr (q_macros m) ++ wire_arr (q_misc m)
  ++ wire_arr (q_light m) ++ wire_arr (q_flows m) ++ wire_arr (q_sgs m) ++ wire_arr (q_spaflows m).
Definition equip_ok (m : equip_msg) : Prop :=
  is_u32 (q_cdata m) /\ arr_ok (q_version m) /\ arr_ok (q_speed m) /\ arr_ok (q_valve m) /\ arr_ok (q_remote m)
  /\ arr_ok (q_sensor m) /\ arr_ok (q_delay m) /\ arr_ok (q_macros m) /\ arr_ok (q_misc m)
  /\ arr_ok (q_light m) /\ arr_ok (q_flows m) /\ arr_ok (q_sgs m) /\ arr_ok (q_spaflows m).

(** every (path, value) pair of the list is in the data *)
Definition all_hold (d : dict) (l : list (path * pv)) : Prop := Forall (fun x => holds d (fst x) (snd x)) l.
