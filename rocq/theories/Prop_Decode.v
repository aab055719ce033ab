(** Theorems about decoding the controller's messages (C27-C42).  The messages are described
    in Messages.v, the meaning of the stored values in Meaning.v, the shape of the data in
    Shape.v, histories in Calls.v. *)
From Verif Require Import Py F64 Struct Utf Utility Const Enum Decode Spec Messages Meaning Shape SpecEnum Calls
  P_Base P_Vals1 P_Vals2 P_Vals3 P_Vals4 P_Vals5 P_Trunc P_Decode.

Definition scalarb (c : Z) : bool := ((0 <=? c) && (c <? 55296)) || ((57344 <=? c) && (c <? 1114112)).
Lemma scalars s : forallb scalarb s = true -> Forall scalar s.
Proof. intros H. apply Forall_forall. intros x I. rewrite forallb_forall in H. specialize (H x I). unfold scalarb, scalar in *. lia. Qed.
(** hypotheses of the form "field in range" for a concrete message *)
Ltac in_range :=
  repeat match goal with
  | |- _ /\ _ => split
  | |- Forall scalar _ => apply scalars; vm_compute; reflexivity
  | |- Forall _ [] => constructor
  | |- Forall _ (_ :: _) => constructor
  | |- name_ok _ => split
  | |- zlen _ < _ => vm_compute; reflexivity
  | |- zlen _ <= _ => vm_compute; discriminate
  | |- zlen _ = _ => vm_compute; reflexivity
  | |- scalar _ => unfold scalar; lia
  | |- is_u32 _ => unfold is_u32; cbn; lia
  | |- is_u16 _ => unfold is_u16; cbn; lia
  | |- is_u8 _ => unfold is_u8; cbn; lia
  | |- is_i32 _ => unfold is_i32; cbn; lia
  | |- body_ok _ => unfold body_ok
  | |- circ_ok _ => unfold circ_ok
  | |- ccirc_ok _ => unfold ccirc_ok
  | |- color_ok _ => unfold color_ok
  | |- preset_ok _ => unfold preset_ok
  | |- arr_ok _ => unfold arr_ok
  end.

Definition pool_body := {| b_type := 0; b_temp := 83; b_heat := 0; b_set := 84; b_cool := 100; b_mode := 3 |}.
Definition spa_body := {| b_type := 1; b_temp := -3; b_heat := 1; b_set := 99; b_cool := 0; b_mode := 0 |}.
Definition some_status := {|
  s_state := 1; s_freeze := 8; s_remotes := 32; s_pool_delay := 0; s_spa_delay := 0; s_cleaner_delay := 0;
  s_unk1 := 3; s_unk2 := 0; s_unk3 := 0; s_air := -5; s_bodies := [pool_body; spa_body];
  s_circuits := [ {| c_id := 500; c_value := 1; c_set := 0; c_pos := 0; c_stag := 0; c_delay := 0 |};
                  {| c_id := 505; c_value := 0; c_set := 2; c_pos := 1; c_stag := 10; c_delay := 1 |} ];
  s_ph := 748; s_orp := 650; s_sat := -12; s_salt := 65; s_ph_tank := 3; s_orp_tank := 4; s_alert := 0 |}.
Example some_status_ok : status_ok some_status.
Proof. unfold status_ok; cbn [some_status s_state s_air s_bodies s_circuits s_ph s_orp s_sat s_salt s_ph_tank s_orp_tank s_alert]; in_range. Qed.

Definition some_config := {|
  g_id := 100; g_min0 := 40; g_max0 := 104; g_min1 := 40; g_max1 := 104; g_celsius := 0; g_ctype := 13; g_htype := 0;
  g_cdata := 0; g_equip := 98360; g_name := (false, u "Water Features");
  g_circuits := [ {| cc_id := 500; cc_name := (false, u "Spa"); cc_name_index := 71; cc_function := 1; cc_interface := 1;
                     cc_flags := 1; cc_set := 0; cc_pos := 0; cc_stag := 0; cc_device := 1; cc_runtime := 720; cc_unk1 := 0; cc_unk2 := 0 |};
                  {| cc_id := 505; cc_name := (true, u "Pool"); cc_name_index := 60; cc_function := 2; cc_interface := 0;
                     cc_flags := 1; cc_set := 2; cc_pos := 1; cc_stag := 10; cc_device := 6; cc_runtime := 720; cc_unk1 := 0; cc_unk2 := 0 |} ];
  g_colors := [ {| co_name := (false, u "White"); co_r := 255; co_g := 255; co_b := 255 |} ];
  g_p0 := 70; g_p1 := 6; g_p2 := 0; g_p3 := 0; g_p4 := 0; g_p5 := 0; g_p6 := 0; g_p7 := 0; g_tabs := 127; g_alarms := 0 |}.
Example some_config_ok : config_ok some_config.
Proof.
  unfold config_ok; cbn [some_config g_id g_equip g_name g_circuits g_colors g_tabs g_alarms]; in_range;
    cbn [snd u cc_name co_name cc_id cc_runtime]; in_range.
Qed.
Example empty_data : Shape [] /\ limits_complete [].
Proof. split; [exact shape_nil|]. intros t dd _ E. discriminate. Qed.

(** C27. For every status message with at most two bodies and any number of circuits, every
    value ends up in the data as sent; the i-th body of the message is body i; each circuit
    holds its (last) mention; circuits not mentioned are left alone.  Trailing bytes are
    ignored; the previous content of the data does not matter. *)
Theorem C27_status m tail d : status_ok m -> Shape d -> limits_complete d ->
  exists d', decode_pool_status (wire_status m ++ tail) d = (d', Ok tt)
  /\ all_hold d' (status_facts (temp_unit d) m)
  /\ (forall a b rest, s_bodies m = a ++ b :: rest ->
      all_hold d' (body_facts (temp_unit d) (limits_at d (kind b) "min_setpoint") (limits_at d (kind b) "max_setpoint") (zlen a) b))
  /\ (forall a c rest, s_circuits m = a ++ c :: rest -> ~ In (c_id c) (map c_id rest) -> all_hold d' (circ_facts c))
  /\ (forall i, ~ In i (map c_id (s_circuits m)) -> dpget [KS "circuit"; KI i] d' = dpget [KS "circuit"; KI i] d).
Proof. exact (status_vals m tail d). Qed.
Print Assumptions C27_status.
Example C27_nonvacuous :
  let d' := fst (decode_pool_status (wire_status some_status) (fst (decode_pool_config (wire_config some_config) []))) in
  dpget [KS "body"; KI 1; KS "last_temperature"; KS "value"] d' = Some (VInt (-3))
  /\ dpget [KS "body"; KI 1; KS "max_setpoint"] d' = Some (VInt 104)
  /\ dpget [KS "circuit"; KI 505; KS "color"; KS "color_stagger"] d' = Some (VInt 10)
  /\ dpget [KS "controller"; KS "sensor"; KS "freeze_mode"; KS "value"] d' = Some (VInt 1).
Proof. vm_compute. auto 10. Qed.

(** C28. *)
Theorem C28_chemistry m tail d : chem_ok m -> Shape d ->
  exists d', decode_chemistry (wire_chem m ++ tail) d = (d', Ok tt) /\ all_hold d' (chem_facts (temp_unit d) m).
Proof. exact (chem_vals m tail d). Qed.
Print Assumptions C28_chemistry.
Definition some_chem := {|
  h_unk0 := 42; h_unk4 := 0; h_ph := 754; h_orp := 725; h_ph_set := 760; h_orp_set := 720; h_ph_time := 7; h_orp_time := 18;
  h_ph_vol := 12; h_orp_vol := 39; h_ph_supply := 1; h_orp_supply := 2; h_sat := 228; h_calcium := 800; h_cya := 45; h_alk := 45;
  h_salt := 20; h_celsius := 0; h_temp := 59; h_alarms := 33; h_alerts := 2; h_dose := 165; h_config := 32;
  h_minor := 60; h_major := 1; h_balance := 2; h_unk44 := 0; h_unk45 := 0; h_unk46 := 0 |}.
Example C28_nonvacuous : chem_ok some_chem
  /\ let d' := fst (decode_chemistry (wire_chem some_chem) []) in
     dpget [KS "intellichem"; KS "sensor"; KS "saturation"; KS "value"] d' = Some (VFloat (zdivf (-28) 100))
  /\ dpget [KS "intellichem"; KS "alarm"; KS "ph_supply_alarm"; KS "value"] d' = Some (VInt 1)
  /\ dpget [KS "intellichem"; KS "dose_status"; KS "orp_dosing_state"; KS "value"] d' = Some (VInt 2)
  /\ dpget [KS "intellichem"; KS "firmware"; KS "value"] d' = Some (VStr (u "1.060")).
Proof. split; [unfold chem_ok; cbn [some_chem h_unk0 h_ph h_orp h_ph_set h_orp_set h_ph_time h_orp_time h_ph_vol h_orp_vol h_sat h_calcium h_cya h_alk h_dose h_major h_minor]; in_range|]. vm_compute. auto 10. Qed.

(** C29. *)
Theorem C29_config m tail d : config_ok m -> Shape d ->
  exists d' model, decode_pool_config (wire_config m ++ tail) d = (d', Ok tt)
  /\ is_model (g_ctype m) (g_htype m) model
  /\ all_hold d' (config_facts (old_firmware d) model m)
  /\ (forall a c rest, g_circuits m = a ++ c :: rest -> ~ In (cc_id c) (map cc_id rest) -> all_hold d' (ccirc_facts c))
  /\ (forall i, ~ In i (map cc_id (g_circuits m)) -> dpget [KS "circuit"; KI i] d' = dpget [KS "circuit"; KI i] d).
Proof. exact (config_vals_model m tail d). Qed.
Print Assumptions C29_config.
Example C29_nonvacuous :
  let d' := fst (decode_pool_config (wire_config some_config) []) in
  dpget [KS "circuit"; KI 505; KS "name"] d' = Some (VStr (u "Pool"))
  /\ dpget [KS "controller"; KS "equipment"; KS "flags"] d' = Some (VInt 98360)
  /\ dpget [KS "controller"; KS "model"; KS "value"] d' = Some (VStr (u "EasyTouch2 8"))
  /\ dpget [KS "pump"; KI 1; KS "data"] d' = Some (VInt 6).
Proof. vm_compute. auto 10. Qed.

(** C30. The circuit table is any table with an integer device id and a name per circuit; only
    pump [idx] is touched. *)
Theorem C30_pump m tail d t idx : pump_ok m -> Shape d -> circuit_table d = Some t ->
  exists d', decode_pump_status (wire_pump m ++ tail) idx d = (d', Ok tt)
  /\ all_hold d' (pump_facts idx (pump_title (pump_label t (p_presets m))) m)
  /\ (p_state m < 2147483648 -> holds d' [KS "pump"; KI idx; KS "state"; KS "value"] (VInt (p_state m)))
  /\ (forall j, j <> idx -> dpget [KS "pump"; KI j] d' = dpget [KS "pump"; KI j] d).
Proof. exact (pump_vals m tail d t idx). Qed.
Print Assumptions C30_pump.
Definition preset dv s r := {| r_device := dv; r_setpoint := s; r_is_rpm := r |}.
Definition some_pump (state : Z) := {|
  p_type := 3; p_state := state; p_watts := 1337; p_rpm := 2850; p_unk16 := 0; p_gpm := 68; p_unk24 := 255;
  p_presets := [preset 77 2850 1; preset 6 2800 1; preset 1 30 0; preset 0 30 0; preset 0 30 0; preset 0 30 0; preset 0 30 0; preset 0 30 0] |}.
Example C30_nonvacuous : pump_ok (some_pump 1)
  /\ let d := fst (decode_pool_config (wire_config some_config) []) in
     circuit_table d = Some [(1, u "Spa"); (6, u "Pool")]
  /\ pump_title (pump_label [(1, u "Spa"); (6, u "Pool")] (p_presets (some_pump 1))) = u "Pool Pump"
  /\ dpget [KS "pump"; KI 1; KS "rpm_now"; KS "name"] (fst (decode_pump_status (wire_pump (some_pump 1)) 1 d))
     = Some (VStr (u "Pool Pump RPM Now")).
Proof. split; [unfold pump_ok; cbn [some_pump p_type p_state p_watts p_rpm p_unk16 p_gpm p_unk24 p_presets]; in_range|]. vm_compute. auto 10. Qed.

(** C31. *)
Theorem C31_scg m tail d : scg_ok m -> Shape d ->
  exists d', decode_scg_config (wire_scg m ++ tail) d = (d', Ok tt) /\ all_hold d' (scg_facts m).
Proof. exact (scg_vals m tail d). Qed.
Print Assumptions C31_scg.
Definition some_scg := {| sc_present := 1; sc_state := 129; sc_pool := 51; sc_spa := 5; sc_salt := 63; sc_flags := 128; sc_timer := 12 |}.
Example C31_nonvacuous : scg_ok some_scg
  /\ dpget [KS "scg"; KS "sensor"; KS "salt_ppm"; KS "value"] (fst (decode_scg_config (wire_scg some_scg) [])) = Some (VInt 3150).
Proof. split; [unfold scg_ok; cbn [some_scg sc_present sc_state sc_pool sc_spa sc_salt sc_flags sc_timer]; in_range|]. vm_compute. reflexivity. Qed.

(** C32. [py_float] stands for Python's float(): any function from texts to numbers. *)
Theorem C32_version py_float n tail d w0 major w2 minor ws : name_ok n -> Shape d ->
  words (snd n) (w0 :: major :: w2 :: minor :: ws) ->
  forall fM fm, py_float major = Some fM -> py_float minor = Some fm ->
  exists d', decode_version py_float (wire_name n ++ tail) d = (d', Ok tt) /\ all_hold d' (version_facts (snd n) fM fm).
Proof. exact (version_vals py_float n tail d w0 major w2 minor ws). Qed.
Print Assumptions C32_version.
Theorem C32_too_few_words py_float n tail d ws : name_ok n -> Shape d -> words (snd n) ws -> zlen ws < 4 ->
  exists d' e, decode_version py_float (wire_name n ++ tail) d = (d', Err e) /\ (e = EIndex \/ e = EValue).
Proof. exact (version_short py_float n tail d ws). Qed.
Print Assumptions C32_too_few_words.
Theorem C32_words_total s : exists ws, words s ws.
Proof. exact (ex_intro _ _ (words_exist s)). Qed.
Print Assumptions C32_words_total.
Example C32_nonvacuous : name_ok (false, u "POOL: 5.2 Build 738.0 Rel")
  /\ words (u "POOL: 5.2 Build 738.0 Rel") [u "POOL:"; u "5.2"; u "Build"; u "738.0"; u "Rel"].
Proof. split; [split; [cbn [snd u]; in_range|vm_compute; reflexivity]|]. apply (words_exist (u "POOL: 5.2 Build 738.0 Rel")). Qed.

(** C33. *)
Theorem C33_date_time host y mo wd dd h mi s ms dst tail d :
  is_u16 wd -> is_u32 dst -> real_time y mo dd h mi s ms -> Shape d ->
  exists d', decode_date_time host (wire_time y mo wd dd h mi s ms ++ u32le dst ++ tail) d = (d', Ok tt)
  /\ all_hold d' (datetime_facts (zdivf (posix_micros y mo dd h mi s ms) 1000000) host dst).
Proof. exact (datetime_vals host y mo wd dd h mi s ms dst tail d). Qed.
Print Assumptions C33_date_time.
Theorem C33_impossible host y mo wd dd h mi s ms rest d :
  is_u16 y -> is_u16 mo -> is_u16 wd -> is_u16 dd -> is_u16 h -> is_u16 mi -> is_u16 s -> is_u16 ms ->
  ~ real_time y mo dd h mi s ms -> Shape d ->
  exists d', decode_date_time host (wire_time y mo wd dd h mi s ms ++ rest) d = (d', Err EValue).
Proof. exact (datetime_bad host y mo wd dd h mi s ms rest d). Qed.
Print Assumptions C33_impossible.
Example C33_nonvacuous : real_time 2024 2 29 23 59 58 999 /\ ~ real_time 2023 2 29 0 0 0 0
  /\ posix_micros 2000 1 1 0 0 0 0 = 946684800000000.
Proof.
  split; [|split; [|reflexivity]].
  - unfold real_time, month_days, leap. split; [lia|]. split; [exists 29; split; [left; split; [reflexivity|left; split; [right; split; [reflexivity|discriminate]|reflexivity]]|lia]|lia].
  - unfold real_time, month_days, leap. cbn [In]. intros (_ & (n & M & D) & _).
    destruct M as [[_ [[L _]|[_ ->]]]|[[H _]|[H _]]]; [|lia|lia|lia].
    destruct L as [L|[L _]]; vm_compute in L; discriminate.
Qed.

(** C34. *)
Theorem C34_color m tail d : color_update_ok m -> Shape d ->
  exists d', decode_color_update (wire_color_update m ++ tail) d = (d', Ok tt) /\ all_hold d' (color_facts m).
Proof. exact (color_vals m tail d). Qed.
Print Assumptions C34_color.
Definition some_color := {| cu_mode := 5; cu_progress := 1; cu_limit := 30; cu_text := (false, u "Party") |}.
Example C34_nonvacuous : color_update_ok some_color
  /\ dpget [KS "controller"; KS "color_lights"; KS "text"] (fst (decode_color_update (wire_color_update some_color) [])) = Some (VStr (u "Party")).
Proof. split; [unfold color_update_ok; cbn [some_color cu_mode cu_progress cu_limit cu_text]; in_range; cbn [snd u]; in_range|]. vm_compute. reflexivity. Qed.

(** C35. *)
Theorem C35_equipment m tail d : equip_ok m -> Shape d ->
  exists d', decode_equipment_config (wire_equip m ++ tail) d = (d', Ok tt) /\ all_hold d' (equip_facts m).
Proof. exact (equip_vals m tail d). Qed.
Print Assumptions C35_equipment.
Definition some_equip := {|
  q_ctype := 13; q_htype := 0; q_unk2 := 0; q_unk3 := 0; q_cdata := 7;
  q_version := ([1;2;3], [0]); q_speed := ([0;0;0;0], []); q_valve := ([9], [1;2;3]); q_remote := ([], []); q_sensor := ([5;6], [0;0]);
  q_delay := ([], []); q_macros := ([], []); q_misc := ([1], [0;0;0]); q_light := ([], []); q_flows := ([255], [0;0;0]);
  q_sgs := ([2;2], [0;0]); q_spaflows := ([7], [0;0;0]) |}.
Example C35_nonvacuous : equip_ok some_equip
  /\ dpget [KS "equipment"; KS "spaFlowsDataArray"] (fst (decode_equipment_config (wire_equip some_equip) [])) = Some (VList [VInt 7]).
Proof. split; [unfold equip_ok; cbn [some_equip q_cdata q_version q_speed q_valve q_remote q_sensor q_delay q_macros q_misc q_light q_flows q_sgs q_spaflows]; in_range|]. vm_compute. reflexivity. Qed.

(** C36. For every byte string (well formed or not) and every data whatever. *)
Theorem C36_only_own_section c d k : ~ In k (sections c) -> dget k (fst (run_decoder c d)) = dget k d.
Proof. exact (frame_all c d k). Qed.
Print Assumptions C36_only_own_section.
Example C36_nonvacuous :
  let d := history [DConfig (wire_config some_config); DScg (wire_scg some_scg)] [] in
  ~ In (KS "scg") (sections (DStatus (wire_status some_status)))
  /\ dget (KS "scg") d <> None /\ dget (KS "controller") d <> None
  /\ snd (run_decoder (DStatus (firstn 60 (wire_status some_status))) d) = Err EStruct.
Proof. split; [cbn; intuition discriminate|]. vm_compute. split; [discriminate|]. split; [discriminate|reflexivity]. Qed.

(** C37. *)
Theorem C37_status_truncated m p e d : status_ok m -> Shape d -> limits_complete d -> wire_status m = p ++ e -> e <> [] ->
  exists d', decode_pool_status p d = (d', Err EStruct).
Proof. exact (status_trunc m p e d). Qed.
Print Assumptions C37_status_truncated.
Theorem C37_config_truncated m p e d : config_ok m -> Shape d -> wire_config m = p ++ e -> e <> [] ->
  exists d', decode_pool_config p d = (d', Err EStruct).
Proof. exact (config_trunc m p e d). Qed.
Print Assumptions C37_config_truncated.
Theorem C37_color_truncated m p e d : color_update_ok m -> Shape d -> wire_color_update m = p ++ e -> e <> [] ->
  exists d', decode_color_update p d = (d', Err EStruct).
Proof. exact (color_trunc m p e d). Qed.
Print Assumptions C37_color_truncated.
(** version: up to the last byte of the text (its padding is not read) *)
Theorem C37_version_truncated fl n p e d : name_ok n -> Shape d -> wire_name n = p ++ e -> zlen p < 4 + zlen (encoded n) ->
  exists d', decode_version fl p d = (d', Err EStruct).
Proof. exact (version_trunc fl n p e d). Qed.
Print Assumptions C37_version_truncated.
(** equipment: up to the last byte of the last array (its padding is not read) *)
Theorem C37_equipment_truncated m p e d : equip_ok m -> Shape d -> wire_equip m = p ++ e ->
  zlen (snd (q_spaflows m)) < zlen e -> exists d', decode_equipment_config p d = (d', Err EStruct).
Proof. exact (equip_trunc m p e d). Qed.
Print Assumptions C37_equipment_truncated.
(** the fixed-size messages: any bytes at all that are too few, any data at all *)
Theorem C37_chemistry_truncated b d : zlen b < 47 -> exists e, snd (decode_chemistry b d) = Err e.
Proof. exact (short_all (DChem b) d). Qed.
Print Assumptions C37_chemistry_truncated.
Theorem C37_pump_truncated b i d : zlen b < 124 -> exists e, snd (decode_pump_status b i d) = Err e.
Proof. exact (short_all (DPump i b) d). Qed.
Print Assumptions C37_pump_truncated.
Theorem C37_scg_truncated b d : zlen b < 28 -> exists e, snd (decode_scg_config b d) = Err e.
Proof. exact (short_all (DScg b) d). Qed.
Print Assumptions C37_scg_truncated.
Theorem C37_date_time_truncated host b d : zlen b < 20 -> exists e, snd (decode_date_time host b d) = Err e.
Proof. exact (short_all (DDate host b) d). Qed.
Print Assumptions C37_date_time_truncated.
(** and for every message, even a malformed one: decoding a prefix gives what decoding the
    whole gives, or struct.error; it never makes something else out of it *)
Theorem C37_prefix_agrees c p e d :
  run_decoder (with_buffer c p) d = run_decoder (with_buffer c (p ++ e)) d
  \/ snd (run_decoder (with_buffer c p) d) = Err EStruct.
Proof. exact (prefix_all c p e d). Qed.
Print Assumptions C37_prefix_agrees.
Example C37_nonvacuous : wire_status some_status = firstn 100 (wire_status some_status) ++ skipn 100 (wire_status some_status)
  /\ skipn 100 (wire_status some_status) <> [] /\ skipn 80 (wire_config some_config) <> []
  /\ zlen (wire_chem some_chem) = 47 /\ zlen (wire_pump (some_pump 1)) = 124 /\ zlen (wire_scg some_scg) = 28.
Proof. vm_compute. split; [reflexivity|]. split; [discriminate|]. split; [discriminate|]. auto. Qed.

(** C38 is false: a message that ends early is decoded up to the point where it ends. *)
Theorem C38_atomic_refuted : exists first second,
  let d := history [DScg first] [] in
  let '(d', r) := run_decoder (DScg second) d in
  r = Err EStruct /\ dpget [KS "scg"; KS "scg_present"] d = Some (VInt 1) /\ dpget [KS "scg"; KS "scg_present"] d' = Some (VInt 0).
Proof. exists (wire_scg some_scg), [0; 0; 0; 0; 7]. vm_compute. auto. Qed.
Print Assumptions C38_atomic_refuted.
(** What does hold of a failed decode: the other sections are untouched, and the data is still
    of the shape the decoders need. *)
Theorem C38_atomic_partial c d d' e : Shape d -> run_decoder c d = (d', Err e) ->
  (forall k, ~ In k (sections c) -> dget k d' = dget k d) /\ Shape d'.
Proof.
  intros S E. pose proof (frame_all c d) as F. pose proof (shape_all c d S) as H. rewrite E in F, H.
  exact (conj F H).
Qed.
Print Assumptions C38_atomic_partial.
Example C38_nonvacuous : exists d', run_decoder (DScg [0; 0; 0; 0; 7]) (history [DChem (wire_chem some_chem)] []) = (d', Err EStruct).
Proof. eexists. vm_compute. reflexivity. Qed.

(** C39. Also for malformed messages: the second attempt gives the same data and the same outcome. *)
Theorem C39_idempotent c d : Shape d -> run_decoder c (fst (run_decoder c d)) = run_decoder c d.
Proof. exact (idem_all c d). Qed.
Print Assumptions C39_idempotent.
Example C39_nonvacuous : Shape (history [DConfig (wire_config some_config); DStatus (wire_status some_status)] []).
Proof. apply history_shape, shape_nil. Qed.

(** C40. *)
Theorem C40_wild_state_ignored m tail d t idx : pump_ok m -> circuit_table d = Some t -> 2147483648 <= p_state m -> Shape d ->
  dpget [KS "pump"; KI idx; KS "state"; KS "value"] (fst (decode_pump_status (wire_pump m ++ tail) idx d))
  = match dpget [KS "pump"; KI idx; KS "state"] d with Some w => pget [KS "value"] w | None => Some (VInt 0) end.
Proof. exact (pump_wild m tail d t idx). Qed.
Print Assumptions C40_wild_state_ignored.
Theorem C40_other_state_stored m tail d t idx : pump_ok m -> Shape d -> circuit_table d = Some t -> p_state m < 2147483648 ->
  holds (fst (decode_pump_status (wire_pump m ++ tail) idx d)) [KS "pump"; KI idx; KS "state"; KS "value"] (VInt (p_state m)).
Proof. intros O S T L. destruct (pump_vals m tail d t idx O S T) as (d' & E & _ & H & _). rewrite E. exact (H L). Qed.
Print Assumptions C40_other_state_stored.
Example C40_nonvacuous :
  let d := fst (decode_pump_status (wire_pump (some_pump 1)) 0 []) in
  dpget [KS "pump"; KI 0; KS "state"; KS "value"] (fst (decode_pump_status (wire_pump (some_pump 4294967295)) 0 d)) = Some (VInt 1)
  /\ dpget [KS "pump"; KI 0; KS "state"; KS "value"] (fst (decode_pump_status (wire_pump (some_pump 0)) 0 d)) = Some (VInt 0).
Proof. vm_compute. auto. Qed.

(** C41. [old_firmware]: the adapter's minor version is known and at most 736. *)
Theorem C41_equipment_flags m tail d : config_ok m -> Shape d ->
  let kept := if old_firmware d then g_equip m mod 65536 else g_equip m in
  exists d', decode_pool_config (wire_config m ++ tail) d = (d', Ok tt)
  /\ holds d' [KS "controller"; KS "equipment"; KS "flags"] (VInt kept)
  /\ holds d' [KS "controller"; KS "equipment"; KS "list"]
       (VList (map (fun x => VStr (u (snd x))) (filter (fun x => Z.testbit kept (fst x)) equipment_names))).
Proof.
  intros O S. cbv zeta. destruct (config_vals m tail d O S) as (d' & E & H & _). exists d'. split; [exact E|].
  clear E. unfold all_hold in H. rewrite Forall_forall in H. unfold kept_flags in H. split.
  - refine (H (at3 "controller" "equipment" "flags" (VInt _)) _). unfold config_facts, kept_flags. cbv zeta. do 10 right. left. reflexivity.
  - refine (H (at3 "controller" "equipment" "list" (VList _)) _). unfold config_facts, kept_flags, equipment_of. cbv zeta. do 11 right. left. reflexivity.
Qed.
Print Assumptions C41_equipment_flags.
Definition old_adapter : dict := [(KS "adapter", VDict [(KS "firmware", VDict [(KS "minor", VFloat (zdivf 736 1))])])].
Example C41_nonvacuous : old_firmware old_adapter = true /\ old_firmware [] = false
  /\ dpget [KS "controller"; KS "equipment"; KS "list"] (fst (decode_pool_config (wire_config some_config) old_adapter))
     = Some (VList [VStr (u "INTELLIBRITE"); VStr (u "INTELLIFLO_0"); VStr (u "INTELLIFLO_1"); VStr (u "INTELLICHEM")])
  /\ dpget [KS "controller"; KS "equipment"; KS "list"] (fst (decode_pool_config (wire_config some_config) []))
     = Some (VList [VStr (u "INTELLIBRITE"); VStr (u "INTELLIFLO_0"); VStr (u "INTELLIFLO_1"); VStr (u "INTELLICHEM"); VStr (u "HYBRID_HEATER")]).
Proof. vm_compute. auto 10. Qed.

(** C42. After any history whatsoever, seven of the nine kinds of message are still decoded,
    and a configuration message makes status messages decodable. *)
Theorem C42_not_wedged_partial l : let d := history l [] in
  (forall m tail, config_ok m -> snd (decode_pool_config (wire_config m ++ tail) d) = Ok tt)
  /\ (forall m tail, chem_ok m -> snd (decode_chemistry (wire_chem m ++ tail) d) = Ok tt)
  /\ (forall m tail, scg_ok m -> snd (decode_scg_config (wire_scg m ++ tail) d) = Ok tt)
  /\ (forall m tail, color_update_ok m -> snd (decode_color_update (wire_color_update m ++ tail) d) = Ok tt)
  /\ (forall m tail, equip_ok m -> snd (decode_equipment_config (wire_equip m ++ tail) d) = Ok tt)
  /\ (forall host y mo wd dd h mi s ms dst tail, is_u16 wd -> is_u32 dst -> real_time y mo dd h mi s ms ->
      snd (decode_date_time host (wire_time y mo wd dd h mi s ms ++ u32le dst ++ tail) d) = Ok tt)
  /\ (forall fl n tail w0 major w2 minor ws fM fm, name_ok n -> words (snd n) (w0 :: major :: w2 :: minor :: ws) ->
      fl major = Some fM -> fl minor = Some fm -> snd (decode_version fl (wire_name n ++ tail) d) = Ok tt)
  /\ (forall c m tail tail', config_ok c -> status_ok m ->
      snd (decode_pool_status (wire_status m ++ tail) (history [DConfig (wire_config c ++ tail')] d)) = Ok tt).
Proof.
  intros d. assert (S : Shape d) by (apply history_shape, shape_nil). clearbody d.
  split; [|split; [|split; [|split; [|split; [|split; [|split]]]]]].
  - intros m tail O. destruct (config_vals m tail d O S) as (d' & E & _). rewrite E. reflexivity.
  - intros m tail O. destruct (chem_vals m tail d O S) as (d' & E & _). rewrite E. reflexivity.
  - intros m tail O. destruct (scg_vals m tail d O S) as (d' & E & _). rewrite E. reflexivity.
  - intros m tail O. destruct (color_vals m tail d O S) as (d' & E & _). rewrite E. reflexivity.
  - intros m tail O. destruct (equip_vals m tail d O S) as (d' & E & _). rewrite E. reflexivity.
  - intros host y mo wd dd h mi s ms dst tail O1 O2 O3.
    destruct (datetime_vals host y mo wd dd h mi s ms dst tail d O1 O2 O3 S) as (d' & E & _). rewrite E. reflexivity.
  - intros fl n tail w0 major w2 minor ws fM fm O W H1 H2.
    destruct (version_vals fl n tail d w0 major w2 minor ws O S W fM fm H1 H2) as (d' & E & _). rewrite E. reflexivity.
  - intros c m tail tail' Oc Om. cbn [history]. pose proof (config_limits c tail' d Oc S) as L.
    pose proof (shape_all (DConfig (wire_config c ++ tail')) d S) as S'.
    destruct (status_vals m tail _ Om S' L) as (d' & E & _). cbn [run_decoder] in *. rewrite E. reflexivity.
Qed.
Print Assumptions C42_not_wedged_partial.
(** The two missing kinds: a status that mentions a circuit the configuration has not described
    makes every later pump message fail (KeyError: no device_id), and a configuration cut between
    a minimum and a maximum set point makes every later status fail (KeyError: no max_setpoint). *)
Theorem C42_pump_wedged_refuted :
  status_ok some_status /\ pump_ok (some_pump 1)
  /\ snd (decode_pump_status (wire_pump (some_pump 1)) 0 (history [DStatus (wire_status some_status)] [])) = Err EKey.
Proof. split; [exact some_status_ok|]. split; [apply C30_nonvacuous|]. vm_compute. reflexivity. Qed.
Print Assumptions C42_pump_wedged_refuted.
Theorem C42_status_wedged_refuted :
  status_ok some_status
  /\ snd (decode_pool_status (wire_status some_status) (history [DConfig (firstn 5 (wire_config some_config))] [])) = Err EKey.
Proof. split; [exact some_status_ok|]. vm_compute. reflexivity. Qed.
Print Assumptions C42_status_wedged_refuted.
Example C42_nonvacuous : history [DConfig [1;2;3]; DStatus (wire_status some_status); DPump 0 [255]; DDate S754_nan []] [] <> [].
Proof. vm_compute. discriminate. Qed.
