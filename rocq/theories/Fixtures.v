(** Model validation (tests, not theorems): raw responses recorded in /repo/tests/data/*.json are
    decoded by the model and compared with the decoding recorded there by the real library.
    Generated by tools/gen_fixtures.py. *)
From Verif Require Import Py F64 Struct Utf Utility Const Enum Decode.
Open Scope string_scope. Open Scope list_scope. Open Scope Z_scope.

(** structural equality up to dictionary order and list/tuple (JSON has no tuples) *)
Fixpoint pv_equiv (n : nat) (a b : pv) : bool :=
  match n with
  | O => false
  | S n' =>
    let fix lst l m := match l, m with
      | [], [] => true | x :: l', y :: m' => pv_equiv n' x y && lst l' m' | _, _ => false end in
    match a, b with
    | VNone, VNone => true
    | VInt x, VInt y => x =? y
    | VFloat (S754_finite s m e), VFloat (S754_finite s' m' e') =>
        Bool.eqb s s' && (Z.pos m =? Z.pos m') && (e =? e')
    | VFloat (S754_zero s), VFloat (S754_zero s') => Bool.eqb s s'
    | VStr x, VStr y => pystr_eqb x y
    | (VList l | VTuple l), (VList m | VTuple m) => lst l m
    | VDict d, VDict d' =>
        Nat.eqb (List.length d) (List.length d')
        && forallb (fun kv => match dget (fst kv) d' with
                              | Some v => pv_equiv n' (snd kv) v | None => false end) d
    | _, _ => false
    end
  end.
Definition D (l : list (key * pv)) : pv := VDict l.
Definition S_ (s : string) : pv := VStr (u s).
Definition F (s : bool) (m : positive) (e : Z) : pv := VFloat (S754_finite s m e).

(** tests/data/slpy-0100_pool-52-build-7380-rel_easytouch2-8_28.json *)
Definition fl1 (s : pystr) : option spec_float :=
  if pystr_eqb s (u "738.0") then (match F false 6491516650389504 (-43) with VFloat x => Some x | _ => None end) else if pystr_eqb s (u "5.2") then (match F false 5854679515581645 (-50) with VFloat x => Some x | _ => None end) else None.
Definition run1 : dict * res unit := (decode_version fl1 [25; 0; 0; 0; 80; 79; 79; 76; 58; 32; 53; 46; 50; 32; 66; 117; 105; 108; 100; 32; 55; 51; 56; 46; 48; 32; 82; 101; 108; 0; 0; 0; 2; 0; 0; 0; 5; 0; 0; 0; 2; 0; 0; 0; 2; 0; 0; 0; 2; 0; 0; 0; 12; 0; 0; 0] ;;;
  decode_pool_config [100; 0; 0; 0; 40; 104; 40; 104; 0; 13; 0; 0; 28; 0; 0; 0; 14; 0; 0; 0; 87; 97; 116; 101; 114; 32; 70; 101; 97; 116; 117; 114; 101; 115; 0; 0; 18; 0; 0; 0; 244; 1; 0; 0; 3; 0; 0; 0; 83; 112; 97; 0; 71; 1; 1; 1; 0; 0; 0; 1; 208; 2; 0; 0; 245; 1; 0; 0; 10; 0; 0; 0; 65; 105; 114; 32; 66; 108; 111; 119; 101; 114; 0; 0; 1; 0; 2; 0; 0; 0; 0; 2; 208; 2; 0; 0; 246; 1; 0; 0; 6; 0; 0; 0; 76; 105; 103; 104; 116; 115; 0; 0; 46; 16; 3; 0; 0; 0; 10; 3; 208; 2; 0; 0; 247; 1; 0; 0; 11; 0; 0; 0; 66; 85; 66; 66; 76; 69; 82; 83; 32; 32; 32; 0; 101; 13; 2; 0; 0; 0; 0; 4; 208; 2; 0; 0; 248; 1; 0; 0; 5; 0; 0; 0; 65; 117; 120; 32; 52; 0; 0; 0; 5; 0; 2; 0; 0; 0; 0; 5; 208; 2; 0; 0; 249; 1; 0; 0; 4; 0; 0; 0; 80; 111; 111; 108; 60; 2; 0; 1; 0; 0; 0; 6; 208; 2; 0; 0; 250; 1; 0; 0; 5; 0; 0; 0; 65; 117; 120; 32; 53; 0; 0; 0; 6; 0; 2; 0; 0; 0; 0; 7; 208; 2; 0; 0; 251; 1; 0; 0; 5; 0; 0; 0; 65; 117; 120; 32; 54; 0; 0; 0; 7; 0; 2; 0; 0; 0; 0; 8; 208; 2; 0; 0; 252; 1; 0; 0; 5; 0; 0; 0; 65; 117; 120; 32; 55; 0; 0; 0; 8; 0; 2; 0; 0; 0; 0; 9; 208; 2; 0; 0; 254; 1; 0; 0; 9; 0; 0; 0; 70; 101; 97; 116; 117; 114; 101; 32; 49; 0; 0; 0; 93; 0; 2; 0; 0; 0; 0; 11; 208; 2; 0; 0; 255; 1; 0; 0; 9; 0; 0; 0; 70; 101; 97; 116; 117; 114; 101; 32; 50; 0; 0; 0; 94; 0; 2; 0; 0; 0; 0; 12; 208; 2; 0; 0; 0; 2; 0; 0; 9; 0; 0; 0; 70; 101; 97; 116; 117; 114; 101; 32; 51; 0; 0; 0; 95; 0; 2; 0; 0; 0; 0; 13; 208; 2; 0; 0; 1; 2; 0; 0; 9; 0; 0; 0; 70; 101; 97; 116; 117; 114; 101; 32; 52; 0; 0; 0; 96; 0; 2; 0; 0; 0; 0; 14; 208; 2; 0; 0; 2; 2; 0; 0; 9; 0; 0; 0; 70; 101; 97; 116; 117; 114; 101; 32; 53; 0; 0; 0; 97; 0; 2; 0; 0; 0; 0; 15; 208; 2; 0; 0; 3; 2; 0; 0; 9; 0; 0; 0; 70; 101; 97; 116; 117; 114; 101; 32; 54; 0; 0; 0; 98; 0; 2; 0; 0; 0; 0; 16; 208; 2; 0; 0; 4; 2; 0; 0; 9; 0; 0; 0; 70; 101; 97; 116; 117; 114; 101; 32; 55; 0; 0; 0; 99; 0; 2; 0; 0; 0; 0; 17; 208; 2; 0; 0; 5; 2; 0; 0; 9; 0; 0; 0; 70; 101; 97; 116; 117; 114; 101; 32; 56; 0; 0; 0; 100; 0; 2; 0; 0; 0; 0; 18; 208; 2; 0; 0; 7; 2; 0; 0; 5; 0; 0; 0; 65; 117; 120; 69; 120; 0; 0; 0; 92; 0; 2; 0; 0; 0; 0; 20; 208; 2; 0; 0; 8; 0; 0; 0; 5; 0; 0; 0; 87; 104; 105; 116; 101; 0; 0; 0; 255; 0; 0; 0; 255; 0; 0; 0; 255; 0; 0; 0; 11; 0; 0; 0; 76; 105; 103; 104; 116; 32; 71; 114; 101; 101; 110; 0; 160; 0; 0; 0; 255; 0; 0; 0; 160; 0; 0; 0; 5; 0; 0; 0; 71; 114; 101; 101; 110; 0; 0; 0; 0; 0; 0; 0; 255; 0; 0; 0; 80; 0; 0; 0; 4; 0; 0; 0; 67; 121; 97; 110; 0; 0; 0; 0; 255; 0; 0; 0; 200; 0; 0; 0; 4; 0; 0; 0; 66; 108; 117; 101; 100; 0; 0; 0; 140; 0; 0; 0; 255; 0; 0; 0; 8; 0; 0; 0; 76; 97; 118; 101; 110; 100; 101; 114; 230; 0; 0; 0; 130; 0; 0; 0; 255; 0; 0; 0; 7; 0; 0; 0; 77; 97; 103; 101; 110; 116; 97; 0; 255; 0; 0; 0; 0; 0; 0; 0; 128; 0; 0; 0; 13; 0; 0; 0; 76; 105; 103; 104; 116; 32; 77; 97; 103; 101; 110; 116; 97; 0; 0; 0; 255; 0; 0; 0; 180; 0; 0; 0; 210; 0; 0; 0; 70; 0; 0; 0; 0; 0; 0; 0; 127; 0; 0; 0; 1; 0; 0; 0] ;;;
  decode_pool_status [2; 0; 0; 0; 0; 0; 0; 0; 0; 0; 0; 0; 0; 0; 0; 0; 2; 0; 0; 0; 0; 0; 0; 0; 0; 0; 0; 0; 0; 0; 0; 0; 0; 0; 0; 0; 0; 0; 0; 0; 0; 0; 0; 0; 1; 0; 0; 0; 0; 0; 0; 0; 0; 0; 0; 0; 0; 0; 0; 0; 0; 0; 0; 0; 0; 0; 0; 0; 18; 0; 0; 0; 244; 1; 0; 0; 0; 0; 0; 0; 0; 0; 0; 0; 245; 1; 0; 0; 0; 0; 0; 0; 0; 0; 0; 0; 246; 1; 0; 0; 0; 0; 0; 0; 0; 0; 10; 0; 247; 1; 0; 0; 0; 0; 0; 0; 0; 0; 0; 0; 248; 1; 0; 0; 0; 0; 0; 0; 0; 0; 0; 0; 249; 1; 0; 0; 0; 0; 0; 0; 0; 0; 0; 0; 250; 1; 0; 0; 0; 0; 0; 0; 0; 0; 0; 0; 251; 1; 0; 0; 0; 0; 0; 0; 0; 0; 0; 0; 252; 1; 0; 0; 0; 0; 0; 0; 0; 0; 0; 0; 254; 1; 0; 0; 0; 0; 0; 0; 0; 0; 0; 0; 255; 1; 0; 0; 0; 0; 0; 0; 0; 0; 0; 0; 0; 2; 0; 0; 0; 0; 0; 0; 0; 0; 0; 0; 1; 2; 0; 0; 0; 0; 0; 0; 0; 0; 0; 0; 2; 2; 0; 0; 0; 0; 0; 0; 0; 0; 0; 0; 3; 2; 0; 0; 0; 0; 0; 0; 0; 0; 0; 0; 4; 2; 0; 0; 0; 0; 0; 0; 0; 0; 0; 0; 5; 2; 0; 0; 0; 0; 0; 0; 0; 0; 0; 0; 7; 2; 0; 0; 0; 0; 0; 0; 0; 0; 0; 0; 0; 0; 0; 0; 0; 0; 0; 0; 0; 0; 0; 0; 0; 0; 0; 0; 0; 0; 0; 0; 0; 0; 0; 0; 0; 0; 0; 0] ;;;
  decode_pump_status [3; 0; 0; 0; 1; 0; 0; 0; 57; 5; 0; 0; 34; 11; 0; 0; 0; 0; 0; 0; 68; 0; 0; 0; 255; 0; 0; 0; 6; 0; 0; 0; 34; 11; 0; 0; 1; 0; 0; 0; 1; 0; 0; 0; 240; 10; 0; 0; 1; 0; 0; 0; 0; 0; 0; 0; 30; 0; 0; 0; 0; 0; 0; 0; 0; 0; 0; 0; 30; 0; 0; 0; 0; 0; 0; 0; 0; 0; 0; 0; 30; 0; 0; 0; 0; 0; 0; 0; 0; 0; 0; 0; 30; 0; 0; 0; 0; 0; 0; 0; 0; 0; 0; 0; 30; 0; 0; 0; 0; 0; 0; 0; 0; 0; 0; 0; 30; 0; 0; 0; 0; 0; 0; 0] 0 ;;;
  decode_chemistry [42; 0; 0; 0; 0; 0; 0; 0; 0; 0; 0; 0; 0; 0; 0; 0; 0; 0; 0; 0; 0; 0; 0; 0; 0; 0; 0; 0; 0; 0; 0; 0; 0; 0; 0; 0; 0; 0; 0; 0; 0; 0; 0; 0; 0; 0; 0; 0] ;;;
  decode_scg_config [11; 0; 0; 0; 129; 0; 0; 0; 80; 0; 0; 0; 5; 0; 0; 0; 63; 0; 0; 0; 128; 0; 0; 0; 0; 0; 0; 0])%dm [].
Definition expect1 : pv := D [(KS "adapter", D [(KS "firmware", D [(KS "name", S_ "Protocol Adapter Firmware"); (KS "value", S_ "POOL: 5.2 Build 738.0 Rel"); (KS "major", F false 5854679515581645 (-50)); (KS "minor", F false 6491516650389504 (-43))])]); (KS "controller", D [(KS "controller_id", VInt (100)); (KS "configuration", D [(KS "body_type", D [(KI 0, D [(KS "min_setpoint", VInt (40)); (KS "max_setpoint", VInt (104))]); (KI 1, D [(KS "min_setpoint", VInt (40)); (KS "max_setpoint", VInt (104))])]); (KS "is_celsius", D [(KS "name", S_ "Is Celsius"); (KS "value", VInt (0))]); (KS "controller_type", VInt (13)); (KS "hardware_type", VInt (0)); (KS "controller_data", VInt (0)); (KS "generic_circuit_name", S_ "Water Features"); (KS "circuit_count", VInt (18)); (KS "color_count", VInt (8)); (KS "color", VList [D [(KS "name", S_ "White"); (KS "value", VList [VInt (255); VInt (255); VInt (255)])]; D [(KS "name", S_ "Light Green"); (KS "value", VList [VInt (160); VInt (255); VInt (160)])]; D [(KS "name", S_ "Green"); (KS "value", VList [VInt (0); VInt (255); VInt (80)])]; D [(KS "name", S_ "Cyan"); (KS "value", VList [VInt (0); VInt (255); VInt (200)])]; D [(KS "name", S_ "Blue"); (KS "value", VList [VInt (100); VInt (140); VInt (255)])]; D [(KS "name", S_ "Lavender"); (KS "value", VList [VInt (230); VInt (130); VInt (255)])]; D [(KS "name", S_ "Magenta"); (KS "value", VList [VInt (255); VInt (0); VInt (128)])]; D [(KS "name", S_ "Light Magenta"); (KS "value", VList [VInt (255); VInt (180); VInt (210)])]]); (KS "interface_tab_flags", VInt (127)); (KS "show_alarms", VInt (1)); (KS "remotes", VInt (0)); (KS "unknown_at_offset_09", VInt (0)); (KS "unknown_at_offset_10", VInt (0)); (KS "unknown_at_offset_11", VInt (0))]); (KS "model", D [(KS "name", S_ "Model"); (KS "value", S_ "EasyTouch2 8")]); (KS "equipment", D [(KS "flags", VInt (28)); (KS "list", VList [S_ "CHLORINATOR"; S_ "INTELLIBRITE"; S_ "INTELLIFLO_0"])]); (KS "sensor", D [(KS "state", D [(KS "name", S_ "Controller State"); (KS "value", VInt (2)); (KS "device_type", S_ "enum"); (KS "enum_options", VList [S_ "Unknown"; S_ "Ready"; S_ "Sync"; S_ "Service"])]); (KS "freeze_mode", D [(KS "name", S_ "Freeze Mode"); (KS "value", VInt (0))]); (KS "pool_delay", D [(KS "name", S_ "Pool Delay"); (KS "value", VInt (0))]); (KS "spa_delay", D [(KS "name", S_ "Spa Delay"); (KS "value", VInt (0))]); (KS "cleaner_delay", D [(KS "name", S_ "Cleaner Delay"); (KS "value", VInt (0))]); (KS "air_temperature", D [(KS "name", S_ "Air Temperature"); (KS "value", VInt (0)); (KS "unit", VStr [176; 70]); (KS "device_type", S_ "temperature"); (KS "state_type", S_ "measurement")]); (KS "ph", D [(KS "name", S_ "pH"); (KS "value", VFloat (S754_zero false)); (KS "unit", S_ "pH"); (KS "state_type", S_ "measurement")]); (KS "orp", D [(KS "name", S_ "ORP"); (KS "value", VInt (0)); (KS "unit", S_ "mV"); (KS "state_type", S_ "measurement")]); (KS "saturation", D [(KS "name", S_ "Saturation Index"); (KS "value", VFloat (S754_zero false)); (KS "unit", S_ "lsi"); (KS "state_type", S_ "measurement")]); (KS "salt_ppm", D [(KS "name", S_ "Salt"); (KS "value", VInt (0)); (KS "unit", S_ "ppm"); (KS "state_type", S_ "measurement")]); (KS "ph_supply_level", D [(KS "name", S_ "pH Supply Level"); (KS "value", VInt (0)); (KS "state_type", S_ "measurement")]); (KS "orp_supply_level", D [(KS "name", S_ "ORP Supply Level"); (KS "value", VInt (0)); (KS "state_type", S_ "measurement")]); (KS "active_alert", D [(KS "name", S_ "Active Alert"); (KS "value", VInt (0)); (KS "device_type", S_ "alarm")])])]); (KS "circuit", D [(KI 500, D [(KS "circuit_id", VInt (500)); (KS "name", S_ "Spa"); (KS "configuration", D [(KS "name_index", VInt (71)); (KS "flags", VInt (1)); (KS "default_runtime", VInt (720)); (KS "unknown_at_offset_62", VInt (0)); (KS "unknown_at_offset_63", VInt (0)); (KS "delay", VInt (0))]); (KS "function", VInt (1)); (KS "interface", VInt (1)); (KS "color", D [(KS "color_set", VInt (0)); (KS "color_position", VInt (0)); (KS "color_stagger", VInt (0))]); (KS "device_id", VInt (1)); (KS "value", VInt (0))]); (KI 501, D [(KS "circuit_id", VInt (501)); (KS "name", S_ "Air Blower"); (KS "configuration", D [(KS "name_index", VInt (1)); (KS "flags", VInt (0)); (KS "default_runtime", VInt (720)); (KS "unknown_at_offset_94", VInt (0)); (KS "unknown_at_offset_95", VInt (0)); (KS "delay", VInt (0))]); (KS "function", VInt (0)); (KS "interface", VInt (2)); (KS "color", D [(KS "color_set", VInt (0)); (KS "color_position", VInt (0)); (KS "color_stagger", VInt (0))]); (KS "device_id", VInt (2)); (KS "value", VInt (0))]); (KI 502, D [(KS "circuit_id", VInt (502)); (KS "name", S_ "Lights"); (KS "configuration", D [(KS "name_index", VInt (46)); (KS "flags", VInt (0)); (KS "default_runtime", VInt (720)); (KS "unknown_at_offset_122", VInt (0)); (KS "unknown_at_offset_123", VInt (0)); (KS "delay", VInt (0))]); (KS "function", VInt (16)); (KS "interface", VInt (3)); (KS "color", D [(KS "color_set", VInt (0)); (KS "color_position", VInt (0)); (KS "color_stagger", VInt (10))]); (KS "device_id", VInt (3)); (KS "value", VInt (0))]); (KI 503, D [(KS "circuit_id", VInt (503)); (KS "name", S_ "BUBBLERS   "); (KS "configuration", D [(KS "name_index", VInt (101)); (KS "flags", VInt (0)); (KS "default_runtime", VInt (720)); (KS "unknown_at_offset_154", VInt (0)); (KS "unknown_at_offset_155", VInt (0)); (KS "delay", VInt (0))]); (KS "function", VInt (13)); (KS "interface", VInt (2)); (KS "color", D [(KS "color_set", VInt (0)); (KS "color_position", VInt (0)); (KS "color_stagger", VInt (0))]); (KS "device_id", VInt (4)); (KS "value", VInt (0))]); (KI 504, D [(KS "circuit_id", VInt (504)); (KS "name", S_ "Aux 4"); (KS "configuration", D [(KS "name_index", VInt (5)); (KS "flags", VInt (0)); (KS "default_runtime", VInt (720)); (KS "unknown_at_offset_182", VInt (0)); (KS "unknown_at_offset_183", VInt (0)); (KS "delay", VInt (0))]); (KS "function", VInt (0)); (KS "interface", VInt (2)); (KS "color", D [(KS "color_set", VInt (0)); (KS "color_position", VInt (0)); (KS "color_stagger", VInt (0))]); (KS "device_id", VInt (5)); (KS "value", VInt (0))]); (KI 505, D [(KS "circuit_id", VInt (505)); (KS "name", S_ "Pool"); (KS "configuration", D [(KS "name_index", VInt (60)); (KS "flags", VInt (1)); (KS "default_runtime", VInt (720)); (KS "unknown_at_offset_206", VInt (0)); (KS "unknown_at_offset_207", VInt (0)); (KS "delay", VInt (0))]); (KS "function", VInt (2)); (KS "interface", VInt (0)); (KS "color", D [(KS "color_set", VInt (0)); (KS "color_position", VInt (0)); (KS "color_stagger", VInt (0))]); (KS "device_id", VInt (6)); (KS "value", VInt (0))]); (KI 506, D [(KS "circuit_id", VInt (506)); (KS "name", S_ "Aux 5"); (KS "configuration", D [(KS "name_index", VInt (6)); (KS "flags", VInt (0)); (KS "default_runtime", VInt (720)); (KS "unknown_at_offset_234", VInt (0)); (KS "unknown_at_offset_235", VInt (0)); (KS "delay", VInt (0))]); (KS "function", VInt (0)); (KS "interface", VInt (2)); (KS "color", D [(KS "color_set", VInt (0)); (KS "color_position", VInt (0)); (KS "color_stagger", VInt (0))]); (KS "device_id", VInt (7)); (KS "value", VInt (0))]); (KI 507, D [(KS "circuit_id", VInt (507)); (KS "name", S_ "Aux 6"); (KS "configuration", D [(KS "name_index", VInt (7)); (KS "flags", VInt (0)); (KS "default_runtime", VInt (720)); (KS "unknown_at_offset_262", VInt (0)); (KS "unknown_at_offset_263", VInt (0)); (KS "delay", VInt (0))]); (KS "function", VInt (0)); (KS "interface", VInt (2)); (KS "color", D [(KS "color_set", VInt (0)); (KS "color_position", VInt (0)); (KS "color_stagger", VInt (0))]); (KS "device_id", VInt (8)); (KS "value", VInt (0))]); (KI 508, D [(KS "circuit_id", VInt (508)); (KS "name", S_ "Aux 7"); (KS "configuration", D [(KS "name_index", VInt (8)); (KS "flags", VInt (0)); (KS "default_runtime", VInt (720)); (KS "unknown_at_offset_290", VInt (0)); (KS "unknown_at_offset_291", VInt (0)); (KS "delay", VInt (0))]); (KS "function", VInt (0)); (KS "interface", VInt (2)); (KS "color", D [(KS "color_set", VInt (0)); (KS "color_position", VInt (0)); (KS "color_stagger", VInt (0))]); (KS "device_id", VInt (9)); (KS "value", VInt (0))]); (KI 510, D [(KS "circuit_id", VInt (510)); (KS "name", S_ "Feature 1"); (KS "configuration", D [(KS "name_index", VInt (93)); (KS "flags", VInt (0)); (KS "default_runtime", VInt (720)); (KS "unknown_at_offset_322", VInt (0)); (KS "unknown_at_offset_323", VInt (0)); (KS "delay", VInt (0))]); (KS "function", VInt (0)); (KS "interface", VInt (2)); (KS "color", D [(KS "color_set", VInt (0)); (KS "color_position", VInt (0)); (KS "color_stagger", VInt (0))]); (KS "device_id", VInt (11)); (KS "value", VInt (0))]); (KI 511, D [(KS "circuit_id", VInt (511)); (KS "name", S_ "Feature 2"); (KS "configuration", D [(KS "name_index", VInt (94)); (KS "flags", VInt (0)); (KS "default_runtime", VInt (720)); (KS "unknown_at_offset_354", VInt (0)); (KS "unknown_at_offset_355", VInt (0)); (KS "delay", VInt (0))]); (KS "function", VInt (0)); (KS "interface", VInt (2)); (KS "color", D [(KS "color_set", VInt (0)); (KS "color_position", VInt (0)); (KS "color_stagger", VInt (0))]); (KS "device_id", VInt (12)); (KS "value", VInt (0))]); (KI 512, D [(KS "circuit_id", VInt (512)); (KS "name", S_ "Feature 3"); (KS "configuration", D [(KS "name_index", VInt (95)); (KS "flags", VInt (0)); (KS "default_runtime", VInt (720)); (KS "unknown_at_offset_386", VInt (0)); (KS "unknown_at_offset_387", VInt (0)); (KS "delay", VInt (0))]); (KS "function", VInt (0)); (KS "interface", VInt (2)); (KS "color", D [(KS "color_set", VInt (0)); (KS "color_position", VInt (0)); (KS "color_stagger", VInt (0))]); (KS "device_id", VInt (13)); (KS "value", VInt (0))]); (KI 513, D [(KS "circuit_id", VInt (513)); (KS "name", S_ "Feature 4"); (KS "configuration", D [(KS "name_index", VInt (96)); (KS "flags", VInt (0)); (KS "default_runtime", VInt (720)); (KS "unknown_at_offset_418", VInt (0)); (KS "unknown_at_offset_419", VInt (0)); (KS "delay", VInt (0))]); (KS "function", VInt (0)); (KS "interface", VInt (2)); (KS "color", D [(KS "color_set", VInt (0)); (KS "color_position", VInt (0)); (KS "color_stagger", VInt (0))]); (KS "device_id", VInt (14)); (KS "value", VInt (0))]); (KI 514, D [(KS "circuit_id", VInt (514)); (KS "name", S_ "Feature 5"); (KS "configuration", D [(KS "name_index", VInt (97)); (KS "flags", VInt (0)); (KS "default_runtime", VInt (720)); (KS "unknown_at_offset_450", VInt (0)); (KS "unknown_at_offset_451", VInt (0)); (KS "delay", VInt (0))]); (KS "function", VInt (0)); (KS "interface", VInt (2)); (KS "color", D [(KS "color_set", VInt (0)); (KS "color_position", VInt (0)); (KS "color_stagger", VInt (0))]); (KS "device_id", VInt (15)); (KS "value", VInt (0))]); (KI 515, D [(KS "circuit_id", VInt (515)); (KS "name", S_ "Feature 6"); (KS "configuration", D [(KS "name_index", VInt (98)); (KS "flags", VInt (0)); (KS "default_runtime", VInt (720)); (KS "unknown_at_offset_482", VInt (0)); (KS "unknown_at_offset_483", VInt (0)); (KS "delay", VInt (0))]); (KS "function", VInt (0)); (KS "interface", VInt (2)); (KS "color", D [(KS "color_set", VInt (0)); (KS "color_position", VInt (0)); (KS "color_stagger", VInt (0))]); (KS "device_id", VInt (16)); (KS "value", VInt (0))]); (KI 516, D [(KS "circuit_id", VInt (516)); (KS "name", S_ "Feature 7"); (KS "configuration", D [(KS "name_index", VInt (99)); (KS "flags", VInt (0)); (KS "default_runtime", VInt (720)); (KS "unknown_at_offset_514", VInt (0)); (KS "unknown_at_offset_515", VInt (0)); (KS "delay", VInt (0))]); (KS "function", VInt (0)); (KS "interface", VInt (2)); (KS "color", D [(KS "color_set", VInt (0)); (KS "color_position", VInt (0)); (KS "color_stagger", VInt (0))]); (KS "device_id", VInt (17)); (KS "value", VInt (0))]); (KI 517, D [(KS "circuit_id", VInt (517)); (KS "name", S_ "Feature 8"); (KS "configuration", D [(KS "name_index", VInt (100)); (KS "flags", VInt (0)); (KS "default_runtime", VInt (720)); (KS "unknown_at_offset_546", VInt (0)); (KS "unknown_at_offset_547", VInt (0)); (KS "delay", VInt (0))]); (KS "function", VInt (0)); (KS "interface", VInt (2)); (KS "color", D [(KS "color_set", VInt (0)); (KS "color_position", VInt (0)); (KS "color_stagger", VInt (0))]); (KS "device_id", VInt (18)); (KS "value", VInt (0))]); (KI 519, D [(KS "circuit_id", VInt (519)); (KS "name", S_ "AuxEx"); (KS "configuration", D [(KS "name_index", VInt (92)); (KS "flags", VInt (0)); (KS "default_runtime", VInt (720)); (KS "unknown_at_offset_574", VInt (0)); (KS "unknown_at_offset_575", VInt (0)); (KS "delay", VInt (0))]); (KS "function", VInt (0)); (KS "interface", VInt (2)); (KS "color", D [(KS "color_set", VInt (0)); (KS "color_position", VInt (0)); (KS "color_stagger", VInt (0))]); (KS "device_id", VInt (20)); (KS "value", VInt (0))])]); (KS "pump", D [(KI 0, D [(KS "data", VInt (70)); (KS "type", VInt (3)); (KS "state", D [(KS "name", S_ "Pool Pump"); (KS "value", VInt (1))]); (KS "watts_now", D [(KS "name", S_ "Pool Pump Watts Now"); (KS "value", VInt (1337)); (KS "unit", S_ "W"); (KS "device_type", S_ "power"); (KS "state_type", S_ "measurement")]); (KS "rpm_now", D [(KS "name", S_ "Pool Pump RPM Now"); (KS "value", VInt (2850)); (KS "unit", S_ "rpm"); (KS "state_type", S_ "measurement")]); (KS "unknown_at_offset_16", VInt (0)); (KS "gpm_now", D [(KS "name", S_ "Pool Pump GPM Now"); (KS "value", VInt (68)); (KS "unit", S_ "gpm"); (KS "state_type", S_ "measurement")]); (KS "unknown_at_offset_24", VInt (255)); (KS "preset", D [(KI 0, D [(KS "device_id", VInt (6)); (KS "setpoint", VInt (2850)); (KS "is_rpm", VInt (1))]); (KI 1, D [(KS "device_id", VInt (1)); (KS "setpoint", VInt (2800)); (KS "is_rpm", VInt (1))]); (KI 2, D [(KS "device_id", VInt (0)); (KS "setpoint", VInt (30)); (KS "is_rpm", VInt (0))]); (KI 3, D [(KS "device_id", VInt (0)); (KS "setpoint", VInt (30)); (KS "is_rpm", VInt (0))]); (KI 4, D [(KS "device_id", VInt (0)); (KS "setpoint", VInt (30)); (KS "is_rpm", VInt (0))]); (KI 5, D [(KS "device_id", VInt (0)); (KS "setpoint", VInt (30)); (KS "is_rpm", VInt (0))]); (KI 6, D [(KS "device_id", VInt (0)); (KS "setpoint", VInt (30)); (KS "is_rpm", VInt (0))]); (KI 7, D [(KS "device_id", VInt (0)); (KS "setpoint", VInt (30)); (KS "is_rpm", VInt (0))])])]); (KI 1, D [(KS "data", VInt (0))]); (KI 2, D [(KS "data", VInt (0))]); (KI 3, D [(KS "data", VInt (0))]); (KI 4, D [(KS "data", VInt (0))]); (KI 5, D [(KS "data", VInt (0))]); (KI 6, D [(KS "data", VInt (0))]); (KI 7, D [(KS "data", VInt (0))])]); (KS "body", D [(KI 0, D [(KS "body_type", VInt (0)); (KS "min_setpoint", VInt (40)); (KS "max_setpoint", VInt (104)); (KS "name", S_ "Pool"); (KS "last_temperature", D [(KS "name", S_ "Last Pool Temperature"); (KS "value", VInt (0)); (KS "unit", VStr [176; 70]); (KS "device_type", S_ "temperature"); (KS "state_type", S_ "measurement")]); (KS "heat_state", D [(KS "name", S_ "Pool Heat"); (KS "value", VInt (0)); (KS "device_type", S_ "enum"); (KS "enum_options", VList [S_ "Off"; S_ "Solar"; S_ "Heater"; S_ "Both"])]); (KS "heat_setpoint", D [(KS "name", S_ "Pool Heat Set Point"); (KS "value", VInt (0)); (KS "unit", VStr [176; 70]); (KS "device_type", S_ "temperature")]); (KS "cool_setpoint", D [(KS "name", S_ "Pool Cool Set Point"); (KS "value", VInt (0)); (KS "unit", VStr [176; 70]); (KS "device_type", S_ "temperature")]); (KS "heat_mode", D [(KS "name", S_ "Pool Heat Mode"); (KS "value", VInt (0)); (KS "device_type", S_ "enum"); (KS "enum_options", VList [S_ "Off"; S_ "Solar"; S_ "Solar Preferred"; S_ "Heater"; S_ "Don't Change"])])]); (KI 1, D [(KS "body_type", VInt (1)); (KS "min_setpoint", VInt (40)); (KS "max_setpoint", VInt (104)); (KS "name", S_ "Spa"); (KS "last_temperature", D [(KS "name", S_ "Last Spa Temperature"); (KS "value", VInt (0)); (KS "unit", VStr [176; 70]); (KS "device_type", S_ "temperature"); (KS "state_type", S_ "measurement")]); (KS "heat_state", D [(KS "name", S_ "Spa Heat"); (KS "value", VInt (0)); (KS "device_type", S_ "enum"); (KS "enum_options", VList [S_ "Off"; S_ "Solar"; S_ "Heater"; S_ "Both"])]); (KS "heat_setpoint", D [(KS "name", S_ "Spa Heat Set Point"); (KS "value", VInt (0)); (KS "unit", VStr [176; 70]); (KS "device_type", S_ "temperature")]); (KS "cool_setpoint", D [(KS "name", S_ "Spa Cool Set Point"); (KS "value", VInt (0)); (KS "unit", VStr [176; 70]); (KS "device_type", S_ "temperature")]); (KS "heat_mode", D [(KS "name", S_ "Spa Heat Mode"); (KS "value", VInt (0)); (KS "device_type", S_ "enum"); (KS "enum_options", VList [S_ "Off"; S_ "Solar"; S_ "Solar Preferred"; S_ "Heater"; S_ "Don't Change"])])])]); (KS "intellichem", D [(KS "unknown_at_offset_00", VInt (42)); (KS "unknown_at_offset_04", VInt (0)); (KS "sensor", D [(KS "ph_now", D [(KS "name", S_ "pH Now"); (KS "value", VFloat (S754_zero false)); (KS "unit", S_ "pH"); (KS "state_type", S_ "measurement")]); (KS "orp_now", D [(KS "name", S_ "ORP Now"); (KS "value", VInt (0)); (KS "unit", S_ "mV"); (KS "state_type", S_ "measurement")]); (KS "ph_supply_level", D [(KS "name", S_ "pH Supply Level"); (KS "value", VInt (0)); (KS "state_type", S_ "measurement")]); (KS "orp_supply_level", D [(KS "name", S_ "ORP Supply Level"); (KS "value", VInt (0)); (KS "state_type", S_ "measurement")]); (KS "saturation", D [(KS "name", S_ "Saturation Index"); (KS "value", VFloat (S754_zero false)); (KS "unit", S_ "lsi"); (KS "state_type", S_ "measurement")]); (KS "ph_probe_water_temp", D [(KS "name", S_ "pH Probe Water Temperature"); (KS "value", VInt (0)); (KS "unit", VStr [176; 70]); (KS "device_type", S_ "temperature"); (KS "state_type", S_ "measurement")])]); (KS "configuration", D [(KS "ph_setpoint", D [(KS "name", S_ "pH Setpoint"); (KS "value", VFloat (S754_zero false)); (KS "unit", S_ "pH"); (KS "min_setpoint", F false 8106479329266893 (-50)); (KS "max_setpoint", F false 8556839292003942 (-50))]); (KS "orp_setpoint", D [(KS "name", S_ "ORP Setpoint"); (KS "value", VInt (0)); (KS "unit", S_ "mV"); (KS "min_setpoint", VInt (400)); (KS "max_setpoint", VInt (800))]); (KS "calcium_hardness", D [(KS "name", S_ "Calcium Hardness"); (KS "value", VInt (0)); (KS "unit", S_ "ppm"); (KS "min_setpoint", VInt (25)); (KS "max_setpoint", VInt (800))]); (KS "cya", D [(KS "name", S_ "Cyanuric Acid"); (KS "value", VInt (0)); (KS "unit", S_ "ppm"); (KS "min_setpoint", VInt (0)); (KS "max_setpoint", VInt (201))]); (KS "total_alkalinity", D [(KS "name", S_ "Total Alkalinity"); (KS "value", VInt (0)); (KS "unit", S_ "ppm"); (KS "min_setpoint", VInt (25)); (KS "max_setpoint", VInt (800))]); (KS "salt_tds_ppm", D [(KS "name", S_ "Salt/TDS"); (KS "value", VInt (0)); (KS "unit", S_ "ppm"); (KS "min_setpoint", VInt (500)); (KS "max_setpoint", VInt (6500))]); (KS "probe_is_celsius", VInt (0)); (KS "flags", VInt (0))]); (KS "dose_status", D [(KS "ph_last_dose_time", D [(KS "name", S_ "Last pH Dose Time"); (KS "value", VInt (0)); (KS "unit", S_ "sec"); (KS "device_type", S_ "duration"); (KS "state_type", S_ "total_increasing")]); (KS "orp_last_dose_time", D [(KS "name", S_ "Last ORP Dose Time"); (KS "value", VInt (0)); (KS "unit", S_ "sec"); (KS "device_type", S_ "duration"); (KS "state_type", S_ "total_increasing")]); (KS "ph_last_dose_volume", D [(KS "name", S_ "Last pH Dose Volume"); (KS "value", VInt (0)); (KS "unit", S_ "mL"); (KS "device_type", S_ "volume"); (KS "state_type", S_ "total_increasing")]); (KS "orp_last_dose_volume", D [(KS "name", S_ "Last ORP Dose Volume"); (KS "value", VInt (0)); (KS "unit", S_ "mL"); (KS "device_type", S_ "volume"); (KS "state_type", S_ "total_increasing")]); (KS "flags", VInt (0)); (KS "ph_dosing_state", D [(KS "name", S_ "pH Dosing State"); (KS "value", VInt (0)); (KS "device_type", S_ "enum"); (KS "enum_options", VList [S_ "Dosing"; S_ "Mixing"; S_ "Monitoring"])]); (KS "orp_dosing_state", D [(KS "name", S_ "ORP Dosing State"); (KS "value", VInt (0)); (KS "device_type", S_ "enum"); (KS "enum_options", VList [S_ "Dosing"; S_ "Mixing"; S_ "Monitoring"])])]); (KS "alarm", D [(KS "flags", VInt (0)); (KS "flow_alarm", D [(KS "name", S_ "Flow Alarm"); (KS "value", VInt (0)); (KS "device_type", S_ "alarm")]); (KS "ph_high_alarm", D [(KS "name", S_ "pH HIGH Alarm"); (KS "value", VInt (0)); (KS "device_type", S_ "alarm")]); (KS "ph_low_alarm", D [(KS "name", S_ "pH LOW Alarm"); (KS "value", VInt (0)); (KS "device_type", S_ "alarm")]); (KS "orp_high_alarm", D [(KS "name", S_ "ORP HIGH Alarm"); (KS "value", VInt (0)); (KS "device_type", S_ "alarm")]); (KS "orp_low_alarm", D [(KS "name", S_ "ORP LOW Alarm"); (KS "value", VInt (0)); (KS "device_type", S_ "alarm")]); (KS "ph_supply_alarm", D [(KS "name", S_ "pH Supply Alarm"); (KS "value", VInt (0)); (KS "device_type", S_ "alarm")]); (KS "orp_supply_alarm", D [(KS "name", S_ "ORP Supply Alarm"); (KS "value", VInt (0)); (KS "device_type", S_ "alarm")]); (KS "probe_fault_alarm", D [(KS "name", S_ "Probe Fault"); (KS "value", VInt (0)); (KS "device_type", S_ "alarm")])]); (KS "alert", D [(KS "flags", VInt (0)); (KS "ph_lockout", D [(KS "name", S_ "pH Lockout"); (KS "value", VInt (0))]); (KS "ph_limit", D [(KS "name", S_ "pH Dose Limit Reached"); (KS "value", VInt (0))]); (KS "orp_limit", D [(KS "name", S_ "ORP Dose Limit Reached"); (KS "value", VInt (0))])]); (KS "firmware", D [(KS "name", S_ "IntelliChem Firmware"); (KS "value", S_ "0.000"); (KS "major", VInt (0)); (KS "minor", VInt (0))]); (KS "water_balance", D [(KS "flags", VInt (0)); (KS "corrosive", D [(KS "name", S_ "SI Corrosive"); (KS "value", VInt (0)); (KS "device_type", S_ "alarm")]); (KS "scaling", D [(KS "name", S_ "SI Scaling"); (KS "value", VInt (0)); (KS "device_type", S_ "alarm")])]); (KS "unknown_at_offset_44", VInt (0)); (KS "unknown_at_offset_45", VInt (0)); (KS "unknown_at_offset_46", VInt (0))]); (KS "scg", D [(KS "scg_present", VInt (11)); (KS "sensor", D [(KS "state", D [(KS "name", S_ "Chlorinator"); (KS "value", VInt (1))]); (KS "salt_ppm", D [(KS "name", S_ "Chlorinator Salt"); (KS "value", VInt (3150)); (KS "unit", S_ "ppm"); (KS "state_type", S_ "measurement")])]); (KS "configuration", D [(KS "pool_setpoint", D [(KS "name", S_ "Pool Chlorinator Setpoint"); (KS "value", VInt (80)); (KS "unit", S_ "%"); (KS "min_setpoint", VInt (0)); (KS "max_setpoint", VInt (100)); (KS "step", VInt (1)); (KS "body_type", VInt (0))]); (KS "spa_setpoint", D [(KS "name", S_ "Spa Chlorinator Setpoint"); (KS "value", VInt (5)); (KS "unit", S_ "%"); (KS "min_setpoint", VInt (0)); (KS "max_setpoint", VInt (100)); (KS "step", VInt (1)); (KS "body_type", VInt (1))]); (KS "super_chlor_timer", D [(KS "name", S_ "Super Chlorination Timer"); (KS "value", VInt (0)); (KS "unit", S_ "hr"); (KS "min_setpoint", VInt (0)); (KS "max_setpoint", VInt (72)); (KS "step", VInt (1))])]); (KS "flags", VInt (128)); (KS "super_chlorinate", D [(KS "name", S_ "Super Chlorinate"); (KS "value", VInt (0))])])].
Example fixture1 : (match run1 with (d, Ok tt) => pv_equiv 20 (VDict d) expect1 | _ => false end) = true.
Proof. vm_compute. reflexivity. Qed.

(** tests/data/slpy-0100_pool-52-build-7380-rel_easytouch2-8_32824.json *)
Definition fl2 (s : pystr) : option spec_float :=
  if pystr_eqb s (u "738.0") then (match F false 6491516650389504 (-43) with VFloat x => Some x | _ => None end) else if pystr_eqb s (u "5.2") then (match F false 5854679515581645 (-50) with VFloat x => Some x | _ => None end) else None.
Definition run2 : dict * res unit := (decode_version fl2 [25; 0; 0; 0; 80; 79; 79; 76; 58; 32; 53; 46; 50; 32; 66; 117; 105; 108; 100; 32; 55; 51; 56; 46; 48; 32; 82; 101; 108; 0; 0; 0; 2; 0; 0; 0; 5; 0; 0; 0; 2; 0; 0; 0; 2; 0; 0; 0; 2; 0; 0; 0; 12; 0; 0; 0] ;;;
  decode_pool_config [100; 0; 0; 0; 40; 104; 40; 104; 0; 13; 0; 0; 56; 128; 0; 0; 14; 0; 0; 0; 87; 97; 116; 101; 114; 32; 70; 101; 97; 116; 117; 114; 101; 115; 0; 0; 11; 0; 0; 0; 244; 1; 0; 0; 3; 0; 0; 0; 83; 112; 97; 0; 71; 1; 1; 1; 0; 0; 0; 1; 208; 2; 0; 0; 245; 1; 0; 0; 9; 0; 0; 0; 87; 97; 116; 101; 114; 102; 97; 108; 108; 0; 0; 0; 85; 0; 2; 0; 0; 0; 0; 2; 208; 2; 0; 0; 246; 1; 0; 0; 10; 0; 0; 0; 80; 111; 111; 108; 32; 76; 105; 103; 104; 116; 0; 0; 62; 16; 3; 0; 2; 0; 2; 3; 208; 2; 0; 0; 247; 1; 0; 0; 9; 0; 0; 0; 83; 112; 97; 32; 76; 105; 103; 104; 116; 0; 0; 0; 73; 16; 3; 0; 6; 1; 10; 4; 208; 2; 0; 0; 248; 1; 0; 0; 7; 0; 0; 0; 67; 108; 101; 97; 110; 101; 114; 0; 21; 5; 2; 0; 0; 0; 0; 5; 240; 0; 0; 0; 249; 1; 0; 0; 8; 0; 0; 0; 80; 111; 111; 108; 32; 76; 111; 119; 63; 2; 0; 1; 0; 0; 0; 6; 208; 2; 0; 0; 250; 1; 0; 0; 10; 0; 0; 0; 89; 97; 114; 100; 32; 76; 105; 103; 104; 116; 0; 0; 91; 7; 4; 0; 0; 0; 0; 7; 208; 2; 0; 0; 251; 1; 0; 0; 7; 0; 0; 0; 67; 97; 109; 101; 114; 97; 115; 0; 101; 0; 2; 0; 0; 0; 0; 8; 84; 6; 0; 0; 252; 1; 0; 0; 9; 0; 0; 0; 80; 111; 111; 108; 32; 72; 105; 103; 104; 0; 0; 0; 61; 0; 2; 0; 0; 0; 0; 9; 208; 2; 0; 0; 254; 1; 0; 0; 8; 0; 0; 0; 83; 112; 105; 108; 108; 119; 97; 121; 78; 14; 2; 0; 0; 0; 0; 11; 208; 2; 0; 0; 255; 1; 0; 0; 9; 0; 0; 0; 80; 111; 111; 108; 32; 72; 105; 103; 104; 0; 0; 0; 61; 0; 5; 0; 0; 0; 0; 12; 208; 2; 0; 0; 8; 0; 0; 0; 5; 0; 0; 0; 87; 104; 105; 116; 101; 0; 0; 0; 255; 0; 0; 0; 255; 0; 0; 0; 255; 0; 0; 0; 11; 0; 0; 0; 76; 105; 103; 104; 116; 32; 71; 114; 101; 101; 110; 0; 160; 0; 0; 0; 255; 0; 0; 0; 160; 0; 0; 0; 5; 0; 0; 0; 71; 114; 101; 101; 110; 0; 0; 0; 0; 0; 0; 0; 255; 0; 0; 0; 80; 0; 0; 0; 4; 0; 0; 0; 67; 121; 97; 110; 0; 0; 0; 0; 255; 0; 0; 0; 200; 0; 0; 0; 4; 0; 0; 0; 66; 108; 117; 101; 100; 0; 0; 0; 140; 0; 0; 0; 255; 0; 0; 0; 8; 0; 0; 0; 76; 97; 118; 101; 110; 100; 101; 114; 230; 0; 0; 0; 130; 0; 0; 0; 255; 0; 0; 0; 7; 0; 0; 0; 77; 97; 103; 101; 110; 116; 97; 0; 255; 0; 0; 0; 0; 0; 0; 0; 128; 0; 0; 0; 13; 0; 0; 0; 76; 105; 103; 104; 116; 32; 77; 97; 103; 101; 110; 116; 97; 0; 0; 0; 255; 0; 0; 0; 180; 0; 0; 0; 210; 0; 0; 0; 70; 66; 0; 0; 0; 0; 0; 0; 127; 0; 0; 0; 0; 0; 0; 0] ;;;
  decode_pool_status [1; 0; 0; 0; 0; 0; 0; 0; 0; 0; 0; 0; 64; 0; 0; 0; 2; 0; 0; 0; 0; 0; 0; 0; 59; 0; 0; 0; 0; 0; 0; 0; 83; 0; 0; 0; 100; 0; 0; 0; 0; 0; 0; 0; 1; 0; 0; 0; 59; 0; 0; 0; 0; 0; 0; 0; 95; 0; 0; 0; 64; 0; 0; 0; 3; 0; 0; 0; 11; 0; 0; 0; 244; 1; 0; 0; 0; 0; 0; 0; 0; 0; 0; 0; 245; 1; 0; 0; 0; 0; 0; 0; 0; 0; 0; 0; 246; 1; 0; 0; 0; 0; 0; 0; 2; 0; 2; 0; 247; 1; 0; 0; 0; 0; 0; 0; 6; 1; 10; 0; 248; 1; 0; 0; 0; 0; 0; 0; 0; 0; 0; 0; 249; 1; 0; 0; 1; 0; 0; 0; 0; 0; 0; 0; 250; 1; 0; 0; 0; 0; 0; 0; 0; 0; 0; 0; 251; 1; 0; 0; 1; 0; 0; 0; 0; 0; 0; 0; 252; 1; 0; 0; 0; 0; 0; 0; 0; 0; 0; 0; 254; 1; 0; 0; 0; 0; 0; 0; 0; 0; 0; 0; 255; 1; 0; 0; 0; 0; 0; 0; 0; 0; 0; 0; 242; 2; 0; 0; 213; 2; 0; 0; 228; 255; 255; 255; 0; 0; 0; 0; 1; 0; 0; 0; 2; 0; 0; 0; 1; 0; 0; 0] ;;;
  decode_pump_status [3; 0; 0; 0; 1; 0; 0; 0; 222; 4; 0; 0; 150; 10; 0; 0; 0; 0; 0; 0; 63; 0; 0; 0; 255; 0; 0; 0; 6; 0; 0; 0; 63; 0; 0; 0; 0; 0; 0; 0; 9; 0; 0; 0; 72; 0; 0; 0; 0; 0; 0; 0; 1; 0; 0; 0; 122; 13; 0; 0; 1; 0; 0; 0; 130; 0; 0; 0; 75; 0; 0; 0; 0; 0; 0; 0; 12; 0; 0; 0; 72; 0; 0; 0; 0; 0; 0; 0; 0; 0; 0; 0; 30; 0; 0; 0; 0; 0; 0; 0; 0; 0; 0; 0; 30; 0; 0; 0; 0; 0; 0; 0; 0; 0; 0; 0; 30; 0; 0; 0; 0; 0; 0; 0] 0 ;;;
  decode_pump_status [3; 0; 0; 0; 0; 0; 0; 0; 0; 0; 0; 0; 0; 0; 0; 0; 0; 0; 0; 0; 0; 0; 0; 0; 255; 0; 0; 0; 2; 0; 0; 0; 140; 10; 0; 0; 1; 0; 0; 0; 0; 0; 0; 0; 30; 0; 0; 0; 0; 0; 0; 0; 0; 0; 0; 0; 30; 0; 0; 0; 0; 0; 0; 0; 0; 0; 0; 0; 30; 0; 0; 0; 0; 0; 0; 0; 0; 0; 0; 0; 30; 0; 0; 0; 0; 0; 0; 0; 0; 0; 0; 0; 30; 0; 0; 0; 0; 0; 0; 0; 0; 0; 0; 0; 30; 0; 0; 0; 0; 0; 0; 0; 0; 0; 0; 0; 30; 0; 0; 0; 0; 0; 0; 0] 1 ;;;
  decode_chemistry [42; 0; 0; 0; 0; 2; 242; 2; 213; 2; 248; 2; 208; 0; 0; 0; 7; 0; 0; 0; 18; 0; 12; 0; 39; 1; 2; 228; 3; 32; 0; 45; 0; 45; 20; 0; 59; 32; 0; 165; 32; 60; 1; 0; 0; 0; 0; 0] ;;;
  decode_scg_config [0; 0; 0; 0; 0; 0; 0; 0; 0; 0; 0; 0; 0; 0; 0; 0; 0; 0; 0; 0; 0; 0; 0; 0; 6; 0; 0; 0] ;;;
  decode_date_time (match F false 7132488660942848 (-22) with VFloat x => x | _ => S754_nan end) [231; 7; 11; 0; 0; 0; 20; 0; 14; 0; 6; 0; 9; 0; 0; 0; 1; 0; 0; 0])%dm [].
Definition expect2 : pv := D [(KS "adapter", D [(KS "firmware", D [(KS "name", S_ "Protocol Adapter Firmware"); (KS "value", S_ "POOL: 5.2 Build 738.0 Rel"); (KS "major", F false 5854679515581645 (-50)); (KS "minor", F false 6491516650389504 (-43))])]); (KS "controller", D [(KS "controller_id", VInt (100)); (KS "configuration", D [(KS "body_type", D [(KI 0, D [(KS "min_setpoint", VInt (40)); (KS "max_setpoint", VInt (104))]); (KI 1, D [(KS "min_setpoint", VInt (40)); (KS "max_setpoint", VInt (104))])]); (KS "is_celsius", D [(KS "name", S_ "Is Celsius"); (KS "value", VInt (0))]); (KS "controller_type", VInt (13)); (KS "hardware_type", VInt (0)); (KS "controller_data", VInt (0)); (KS "generic_circuit_name", S_ "Water Features"); (KS "circuit_count", VInt (11)); (KS "color_count", VInt (8)); (KS "color", VList [D [(KS "name", S_ "White"); (KS "value", VList [VInt (255); VInt (255); VInt (255)])]; D [(KS "name", S_ "Light Green"); (KS "value", VList [VInt (160); VInt (255); VInt (160)])]; D [(KS "name", S_ "Green"); (KS "value", VList [VInt (0); VInt (255); VInt (80)])]; D [(KS "name", S_ "Cyan"); (KS "value", VList [VInt (0); VInt (255); VInt (200)])]; D [(KS "name", S_ "Blue"); (KS "value", VList [VInt (100); VInt (140); VInt (255)])]; D [(KS "name", S_ "Lavender"); (KS "value", VList [VInt (230); VInt (130); VInt (255)])]; D [(KS "name", S_ "Magenta"); (KS "value", VList [VInt (255); VInt (0); VInt (128)])]; D [(KS "name", S_ "Light Magenta"); (KS "value", VList [VInt (255); VInt (180); VInt (210)])]]); (KS "interface_tab_flags", VInt (127)); (KS "show_alarms", VInt (0)); (KS "remotes", VInt (0)); (KS "unknown_at_offset_09", VInt (0)); (KS "unknown_at_offset_10", VInt (0)); (KS "unknown_at_offset_11", VInt (0))]); (KS "model", D [(KS "name", S_ "Model"); (KS "value", S_ "EasyTouch2 8")]); (KS "equipment", D [(KS "flags", VInt (32824)); (KS "list", VList [S_ "INTELLIBRITE"; S_ "INTELLIFLO_0"; S_ "INTELLIFLO_1"; S_ "INTELLICHEM"])]); (KS "sensor", D [(KS "state", D [(KS "name", S_ "Controller State"); (KS "value", VInt (1)); (KS "device_type", S_ "enum"); (KS "enum_options", VList [S_ "Unknown"; S_ "Ready"; S_ "Sync"; S_ "Service"])]); (KS "freeze_mode", D [(KS "name", S_ "Freeze Mode"); (KS "value", VInt (0))]); (KS "pool_delay", D [(KS "name", S_ "Pool Delay"); (KS "value", VInt (0))]); (KS "spa_delay", D [(KS "name", S_ "Spa Delay"); (KS "value", VInt (0))]); (KS "cleaner_delay", D [(KS "name", S_ "Cleaner Delay"); (KS "value", VInt (0))]); (KS "air_temperature", D [(KS "name", S_ "Air Temperature"); (KS "value", VInt (64)); (KS "unit", VStr [176; 70]); (KS "device_type", S_ "temperature"); (KS "state_type", S_ "measurement")]); (KS "ph", D [(KS "name", S_ "pH"); (KS "value", F false 8489285297593385 (-50)); (KS "unit", S_ "pH"); (KS "state_type", S_ "measurement")]); (KS "orp", D [(KS "name", S_ "ORP"); (KS "value", VInt (725)); (KS "unit", S_ "mV"); (KS "state_type", S_ "measurement")]); (KS "saturation", D [(KS "name", S_ "Saturation Index"); (KS "value", F true 5044031582654956 (-54)); (KS "unit", S_ "lsi"); (KS "state_type", S_ "measurement")]); (KS "salt_ppm", D [(KS "name", S_ "Salt"); (KS "value", VInt (0)); (KS "unit", S_ "ppm"); (KS "state_type", S_ "measurement")]); (KS "ph_supply_level", D [(KS "name", S_ "pH Supply Level"); (KS "value", VInt (1)); (KS "state_type", S_ "measurement")]); (KS "orp_supply_level", D [(KS "name", S_ "ORP Supply Level"); (KS "value", VInt (2)); (KS "state_type", S_ "measurement")]); (KS "active_alert", D [(KS "name", S_ "Active Alert"); (KS "value", VInt (1)); (KS "device_type", S_ "alarm")])]); (KS "date_time", D [(KS "timestamp", F false 7132368523493376 (-22)); (KS "timestamp_host", F false 7132488660942848 (-22)); (KS "auto_dst", D [(KS "name", S_ "Automatic Daylight Saving Time"); (KS "value", VInt (1))])])]); (KS "circuit", D [(KI 500, D [(KS "circuit_id", VInt (500)); (KS "name", S_ "Spa"); (KS "configuration", D [(KS "name_index", VInt (71)); (KS "flags", VInt (1)); (KS "default_runtime", VInt (720)); (KS "unknown_at_offset_62", VInt (0)); (KS "unknown_at_offset_63", VInt (0)); (KS "delay", VInt (0))]); (KS "function", VInt (1)); (KS "interface", VInt (1)); (KS "color", D [(KS "color_set", VInt (0)); (KS "color_position", VInt (0)); (KS "color_stagger", VInt (0))]); (KS "device_id", VInt (1)); (KS "value", VInt (0))]); (KI 501, D [(KS "circuit_id", VInt (501)); (KS "name", S_ "Waterfall"); (KS "configuration", D [(KS "name_index", VInt (85)); (KS "flags", VInt (0)); (KS "default_runtime", VInt (720)); (KS "unknown_at_offset_94", VInt (0)); (KS "unknown_at_offset_95", VInt (0)); (KS "delay", VInt (0))]); (KS "function", VInt (0)); (KS "interface", VInt (2)); (KS "color", D [(KS "color_set", VInt (0)); (KS "color_position", VInt (0)); (KS "color_stagger", VInt (0))]); (KS "device_id", VInt (2)); (KS "value", VInt (0))]); (KI 502, D [(KS "circuit_id", VInt (502)); (KS "name", S_ "Pool Light"); (KS "configuration", D [(KS "name_index", VInt (62)); (KS "flags", VInt (0)); (KS "default_runtime", VInt (720)); (KS "unknown_at_offset_126", VInt (0)); (KS "unknown_at_offset_127", VInt (0)); (KS "delay", VInt (0))]); (KS "function", VInt (16)); (KS "interface", VInt (3)); (KS "color", D [(KS "color_set", VInt (2)); (KS "color_position", VInt (0)); (KS "color_stagger", VInt (2))]); (KS "device_id", VInt (3)); (KS "value", VInt (0))]); (KI 503, D [(KS "circuit_id", VInt (503)); (KS "name", S_ "Spa Light"); (KS "configuration", D [(KS "name_index", VInt (73)); (KS "flags", VInt (0)); (KS "default_runtime", VInt (720)); (KS "unknown_at_offset_158", VInt (0)); (KS "unknown_at_offset_159", VInt (0)); (KS "delay", VInt (0))]); (KS "function", VInt (16)); (KS "interface", VInt (3)); (KS "color", D [(KS "color_set", VInt (6)); (KS "color_position", VInt (1)); (KS "color_stagger", VInt (10))]); (KS "device_id", VInt (4)); (KS "value", VInt (0))]); (KI 504, D [(KS "circuit_id", VInt (504)); (KS "name", S_ "Cleaner"); (KS "configuration", D [(KS "name_index", VInt (21)); (KS "flags", VInt (0)); (KS "default_runtime", VInt (240)); (KS "unknown_at_offset_186", VInt (0)); (KS "unknown_at_offset_187", VInt (0)); (KS "delay", VInt (0))]); (KS "function", VInt (5)); (KS "interface", VInt (2)); (KS "color", D [(KS "color_set", VInt (0)); (KS "color_position", VInt (0)); (KS "color_stagger", VInt (0))]); (KS "device_id", VInt (5)); (KS "value", VInt (0))]); (KI 505, D [(KS "circuit_id", VInt (505)); (KS "name", S_ "Pool Low"); (KS "configuration", D [(KS "name_index", VInt (63)); (KS "flags", VInt (1)); (KS "default_runtime", VInt (720)); (KS "unknown_at_offset_214", VInt (0)); (KS "unknown_at_offset_215", VInt (0)); (KS "delay", VInt (0))]); (KS "function", VInt (2)); (KS "interface", VInt (0)); (KS "color", D [(KS "color_set", VInt (0)); (KS "color_position", VInt (0)); (KS "color_stagger", VInt (0))]); (KS "device_id", VInt (6)); (KS "value", VInt (1))]); (KI 506, D [(KS "circuit_id", VInt (506)); (KS "name", S_ "Yard Light"); (KS "configuration", D [(KS "name_index", VInt (91)); (KS "flags", VInt (0)); (KS "default_runtime", VInt (720)); (KS "unknown_at_offset_246", VInt (0)); (KS "unknown_at_offset_247", VInt (0)); (KS "delay", VInt (0))]); (KS "function", VInt (7)); (KS "interface", VInt (4)); (KS "color", D [(KS "color_set", VInt (0)); (KS "color_position", VInt (0)); (KS "color_stagger", VInt (0))]); (KS "device_id", VInt (7)); (KS "value", VInt (0))]); (KI 507, D [(KS "circuit_id", VInt (507)); (KS "name", S_ "Cameras"); (KS "configuration", D [(KS "name_index", VInt (101)); (KS "flags", VInt (0)); (KS "default_runtime", VInt (1620)); (KS "unknown_at_offset_274", VInt (0)); (KS "unknown_at_offset_275", VInt (0)); (KS "delay", VInt (0))]); (KS "function", VInt (0)); (KS "interface", VInt (2)); (KS "color", D [(KS "color_set", VInt (0)); (KS "color_position", VInt (0)); (KS "color_stagger", VInt (0))]); (KS "device_id", VInt (8)); (KS "value", VInt (1))]); (KI 508, D [(KS "circuit_id", VInt (508)); (KS "name", S_ "Pool High"); (KS "configuration", D [(KS "name_index", VInt (61)); (KS "flags", VInt (0)); (KS "default_runtime", VInt (720)); (KS "unknown_at_offset_306", VInt (0)); (KS "unknown_at_offset_307", VInt (0)); (KS "delay", VInt (0))]); (KS "function", VInt (0)); (KS "interface", VInt (2)); (KS "color", D [(KS "color_set", VInt (0)); (KS "color_position", VInt (0)); (KS "color_stagger", VInt (0))]); (KS "device_id", VInt (9)); (KS "value", VInt (0))]); (KI 510, D [(KS "circuit_id", VInt (510)); (KS "name", S_ "Spillway"); (KS "configuration", D [(KS "name_index", VInt (78)); (KS "flags", VInt (0)); (KS "default_runtime", VInt (720)); (KS "unknown_at_offset_334", VInt (0)); (KS "unknown_at_offset_335", VInt (0)); (KS "delay", VInt (0))]); (KS "function", VInt (14)); (KS "interface", VInt (2)); (KS "color", D [(KS "color_set", VInt (0)); (KS "color_position", VInt (0)); (KS "color_stagger", VInt (0))]); (KS "device_id", VInt (11)); (KS "value", VInt (0))]); (KI 511, D [(KS "circuit_id", VInt (511)); (KS "name", S_ "Pool High"); (KS "configuration", D [(KS "name_index", VInt (61)); (KS "flags", VInt (0)); (KS "default_runtime", VInt (720)); (KS "unknown_at_offset_366", VInt (0)); (KS "unknown_at_offset_367", VInt (0)); (KS "delay", VInt (0))]); (KS "function", VInt (0)); (KS "interface", VInt (5)); (KS "color", D [(KS "color_set", VInt (0)); (KS "color_position", VInt (0)); (KS "color_stagger", VInt (0))]); (KS "device_id", VInt (12)); (KS "value", VInt (0))])]); (KS "pump", D [(KI 0, D [(KS "data", VInt (70)); (KS "type", VInt (3)); (KS "state", D [(KS "name", S_ "Pool Low Pump"); (KS "value", VInt (1))]); (KS "watts_now", D [(KS "name", S_ "Pool Low Pump Watts Now"); (KS "value", VInt (1246)); (KS "unit", S_ "W"); (KS "device_type", S_ "power"); (KS "state_type", S_ "measurement")]); (KS "rpm_now", D [(KS "name", S_ "Pool Low Pump RPM Now"); (KS "value", VInt (2710)); (KS "unit", S_ "rpm"); (KS "state_type", S_ "measurement")]); (KS "unknown_at_offset_16", VInt (0)); (KS "gpm_now", D [(KS "name", S_ "Pool Low Pump GPM Now"); (KS "value", VInt (63)); (KS "unit", S_ "gpm"); (KS "state_type", S_ "measurement")]); (KS "unknown_at_offset_24", VInt (255)); (KS "preset", D [(KI 0, D [(KS "device_id", VInt (6)); (KS "setpoint", VInt (63)); (KS "is_rpm", VInt (0))]); (KI 1, D [(KS "device_id", VInt (9)); (KS "setpoint", VInt (72)); (KS "is_rpm", VInt (0))]); (KI 2, D [(KS "device_id", VInt (1)); (KS "setpoint", VInt (3450)); (KS "is_rpm", VInt (1))]); (KI 3, D [(KS "device_id", VInt (130)); (KS "setpoint", VInt (75)); (KS "is_rpm", VInt (0))]); (KI 4, D [(KS "device_id", VInt (12)); (KS "setpoint", VInt (72)); (KS "is_rpm", VInt (0))]); (KI 5, D [(KS "device_id", VInt (0)); (KS "setpoint", VInt (30)); (KS "is_rpm", VInt (0))]); (KI 6, D [(KS "device_id", VInt (0)); (KS "setpoint", VInt (30)); (KS "is_rpm", VInt (0))]); (KI 7, D [(KS "device_id", VInt (0)); (KS "setpoint", VInt (30)); (KS "is_rpm", VInt (0))])])]); (KI 1, D [(KS "data", VInt (66)); (KS "type", VInt (3)); (KS "state", D [(KS "name", S_ "Waterfall Pump"); (KS "value", VInt (0))]); (KS "watts_now", D [(KS "name", S_ "Waterfall Pump Watts Now"); (KS "value", VInt (0)); (KS "unit", S_ "W"); (KS "device_type", S_ "power"); (KS "state_type", S_ "measurement")]); (KS "rpm_now", D [(KS "name", S_ "Waterfall Pump RPM Now"); (KS "value", VInt (0)); (KS "unit", S_ "rpm"); (KS "state_type", S_ "measurement")]); (KS "unknown_at_offset_16", VInt (0)); (KS "gpm_now", D [(KS "name", S_ "Waterfall Pump GPM Now"); (KS "value", VInt (0)); (KS "unit", S_ "gpm"); (KS "state_type", S_ "measurement")]); (KS "unknown_at_offset_24", VInt (255)); (KS "preset", D [(KI 0, D [(KS "device_id", VInt (2)); (KS "setpoint", VInt (2700)); (KS "is_rpm", VInt (1))]); (KI 1, D [(KS "device_id", VInt (0)); (KS "setpoint", VInt (30)); (KS "is_rpm", VInt (0))]); (KI 2, D [(KS "device_id", VInt (0)); (KS "setpoint", VInt (30)); (KS "is_rpm", VInt (0))]); (KI 3, D [(KS "device_id", VInt (0)); (KS "setpoint", VInt (30)); (KS "is_rpm", VInt (0))]); (KI 4, D [(KS "device_id", VInt (0)); (KS "setpoint", VInt (30)); (KS "is_rpm", VInt (0))]); (KI 5, D [(KS "device_id", VInt (0)); (KS "setpoint", VInt (30)); (KS "is_rpm", VInt (0))]); (KI 6, D [(KS "device_id", VInt (0)); (KS "setpoint", VInt (30)); (KS "is_rpm", VInt (0))]); (KI 7, D [(KS "device_id", VInt (0)); (KS "setpoint", VInt (30)); (KS "is_rpm", VInt (0))])])]); (KI 2, D [(KS "data", VInt (0))]); (KI 3, D [(KS "data", VInt (0))]); (KI 4, D [(KS "data", VInt (0))]); (KI 5, D [(KS "data", VInt (0))]); (KI 6, D [(KS "data", VInt (0))]); (KI 7, D [(KS "data", VInt (0))])]); (KS "body", D [(KI 0, D [(KS "body_type", VInt (0)); (KS "min_setpoint", VInt (40)); (KS "max_setpoint", VInt (104)); (KS "name", S_ "Pool"); (KS "last_temperature", D [(KS "name", S_ "Last Pool Temperature"); (KS "value", VInt (59)); (KS "unit", VStr [176; 70]); (KS "device_type", S_ "temperature"); (KS "state_type", S_ "measurement")]); (KS "heat_state", D [(KS "name", S_ "Pool Heat"); (KS "value", VInt (0)); (KS "device_type", S_ "enum"); (KS "enum_options", VList [S_ "Off"; S_ "Solar"; S_ "Heater"; S_ "Both"])]); (KS "heat_setpoint", D [(KS "name", S_ "Pool Heat Set Point"); (KS "value", VInt (83)); (KS "unit", VStr [176; 70]); (KS "device_type", S_ "temperature")]); (KS "cool_setpoint", D [(KS "name", S_ "Pool Cool Set Point"); (KS "value", VInt (100)); (KS "unit", VStr [176; 70]); (KS "device_type", S_ "temperature")]); (KS "heat_mode", D [(KS "name", S_ "Pool Heat Mode"); (KS "value", VInt (0)); (KS "device_type", S_ "enum"); (KS "enum_options", VList [S_ "Off"; S_ "Solar"; S_ "Solar Preferred"; S_ "Heater"; S_ "Don't Change"])])]); (KI 1, D [(KS "body_type", VInt (1)); (KS "min_setpoint", VInt (40)); (KS "max_setpoint", VInt (104)); (KS "name", S_ "Spa"); (KS "last_temperature", D [(KS "name", S_ "Last Spa Temperature"); (KS "value", VInt (59)); (KS "unit", VStr [176; 70]); (KS "device_type", S_ "temperature"); (KS "state_type", S_ "measurement")]); (KS "heat_state", D [(KS "name", S_ "Spa Heat"); (KS "value", VInt (0)); (KS "device_type", S_ "enum"); (KS "enum_options", VList [S_ "Off"; S_ "Solar"; S_ "Heater"; S_ "Both"])]); (KS "heat_setpoint", D [(KS "name", S_ "Spa Heat Set Point"); (KS "value", VInt (95)); (KS "unit", VStr [176; 70]); (KS "device_type", S_ "temperature")]); (KS "cool_setpoint", D [(KS "name", S_ "Spa Cool Set Point"); (KS "value", VInt (64)); (KS "unit", VStr [176; 70]); (KS "device_type", S_ "temperature")]); (KS "heat_mode", D [(KS "name", S_ "Spa Heat Mode"); (KS "value", VInt (3)); (KS "device_type", S_ "enum"); (KS "enum_options", VList [S_ "Off"; S_ "Solar"; S_ "Solar Preferred"; S_ "Heater"; S_ "Don't Change"])])])]); (KS "intellichem", D [(KS "unknown_at_offset_00", VInt (42)); (KS "unknown_at_offset_04", VInt (0)); (KS "sensor", D [(KS "ph_now", D [(KS "name", S_ "pH Now"); (KS "value", F false 8489285297593385 (-50)); (KS "unit", S_ "pH"); (KS "state_type", S_ "measurement")]); (KS "orp_now", D [(KS "name", S_ "ORP Now"); (KS "value", VInt (725)); (KS "unit", S_ "mV"); (KS "state_type", S_ "measurement")]); (KS "ph_supply_level", D [(KS "name", S_ "pH Supply Level"); (KS "value", VInt (1)); (KS "state_type", S_ "measurement")]); (KS "orp_supply_level", D [(KS "name", S_ "ORP Supply Level"); (KS "value", VInt (2)); (KS "state_type", S_ "measurement")]); (KS "saturation", D [(KS "name", S_ "Saturation Index"); (KS "value", F true 5044031582654956 (-54)); (KS "unit", S_ "lsi"); (KS "state_type", S_ "measurement")]); (KS "ph_probe_water_temp", D [(KS "name", S_ "pH Probe Water Temperature"); (KS "value", VInt (59)); (KS "unit", VStr [176; 70]); (KS "device_type", S_ "temperature"); (KS "state_type", S_ "measurement")])]); (KS "configuration", D [(KS "ph_setpoint", D [(KS "name", S_ "pH Setpoint"); (KS "value", F false 8556839292003942 (-50)); (KS "unit", S_ "pH"); (KS "min_setpoint", F false 8106479329266893 (-50)); (KS "max_setpoint", F false 8556839292003942 (-50))]); (KS "orp_setpoint", D [(KS "name", S_ "ORP Setpoint"); (KS "value", VInt (720)); (KS "unit", S_ "mV"); (KS "min_setpoint", VInt (400)); (KS "max_setpoint", VInt (800))]); (KS "calcium_hardness", D [(KS "name", S_ "Calcium Hardness"); (KS "value", VInt (800)); (KS "unit", S_ "ppm"); (KS "min_setpoint", VInt (25)); (KS "max_setpoint", VInt (800))]); (KS "cya", D [(KS "name", S_ "Cyanuric Acid"); (KS "value", VInt (45)); (KS "unit", S_ "ppm"); (KS "min_setpoint", VInt (0)); (KS "max_setpoint", VInt (201))]); (KS "total_alkalinity", D [(KS "name", S_ "Total Alkalinity"); (KS "value", VInt (45)); (KS "unit", S_ "ppm"); (KS "min_setpoint", VInt (25)); (KS "max_setpoint", VInt (800))]); (KS "salt_tds_ppm", D [(KS "name", S_ "Salt/TDS"); (KS "value", VInt (1000)); (KS "unit", S_ "ppm"); (KS "min_setpoint", VInt (500)); (KS "max_setpoint", VInt (6500))]); (KS "probe_is_celsius", VInt (0)); (KS "flags", VInt (32))]); (KS "dose_status", D [(KS "ph_last_dose_time", D [(KS "name", S_ "Last pH Dose Time"); (KS "value", VInt (7)); (KS "unit", S_ "sec"); (KS "device_type", S_ "duration"); (KS "state_type", S_ "total_increasing")]); (KS "orp_last_dose_time", D [(KS "name", S_ "Last ORP Dose Time"); (KS "value", VInt (18)); (KS "unit", S_ "sec"); (KS "device_type", S_ "duration"); (KS "state_type", S_ "total_increasing")]); (KS "ph_last_dose_volume", D [(KS "name", S_ "Last pH Dose Volume"); (KS "value", VInt (12)); (KS "unit", S_ "mL"); (KS "device_type", S_ "volume"); (KS "state_type", S_ "total_increasing")]); (KS "orp_last_dose_volume", D [(KS "name", S_ "Last ORP Dose Volume"); (KS "value", VInt (39)); (KS "unit", S_ "mL"); (KS "device_type", S_ "volume"); (KS "state_type", S_ "total_increasing")]); (KS "flags", VInt (165)); (KS "ph_dosing_state", D [(KS "name", S_ "pH Dosing State"); (KS "value", VInt (2)); (KS "device_type", S_ "enum"); (KS "enum_options", VList [S_ "Dosing"; S_ "Mixing"; S_ "Monitoring"])]); (KS "orp_dosing_state", D [(KS "name", S_ "ORP Dosing State"); (KS "value", VInt (2)); (KS "device_type", S_ "enum"); (KS "enum_options", VList [S_ "Dosing"; S_ "Mixing"; S_ "Monitoring"])])]); (KS "alarm", D [(KS "flags", VInt (32)); (KS "flow_alarm", D [(KS "name", S_ "Flow Alarm"); (KS "value", VInt (0)); (KS "device_type", S_ "alarm")]); (KS "ph_high_alarm", D [(KS "name", S_ "pH HIGH Alarm"); (KS "value", VInt (0)); (KS "device_type", S_ "alarm")]); (KS "ph_low_alarm", D [(KS "name", S_ "pH LOW Alarm"); (KS "value", VInt (0)); (KS "device_type", S_ "alarm")]); (KS "orp_high_alarm", D [(KS "name", S_ "ORP HIGH Alarm"); (KS "value", VInt (0)); (KS "device_type", S_ "alarm")]); (KS "orp_low_alarm", D [(KS "name", S_ "ORP LOW Alarm"); (KS "value", VInt (0)); (KS "device_type", S_ "alarm")]); (KS "ph_supply_alarm", D [(KS "name", S_ "pH Supply Alarm"); (KS "value", VInt (1)); (KS "device_type", S_ "alarm")]); (KS "orp_supply_alarm", D [(KS "name", S_ "ORP Supply Alarm"); (KS "value", VInt (0)); (KS "device_type", S_ "alarm")]); (KS "probe_fault_alarm", D [(KS "name", S_ "Probe Fault"); (KS "value", VInt (0)); (KS "device_type", S_ "alarm")])]); (KS "alert", D [(KS "flags", VInt (0)); (KS "ph_lockout", D [(KS "name", S_ "pH Lockout"); (KS "value", VInt (0))]); (KS "ph_limit", D [(KS "name", S_ "pH Dose Limit Reached"); (KS "value", VInt (0))]); (KS "orp_limit", D [(KS "name", S_ "ORP Dose Limit Reached"); (KS "value", VInt (0))])]); (KS "firmware", D [(KS "name", S_ "IntelliChem Firmware"); (KS "value", S_ "1.060"); (KS "major", VInt (1)); (KS "minor", VInt (60))]); (KS "water_balance", D [(KS "flags", VInt (0)); (KS "corrosive", D [(KS "name", S_ "SI Corrosive"); (KS "value", VInt (0)); (KS "device_type", S_ "alarm")]); (KS "scaling", D [(KS "name", S_ "SI Scaling"); (KS "value", VInt (0)); (KS "device_type", S_ "alarm")])]); (KS "unknown_at_offset_44", VInt (0)); (KS "unknown_at_offset_45", VInt (0)); (KS "unknown_at_offset_46", VInt (0))]); (KS "scg", D [(KS "scg_present", VInt (0)); (KS "sensor", D [(KS "state", D [(KS "name", S_ "Chlorinator"); (KS "value", VInt (0))]); (KS "salt_ppm", D [(KS "name", S_ "Chlorinator Salt"); (KS "value", VInt (0)); (KS "unit", S_ "ppm"); (KS "state_type", S_ "measurement")])]); (KS "configuration", D [(KS "pool_setpoint", D [(KS "name", S_ "Pool Chlorinator Setpoint"); (KS "value", VInt (0)); (KS "unit", S_ "%"); (KS "min_setpoint", VInt (0)); (KS "max_setpoint", VInt (100)); (KS "step", VInt (1)); (KS "body_type", VInt (0))]); (KS "spa_setpoint", D [(KS "name", S_ "Spa Chlorinator Setpoint"); (KS "value", VInt (0)); (KS "unit", S_ "%"); (KS "min_setpoint", VInt (0)); (KS "max_setpoint", VInt (100)); (KS "step", VInt (1)); (KS "body_type", VInt (1))]); (KS "super_chlor_timer", D [(KS "name", S_ "Super Chlorination Timer"); (KS "value", VInt (6)); (KS "unit", S_ "hr"); (KS "min_setpoint", VInt (0)); (KS "max_setpoint", VInt (72)); (KS "step", VInt (1))])]); (KS "flags", VInt (0)); (KS "super_chlorinate", D [(KS "name", S_ "Super Chlorinate"); (KS "value", VInt (0))])])].
Example fixture2 : (match run2 with (d, Ok tt) => pv_equiv 20 (VDict d) expect2 | _ => false end) = true.
Proof. vm_compute. reflexivity. Qed.

(** tests/data/slpy-0100_pool-52-build-7380-rel_intellitouch-i73_56.json *)
Definition fl3 (s : pystr) : option spec_float :=
  if pystr_eqb s (u "738.0") then (match F false 6491516650389504 (-43) with VFloat x => Some x | _ => None end) else if pystr_eqb s (u "5.2") then (match F false 5854679515581645 (-50) with VFloat x => Some x | _ => None end) else None.
Definition run3 : dict * res unit := (decode_version fl3 [25; 0; 0; 0; 80; 79; 79; 76; 58; 32; 53; 46; 50; 32; 66; 117; 105; 108; 100; 32; 55; 51; 56; 46; 48; 32; 82; 101; 108; 0; 0; 0; 2; 0; 0; 0; 5; 0; 0; 0; 2; 0; 0; 0; 2; 0; 0; 0; 2; 0; 0; 0; 12; 0; 0; 0] ;;;
  decode_pool_config [100; 0; 0; 0; 40; 104; 40; 104; 0; 1; 0; 0; 56; 0; 0; 0; 14; 0; 0; 0; 87; 97; 116; 101; 114; 32; 70; 101; 97; 116; 117; 114; 101; 115; 0; 0; 7; 0; 0; 0; 244; 1; 0; 0; 3; 0; 0; 0; 83; 112; 97; 0; 71; 1; 1; 1; 0; 0; 0; 1; 208; 2; 0; 0; 245; 1; 0; 0; 7; 0; 0; 0; 67; 108; 101; 97; 110; 101; 114; 0; 21; 5; 5; 0; 0; 0; 0; 2; 208; 2; 0; 0; 246; 1; 0; 0; 4; 0; 0; 0; 74; 101; 116; 115; 45; 0; 5; 0; 0; 0; 0; 3; 208; 2; 0; 0; 247; 1; 0; 0; 10; 0; 0; 0; 80; 111; 111; 108; 32; 76; 105; 103; 104; 116; 0; 0; 62; 16; 3; 0; 0; 0; 10; 4; 208; 2; 0; 0; 248; 1; 0; 0; 9; 0; 0; 0; 83; 112; 97; 32; 76; 105; 103; 104; 116; 0; 0; 0; 73; 16; 3; 0; 0; 1; 10; 5; 208; 2; 0; 0; 249; 1; 0; 0; 4; 0; 0; 0; 80; 111; 111; 108; 60; 2; 0; 1; 0; 0; 0; 6; 208; 2; 0; 0; 250; 1; 0; 0; 10; 0; 0; 0; 65; 105; 114; 32; 66; 108; 111; 119; 101; 114; 0; 0; 1; 0; 5; 0; 0; 0; 0; 7; 208; 2; 0; 0; 8; 0; 0; 0; 5; 0; 0; 0; 87; 104; 105; 116; 101; 0; 0; 0; 255; 0; 0; 0; 255; 0; 0; 0; 255; 0; 0; 0; 11; 0; 0; 0; 76; 105; 103; 104; 116; 32; 71; 114; 101; 101; 110; 0; 160; 0; 0; 0; 255; 0; 0; 0; 160; 0; 0; 0; 5; 0; 0; 0; 71; 114; 101; 101; 110; 0; 0; 0; 0; 0; 0; 0; 255; 0; 0; 0; 80; 0; 0; 0; 4; 0; 0; 0; 67; 121; 97; 110; 0; 0; 0; 0; 255; 0; 0; 0; 200; 0; 0; 0; 4; 0; 0; 0; 66; 108; 117; 101; 100; 0; 0; 0; 140; 0; 0; 0; 255; 0; 0; 0; 8; 0; 0; 0; 76; 97; 118; 101; 110; 100; 101; 114; 230; 0; 0; 0; 130; 0; 0; 0; 255; 0; 0; 0; 7; 0; 0; 0; 77; 97; 103; 101; 110; 116; 97; 0; 255; 0; 0; 0; 0; 0; 0; 0; 128; 0; 0; 0; 13; 0; 0; 0; 76; 105; 103; 104; 116; 32; 77; 97; 103; 101; 110; 116; 97; 0; 0; 0; 255; 0; 0; 0; 180; 0; 0; 0; 210; 0; 0; 0; 134; 131; 0; 0; 0; 0; 0; 0; 127; 0; 0; 0; 1; 0; 0; 0] ;;;
  decode_pool_status [1; 0; 0; 0; 0; 0; 0; 0; 0; 0; 0; 0; 91; 0; 0; 0; 2; 0; 0; 0; 0; 0; 0; 0; 86; 0; 0; 0; 0; 0; 0; 0; 85; 0; 0; 0; 100; 0; 0; 0; 0; 0; 0; 0; 1; 0; 0; 0; 84; 0; 0; 0; 0; 0; 0; 0; 102; 0; 0; 0; 91; 0; 0; 0; 3; 0; 0; 0; 7; 0; 0; 0; 244; 1; 0; 0; 0; 0; 0; 0; 0; 0; 0; 0; 245; 1; 0; 0; 0; 0; 0; 0; 0; 0; 0; 0; 246; 1; 0; 0; 0; 0; 0; 0; 0; 0; 0; 0; 247; 1; 0; 0; 0; 0; 0; 0; 0; 0; 10; 0; 248; 1; 0; 0; 0; 0; 0; 0; 0; 1; 10; 0; 249; 1; 0; 0; 1; 0; 0; 0; 0; 0; 0; 0; 250; 1; 0; 0; 0; 0; 0; 0; 0; 0; 0; 0; 0; 0; 0; 0; 0; 0; 0; 0; 0; 0; 0; 0; 0; 0; 0; 0; 0; 0; 0; 0; 0; 0; 0; 0; 0; 0; 0; 0] ;;;
  decode_pump_status [2; 0; 0; 0; 1; 0; 0; 0; 63; 0; 0; 0; 26; 4; 0; 0; 0; 0; 0; 0; 255; 0; 0; 0; 255; 0; 0; 0; 6; 0; 0; 0; 26; 4; 0; 0; 1; 0; 0; 0; 1; 0; 0; 0; 58; 7; 0; 0; 1; 0; 0; 0; 2; 0; 0; 0; 220; 5; 0; 0; 1; 0; 0; 0; 0; 0; 0; 0; 232; 3; 0; 0; 1; 0; 0; 0; 0; 0; 0; 0; 232; 3; 0; 0; 1; 0; 0; 0; 0; 0; 0; 0; 232; 3; 0; 0; 1; 0; 0; 0; 0; 0; 0; 0; 232; 3; 0; 0; 1; 0; 0; 0; 0; 0; 0; 0; 232; 3; 0; 0; 1; 0; 0; 0] 0 ;;;
  decode_pump_status [2; 0; 0; 0; 0; 0; 0; 0; 0; 0; 0; 0; 0; 0; 0; 0; 0; 0; 0; 0; 0; 0; 0; 0; 255; 0; 0; 0; 3; 0; 0; 0; 154; 11; 0; 0; 1; 0; 0; 0; 0; 0; 0; 0; 232; 3; 0; 0; 1; 0; 0; 0; 0; 0; 0; 0; 232; 3; 0; 0; 1; 0; 0; 0; 0; 0; 0; 0; 232; 3; 0; 0; 1; 0; 0; 0; 0; 0; 0; 0; 232; 3; 0; 0; 1; 0; 0; 0; 0; 0; 0; 0; 232; 3; 0; 0; 1; 0; 0; 0; 0; 0; 0; 0; 232; 3; 0; 0; 1; 0; 0; 0; 0; 0; 0; 0; 232; 3; 0; 0; 1; 0; 0; 0] 1 ;;;
  decode_chemistry [42; 0; 0; 0; 0; 0; 0; 0; 0; 0; 0; 0; 0; 0; 0; 0; 0; 0; 0; 0; 0; 0; 0; 0; 0; 0; 0; 0; 0; 0; 0; 0; 0; 0; 0; 0; 0; 0; 0; 0; 0; 0; 0; 0; 0; 0; 0; 0] ;;;
  decode_scg_config [0; 0; 0; 0; 1; 0; 0; 0; 50; 0; 0; 0; 0; 0; 0; 0; 0; 0; 0; 0; 0; 0; 0; 0; 0; 0; 0; 0])%dm [].
Definition expect3 : pv := D [(KS "adapter", D [(KS "firmware", D [(KS "name", S_ "Protocol Adapter Firmware"); (KS "value", S_ "POOL: 5.2 Build 738.0 Rel"); (KS "major", F false 5854679515581645 (-50)); (KS "minor", F false 6491516650389504 (-43))])]); (KS "controller", D [(KS "controller_id", VInt (100)); (KS "configuration", D [(KS "body_type", D [(KI 0, D [(KS "min_setpoint", VInt (40)); (KS "max_setpoint", VInt (104))]); (KI 1, D [(KS "min_setpoint", VInt (40)); (KS "max_setpoint", VInt (104))])]); (KS "is_celsius", D [(KS "name", S_ "Is Celsius"); (KS "value", VInt (0))]); (KS "controller_type", VInt (1)); (KS "hardware_type", VInt (0)); (KS "controller_data", VInt (0)); (KS "generic_circuit_name", S_ "Water Features"); (KS "circuit_count", VInt (7)); (KS "color_count", VInt (8)); (KS "color", VList [D [(KS "name", S_ "White"); (KS "value", VList [VInt (255); VInt (255); VInt (255)])]; D [(KS "name", S_ "Light Green"); (KS "value", VList [VInt (160); VInt (255); VInt (160)])]; D [(KS "name", S_ "Green"); (KS "value", VList [VInt (0); VInt (255); VInt (80)])]; D [(KS "name", S_ "Cyan"); (KS "value", VList [VInt (0); VInt (255); VInt (200)])]; D [(KS "name", S_ "Blue"); (KS "value", VList [VInt (100); VInt (140); VInt (255)])]; D [(KS "name", S_ "Lavender"); (KS "value", VList [VInt (230); VInt (130); VInt (255)])]; D [(KS "name", S_ "Magenta"); (KS "value", VList [VInt (255); VInt (0); VInt (128)])]; D [(KS "name", S_ "Light Magenta"); (KS "value", VList [VInt (255); VInt (180); VInt (210)])]]); (KS "interface_tab_flags", VInt (127)); (KS "show_alarms", VInt (1)); (KS "remotes", VInt (0)); (KS "unknown_at_offset_09", VInt (0)); (KS "unknown_at_offset_10", VInt (0)); (KS "unknown_at_offset_11", VInt (0))]); (KS "model", D [(KS "name", S_ "Model"); (KS "value", S_ "IntelliTouch i7+3")]); (KS "equipment", D [(KS "flags", VInt (56)); (KS "list", VList [S_ "INTELLIBRITE"; S_ "INTELLIFLO_0"; S_ "INTELLIFLO_1"])]); (KS "sensor", D [(KS "state", D [(KS "name", S_ "Controller State"); (KS "value", VInt (1)); (KS "device_type", S_ "enum"); (KS "enum_options", VList [S_ "Unknown"; S_ "Ready"; S_ "Sync"; S_ "Service"])]); (KS "freeze_mode", D [(KS "name", S_ "Freeze Mode"); (KS "value", VInt (0))]); (KS "pool_delay", D [(KS "name", S_ "Pool Delay"); (KS "value", VInt (0))]); (KS "spa_delay", D [(KS "name", S_ "Spa Delay"); (KS "value", VInt (0))]); (KS "cleaner_delay", D [(KS "name", S_ "Cleaner Delay"); (KS "value", VInt (0))]); (KS "air_temperature", D [(KS "name", S_ "Air Temperature"); (KS "value", VInt (91)); (KS "unit", VStr [176; 70]); (KS "device_type", S_ "temperature"); (KS "state_type", S_ "measurement")]); (KS "ph", D [(KS "name", S_ "pH"); (KS "value", VFloat (S754_zero false)); (KS "unit", S_ "pH"); (KS "state_type", S_ "measurement")]); (KS "orp", D [(KS "name", S_ "ORP"); (KS "value", VInt (0)); (KS "unit", S_ "mV"); (KS "state_type", S_ "measurement")]); (KS "saturation", D [(KS "name", S_ "Saturation Index"); (KS "value", VFloat (S754_zero false)); (KS "unit", S_ "lsi"); (KS "state_type", S_ "measurement")]); (KS "salt_ppm", D [(KS "name", S_ "Salt"); (KS "value", VInt (0)); (KS "unit", S_ "ppm"); (KS "state_type", S_ "measurement")]); (KS "ph_supply_level", D [(KS "name", S_ "pH Supply Level"); (KS "value", VInt (0)); (KS "state_type", S_ "measurement")]); (KS "orp_supply_level", D [(KS "name", S_ "ORP Supply Level"); (KS "value", VInt (0)); (KS "state_type", S_ "measurement")]); (KS "active_alert", D [(KS "name", S_ "Active Alert"); (KS "value", VInt (0)); (KS "device_type", S_ "alarm")])])]); (KS "circuit", D [(KI 500, D [(KS "circuit_id", VInt (500)); (KS "name", S_ "Spa"); (KS "configuration", D [(KS "name_index", VInt (71)); (KS "flags", VInt (1)); (KS "default_runtime", VInt (720)); (KS "unknown_at_offset_62", VInt (0)); (KS "unknown_at_offset_63", VInt (0)); (KS "delay", VInt (0))]); (KS "function", VInt (1)); (KS "interface", VInt (1)); (KS "color", D [(KS "color_set", VInt (0)); (KS "color_position", VInt (0)); (KS "color_stagger", VInt (0))]); (KS "device_id", VInt (1)); (KS "value", VInt (0))]); (KI 501, D [(KS "circuit_id", VInt (501)); (KS "name", S_ "Cleaner"); (KS "configuration", D [(KS "name_index", VInt (21)); (KS "flags", VInt (0)); (KS "default_runtime", VInt (720)); (KS "unknown_at_offset_90", VInt (0)); (KS "unknown_at_offset_91", VInt (0)); (KS "delay", VInt (0))]); (KS "function", VInt (5)); (KS "interface", VInt (5)); (KS "color", D [(KS "color_set", VInt (0)); (KS "color_position", VInt (0)); (KS "color_stagger", VInt (0))]); (KS "device_id", VInt (2)); (KS "value", VInt (0))]); (KI 502, D [(KS "circuit_id", VInt (502)); (KS "name", S_ "Jets"); (KS "configuration", D [(KS "name_index", VInt (45)); (KS "flags", VInt (0)); (KS "default_runtime", VInt (720)); (KS "unknown_at_offset_114", VInt (0)); (KS "unknown_at_offset_115", VInt (0)); (KS "delay", VInt (0))]); (KS "function", VInt (0)); (KS "interface", VInt (5)); (KS "color", D [(KS "color_set", VInt (0)); (KS "color_position", VInt (0)); (KS "color_stagger", VInt (0))]); (KS "device_id", VInt (3)); (KS "value", VInt (0))]); (KI 503, D [(KS "circuit_id", VInt (503)); (KS "name", S_ "Pool Light"); (KS "configuration", D [(KS "name_index", VInt (62)); (KS "flags", VInt (0)); (KS "default_runtime", VInt (720)); (KS "unknown_at_offset_146", VInt (0)); (KS "unknown_at_offset_147", VInt (0)); (KS "delay", VInt (0))]); (KS "function", VInt (16)); (KS "interface", VInt (3)); (KS "color", D [(KS "color_set", VInt (0)); (KS "color_position", VInt (0)); (KS "color_stagger", VInt (10))]); (KS "device_id", VInt (4)); (KS "value", VInt (0))]); (KI 504, D [(KS "circuit_id", VInt (504)); (KS "name", S_ "Spa Light"); (KS "configuration", D [(KS "name_index", VInt (73)); (KS "flags", VInt (0)); (KS "default_runtime", VInt (720)); (KS "unknown_at_offset_178", VInt (0)); (KS "unknown_at_offset_179", VInt (0)); (KS "delay", VInt (0))]); (KS "function", VInt (16)); (KS "interface", VInt (3)); (KS "color", D [(KS "color_set", VInt (0)); (KS "color_position", VInt (1)); (KS "color_stagger", VInt (10))]); (KS "device_id", VInt (5)); (KS "value", VInt (0))]); (KI 505, D [(KS "circuit_id", VInt (505)); (KS "name", S_ "Pool"); (KS "configuration", D [(KS "name_index", VInt (60)); (KS "flags", VInt (1)); (KS "default_runtime", VInt (720)); (KS "unknown_at_offset_202", VInt (0)); (KS "unknown_at_offset_203", VInt (0)); (KS "delay", VInt (0))]); (KS "function", VInt (2)); (KS "interface", VInt (0)); (KS "color", D [(KS "color_set", VInt (0)); (KS "color_position", VInt (0)); (KS "color_stagger", VInt (0))]); (KS "device_id", VInt (6)); (KS "value", VInt (1))]); (KI 506, D [(KS "circuit_id", VInt (506)); (KS "name", S_ "Air Blower"); (KS "configuration", D [(KS "name_index", VInt (1)); (KS "flags", VInt (0)); (KS "default_runtime", VInt (720)); (KS "unknown_at_offset_234", VInt (0)); (KS "unknown_at_offset_235", VInt (0)); (KS "delay", VInt (0))]); (KS "function", VInt (0)); (KS "interface", VInt (5)); (KS "color", D [(KS "color_set", VInt (0)); (KS "color_position", VInt (0)); (KS "color_stagger", VInt (0))]); (KS "device_id", VInt (7)); (KS "value", VInt (0))])]); (KS "pump", D [(KI 0, D [(KS "data", VInt (134)); (KS "type", VInt (2)); (KS "state", D [(KS "name", S_ "Pool Pump"); (KS "value", VInt (1))]); (KS "watts_now", D [(KS "name", S_ "Pool Pump Watts Now"); (KS "value", VInt (63)); (KS "unit", S_ "W"); (KS "device_type", S_ "power"); (KS "state_type", S_ "measurement")]); (KS "rpm_now", D [(KS "name", S_ "Pool Pump RPM Now"); (KS "value", VInt (1050)); (KS "unit", S_ "rpm"); (KS "state_type", S_ "measurement")]); (KS "unknown_at_offset_16", VInt (0)); (KS "gpm_now", D [(KS "name", S_ "Pool Pump GPM Now"); (KS "value", VInt (255)); (KS "unit", S_ "gpm"); (KS "state_type", S_ "measurement")]); (KS "unknown_at_offset_24", VInt (255)); (KS "preset", D [(KI 0, D [(KS "device_id", VInt (6)); (KS "setpoint", VInt (1050)); (KS "is_rpm", VInt (1))]); (KI 1, D [(KS "device_id", VInt (1)); (KS "setpoint", VInt (1850)); (KS "is_rpm", VInt (1))]); (KI 2, D [(KS "device_id", VInt (2)); (KS "setpoint", VInt (1500)); (KS "is_rpm", VInt (1))]); (KI 3, D [(KS "device_id", VInt (0)); (KS "setpoint", VInt (1000)); (KS "is_rpm", VInt (1))]); (KI 4, D [(KS "device_id", VInt (0)); (KS "setpoint", VInt (1000)); (KS "is_rpm", VInt (1))]); (KI 5, D [(KS "device_id", VInt (0)); (KS "setpoint", VInt (1000)); (KS "is_rpm", VInt (1))]); (KI 6, D [(KS "device_id", VInt (0)); (KS "setpoint", VInt (1000)); (KS "is_rpm", VInt (1))]); (KI 7, D [(KS "device_id", VInt (0)); (KS "setpoint", VInt (1000)); (KS "is_rpm", VInt (1))])])]); (KI 1, D [(KS "data", VInt (131)); (KS "type", VInt (2)); (KS "state", D [(KS "name", S_ "Jets Pump"); (KS "value", VInt (0))]); (KS "watts_now", D [(KS "name", S_ "Jets Pump Watts Now"); (KS "value", VInt (0)); (KS "unit", S_ "W"); (KS "device_type", S_ "power"); (KS "state_type", S_ "measurement")]); (KS "rpm_now", D [(KS "name", S_ "Jets Pump RPM Now"); (KS "value", VInt (0)); (KS "unit", S_ "rpm"); (KS "state_type", S_ "measurement")]); (KS "unknown_at_offset_16", VInt (0)); (KS "gpm_now", D [(KS "name", S_ "Jets Pump GPM Now"); (KS "value", VInt (0)); (KS "unit", S_ "gpm"); (KS "state_type", S_ "measurement")]); (KS "unknown_at_offset_24", VInt (255)); (KS "preset", D [(KI 0, D [(KS "device_id", VInt (3)); (KS "setpoint", VInt (2970)); (KS "is_rpm", VInt (1))]); (KI 1, D [(KS "device_id", VInt (0)); (KS "setpoint", VInt (1000)); (KS "is_rpm", VInt (1))]); (KI 2, D [(KS "device_id", VInt (0)); (KS "setpoint", VInt (1000)); (KS "is_rpm", VInt (1))]); (KI 3, D [(KS "device_id", VInt (0)); (KS "setpoint", VInt (1000)); (KS "is_rpm", VInt (1))]); (KI 4, D [(KS "device_id", VInt (0)); (KS "setpoint", VInt (1000)); (KS "is_rpm", VInt (1))]); (KI 5, D [(KS "device_id", VInt (0)); (KS "setpoint", VInt (1000)); (KS "is_rpm", VInt (1))]); (KI 6, D [(KS "device_id", VInt (0)); (KS "setpoint", VInt (1000)); (KS "is_rpm", VInt (1))]); (KI 7, D [(KS "device_id", VInt (0)); (KS "setpoint", VInt (1000)); (KS "is_rpm", VInt (1))])])]); (KI 2, D [(KS "data", VInt (0))]); (KI 3, D [(KS "data", VInt (0))]); (KI 4, D [(KS "data", VInt (0))]); (KI 5, D [(KS "data", VInt (0))]); (KI 6, D [(KS "data", VInt (0))]); (KI 7, D [(KS "data", VInt (0))])]); (KS "body", D [(KI 0, D [(KS "body_type", VInt (0)); (KS "min_setpoint", VInt (40)); (KS "max_setpoint", VInt (104)); (KS "name", S_ "Pool"); (KS "last_temperature", D [(KS "name", S_ "Last Pool Temperature"); (KS "value", VInt (86)); (KS "unit", VStr [176; 70]); (KS "device_type", S_ "temperature"); (KS "state_type", S_ "measurement")]); (KS "heat_state", D [(KS "name", S_ "Pool Heat"); (KS "value", VInt (0)); (KS "device_type", S_ "enum"); (KS "enum_options", VList [S_ "Off"; S_ "Solar"; S_ "Heater"; S_ "Both"])]); (KS "heat_setpoint", D [(KS "name", S_ "Pool Heat Set Point"); (KS "value", VInt (85)); (KS "unit", VStr [176; 70]); (KS "device_type", S_ "temperature")]); (KS "cool_setpoint", D [(KS "name", S_ "Pool Cool Set Point"); (KS "value", VInt (100)); (KS "unit", VStr [176; 70]); (KS "device_type", S_ "temperature")]); (KS "heat_mode", D [(KS "name", S_ "Pool Heat Mode"); (KS "value", VInt (0)); (KS "device_type", S_ "enum"); (KS "enum_options", VList [S_ "Off"; S_ "Solar"; S_ "Solar Preferred"; S_ "Heater"; S_ "Don't Change"])])]); (KI 1, D [(KS "body_type", VInt (1)); (KS "min_setpoint", VInt (40)); (KS "max_setpoint", VInt (104)); (KS "name", S_ "Spa"); (KS "last_temperature", D [(KS "name", S_ "Last Spa Temperature"); (KS "value", VInt (84)); (KS "unit", VStr [176; 70]); (KS "device_type", S_ "temperature"); (KS "state_type", S_ "measurement")]); (KS "heat_state", D [(KS "name", S_ "Spa Heat"); (KS "value", VInt (0)); (KS "device_type", S_ "enum"); (KS "enum_options", VList [S_ "Off"; S_ "Solar"; S_ "Heater"; S_ "Both"])]); (KS "heat_setpoint", D [(KS "name", S_ "Spa Heat Set Point"); (KS "value", VInt (102)); (KS "unit", VStr [176; 70]); (KS "device_type", S_ "temperature")]); (KS "cool_setpoint", D [(KS "name", S_ "Spa Cool Set Point"); (KS "value", VInt (91)); (KS "unit", VStr [176; 70]); (KS "device_type", S_ "temperature")]); (KS "heat_mode", D [(KS "name", S_ "Spa Heat Mode"); (KS "value", VInt (3)); (KS "device_type", S_ "enum"); (KS "enum_options", VList [S_ "Off"; S_ "Solar"; S_ "Solar Preferred"; S_ "Heater"; S_ "Don't Change"])])])]); (KS "intellichem", D [(KS "unknown_at_offset_00", VInt (42)); (KS "unknown_at_offset_04", VInt (0)); (KS "sensor", D [(KS "ph_now", D [(KS "name", S_ "pH Now"); (KS "value", VFloat (S754_zero false)); (KS "unit", S_ "pH"); (KS "state_type", S_ "measurement")]); (KS "orp_now", D [(KS "name", S_ "ORP Now"); (KS "value", VInt (0)); (KS "unit", S_ "mV"); (KS "state_type", S_ "measurement")]); (KS "ph_supply_level", D [(KS "name", S_ "pH Supply Level"); (KS "value", VInt (0)); (KS "state_type", S_ "measurement")]); (KS "orp_supply_level", D [(KS "name", S_ "ORP Supply Level"); (KS "value", VInt (0)); (KS "state_type", S_ "measurement")]); (KS "saturation", D [(KS "name", S_ "Saturation Index"); (KS "value", VFloat (S754_zero false)); (KS "unit", S_ "lsi"); (KS "state_type", S_ "measurement")]); (KS "ph_probe_water_temp", D [(KS "name", S_ "pH Probe Water Temperature"); (KS "value", VInt (0)); (KS "unit", VStr [176; 70]); (KS "device_type", S_ "temperature"); (KS "state_type", S_ "measurement")])]); (KS "configuration", D [(KS "ph_setpoint", D [(KS "name", S_ "pH Setpoint"); (KS "value", VFloat (S754_zero false)); (KS "unit", S_ "pH"); (KS "min_setpoint", F false 8106479329266893 (-50)); (KS "max_setpoint", F false 8556839292003942 (-50))]); (KS "orp_setpoint", D [(KS "name", S_ "ORP Setpoint"); (KS "value", VInt (0)); (KS "unit", S_ "mV"); (KS "min_setpoint", VInt (400)); (KS "max_setpoint", VInt (800))]); (KS "calcium_hardness", D [(KS "name", S_ "Calcium Hardness"); (KS "value", VInt (0)); (KS "unit", S_ "ppm"); (KS "min_setpoint", VInt (25)); (KS "max_setpoint", VInt (800))]); (KS "cya", D [(KS "name", S_ "Cyanuric Acid"); (KS "value", VInt (0)); (KS "unit", S_ "ppm"); (KS "min_setpoint", VInt (0)); (KS "max_setpoint", VInt (201))]); (KS "total_alkalinity", D [(KS "name", S_ "Total Alkalinity"); (KS "value", VInt (0)); (KS "unit", S_ "ppm"); (KS "min_setpoint", VInt (25)); (KS "max_setpoint", VInt (800))]); (KS "salt_tds_ppm", D [(KS "name", S_ "Salt/TDS"); (KS "value", VInt (0)); (KS "unit", S_ "ppm"); (KS "min_setpoint", VInt (500)); (KS "max_setpoint", VInt (6500))]); (KS "probe_is_celsius", VInt (0)); (KS "flags", VInt (0))]); (KS "dose_status", D [(KS "ph_last_dose_time", D [(KS "name", S_ "Last pH Dose Time"); (KS "value", VInt (0)); (KS "unit", S_ "sec"); (KS "device_type", S_ "duration"); (KS "state_type", S_ "total_increasing")]); (KS "orp_last_dose_time", D [(KS "name", S_ "Last ORP Dose Time"); (KS "value", VInt (0)); (KS "unit", S_ "sec"); (KS "device_type", S_ "duration"); (KS "state_type", S_ "total_increasing")]); (KS "ph_last_dose_volume", D [(KS "name", S_ "Last pH Dose Volume"); (KS "value", VInt (0)); (KS "unit", S_ "mL"); (KS "device_type", S_ "volume"); (KS "state_type", S_ "total_increasing")]); (KS "orp_last_dose_volume", D [(KS "name", S_ "Last ORP Dose Volume"); (KS "value", VInt (0)); (KS "unit", S_ "mL"); (KS "device_type", S_ "volume"); (KS "state_type", S_ "total_increasing")]); (KS "flags", VInt (0)); (KS "ph_dosing_state", D [(KS "name", S_ "pH Dosing State"); (KS "value", VInt (0)); (KS "device_type", S_ "enum"); (KS "enum_options", VList [S_ "Dosing"; S_ "Mixing"; S_ "Monitoring"])]); (KS "orp_dosing_state", D [(KS "name", S_ "ORP Dosing State"); (KS "value", VInt (0)); (KS "device_type", S_ "enum"); (KS "enum_options", VList [S_ "Dosing"; S_ "Mixing"; S_ "Monitoring"])])]); (KS "alarm", D [(KS "flags", VInt (0)); (KS "flow_alarm", D [(KS "name", S_ "Flow Alarm"); (KS "value", VInt (0)); (KS "device_type", S_ "alarm")]); (KS "ph_high_alarm", D [(KS "name", S_ "pH HIGH Alarm"); (KS "value", VInt (0)); (KS "device_type", S_ "alarm")]); (KS "ph_low_alarm", D [(KS "name", S_ "pH LOW Alarm"); (KS "value", VInt (0)); (KS "device_type", S_ "alarm")]); (KS "orp_high_alarm", D [(KS "name", S_ "ORP HIGH Alarm"); (KS "value", VInt (0)); (KS "device_type", S_ "alarm")]); (KS "orp_low_alarm", D [(KS "name", S_ "ORP LOW Alarm"); (KS "value", VInt (0)); (KS "device_type", S_ "alarm")]); (KS "ph_supply_alarm", D [(KS "name", S_ "pH Supply Alarm"); (KS "value", VInt (0)); (KS "device_type", S_ "alarm")]); (KS "orp_supply_alarm", D [(KS "name", S_ "ORP Supply Alarm"); (KS "value", VInt (0)); (KS "device_type", S_ "alarm")]); (KS "probe_fault_alarm", D [(KS "name", S_ "Probe Fault"); (KS "value", VInt (0)); (KS "device_type", S_ "alarm")])]); (KS "alert", D [(KS "flags", VInt (0)); (KS "ph_lockout", D [(KS "name", S_ "pH Lockout"); (KS "value", VInt (0))]); (KS "ph_limit", D [(KS "name", S_ "pH Dose Limit Reached"); (KS "value", VInt (0))]); (KS "orp_limit", D [(KS "name", S_ "ORP Dose Limit Reached"); (KS "value", VInt (0))])]); (KS "firmware", D [(KS "name", S_ "IntelliChem Firmware"); (KS "value", S_ "0.000"); (KS "major", VInt (0)); (KS "minor", VInt (0))]); (KS "water_balance", D [(KS "flags", VInt (0)); (KS "corrosive", D [(KS "name", S_ "SI Corrosive"); (KS "value", VInt (0)); (KS "device_type", S_ "alarm")]); (KS "scaling", D [(KS "name", S_ "SI Scaling"); (KS "value", VInt (0)); (KS "device_type", S_ "alarm")])]); (KS "unknown_at_offset_44", VInt (0)); (KS "unknown_at_offset_45", VInt (0)); (KS "unknown_at_offset_46", VInt (0))]); (KS "scg", D [(KS "scg_present", VInt (0)); (KS "sensor", D [(KS "state", D [(KS "name", S_ "Chlorinator"); (KS "value", VInt (1))]); (KS "salt_ppm", D [(KS "name", S_ "Chlorinator Salt"); (KS "value", VInt (0)); (KS "unit", S_ "ppm"); (KS "state_type", S_ "measurement")])]); (KS "configuration", D [(KS "pool_setpoint", D [(KS "name", S_ "Pool Chlorinator Setpoint"); (KS "value", VInt (50)); (KS "unit", S_ "%"); (KS "min_setpoint", VInt (0)); (KS "max_setpoint", VInt (100)); (KS "step", VInt (1)); (KS "body_type", VInt (0))]); (KS "spa_setpoint", D [(KS "name", S_ "Spa Chlorinator Setpoint"); (KS "value", VInt (0)); (KS "unit", S_ "%"); (KS "min_setpoint", VInt (0)); (KS "max_setpoint", VInt (100)); (KS "step", VInt (1)); (KS "body_type", VInt (1))]); (KS "super_chlor_timer", D [(KS "name", S_ "Super Chlorination Timer"); (KS "value", VInt (0)); (KS "unit", S_ "hr"); (KS "min_setpoint", VInt (0)); (KS "max_setpoint", VInt (72)); (KS "step", VInt (1))])]); (KS "flags", VInt (0)); (KS "super_chlorinate", D [(KS "name", S_ "Super Chlorinate"); (KS "value", VInt (0))])])].
Example fixture3 : (match run3 with (d, Ok tt) => pv_equiv 20 (VDict d) expect3 | _ => false end) = true.
Proof. vm_compute. reflexivity. Qed.

(** tests/data/slpy-0101_pool-52-build-7380-rel_easytouch2-8_28.json *)
Definition fl4 (s : pystr) : option spec_float :=
  if pystr_eqb s (u "738.0") then (match F false 6491516650389504 (-43) with VFloat x => Some x | _ => None end) else if pystr_eqb s (u "5.2") then (match F false 5854679515581645 (-50) with VFloat x => Some x | _ => None end) else None.
Definition run4 : dict * res unit := (decode_version fl4 [25; 0; 0; 0; 80; 79; 79; 76; 58; 32; 53; 46; 50; 32; 66; 117; 105; 108; 100; 32; 55; 51; 56; 46; 48; 32; 82; 101; 108; 0; 0; 0; 2; 0; 0; 0; 5; 0; 0; 0; 2; 0; 0; 0; 2; 0; 0; 0; 2; 0; 0; 0; 12; 0; 0; 0] ;;;
  decode_pool_config [100; 0; 0; 0; 40; 104; 40; 104; 0; 13; 0; 0; 28; 0; 0; 0; 14; 0; 0; 0; 87; 97; 116; 101; 114; 32; 70; 101; 97; 116; 117; 114; 101; 115; 0; 0; 18; 0; 0; 0; 244; 1; 0; 0; 3; 0; 0; 0; 83; 112; 97; 0; 71; 1; 1; 1; 0; 0; 0; 1; 208; 2; 0; 0; 245; 1; 0; 0; 10; 0; 0; 0; 65; 105; 114; 32; 66; 108; 111; 119; 101; 114; 0; 0; 1; 0; 2; 0; 0; 0; 0; 2; 208; 2; 0; 0; 246; 1; 0; 0; 6; 0; 0; 0; 76; 105; 103; 104; 116; 115; 0; 0; 46; 16; 3; 0; 0; 0; 10; 3; 208; 2; 0; 0; 247; 1; 0; 0; 11; 0; 0; 0; 66; 85; 66; 66; 76; 69; 82; 83; 32; 32; 32; 0; 101; 13; 2; 0; 0; 0; 0; 4; 208; 2; 0; 0; 248; 1; 0; 0; 5; 0; 0; 0; 65; 117; 120; 32; 52; 0; 0; 0; 5; 0; 2; 0; 0; 0; 0; 5; 208; 2; 0; 0; 249; 1; 0; 0; 4; 0; 0; 0; 80; 111; 111; 108; 60; 2; 0; 1; 0; 0; 0; 6; 208; 2; 0; 0; 250; 1; 0; 0; 5; 0; 0; 0; 65; 117; 120; 32; 53; 0; 0; 0; 6; 0; 2; 0; 0; 0; 0; 7; 208; 2; 0; 0; 251; 1; 0; 0; 5; 0; 0; 0; 65; 117; 120; 32; 54; 0; 0; 0; 7; 0; 2; 0; 0; 0; 0; 8; 208; 2; 0; 0; 252; 1; 0; 0; 5; 0; 0; 0; 65; 117; 120; 32; 55; 0; 0; 0; 8; 0; 2; 0; 0; 0; 0; 9; 208; 2; 0; 0; 254; 1; 0; 0; 9; 0; 0; 0; 70; 101; 97; 116; 117; 114; 101; 32; 49; 0; 0; 0; 93; 0; 2; 0; 0; 0; 0; 11; 208; 2; 0; 0; 255; 1; 0; 0; 9; 0; 0; 0; 70; 101; 97; 116; 117; 114; 101; 32; 50; 0; 0; 0; 94; 0; 2; 0; 0; 0; 0; 12; 208; 2; 0; 0; 0; 2; 0; 0; 9; 0; 0; 0; 70; 101; 97; 116; 117; 114; 101; 32; 51; 0; 0; 0; 95; 0; 2; 0; 0; 0; 0; 13; 208; 2; 0; 0; 1; 2; 0; 0; 9; 0; 0; 0; 70; 101; 97; 116; 117; 114; 101; 32; 52; 0; 0; 0; 96; 0; 2; 0; 0; 0; 0; 14; 208; 2; 0; 0; 2; 2; 0; 0; 9; 0; 0; 0; 70; 101; 97; 116; 117; 114; 101; 32; 53; 0; 0; 0; 97; 0; 2; 0; 0; 0; 0; 15; 208; 2; 0; 0; 3; 2; 0; 0; 9; 0; 0; 0; 70; 101; 97; 116; 117; 114; 101; 32; 54; 0; 0; 0; 98; 0; 2; 0; 0; 0; 0; 16; 208; 2; 0; 0; 4; 2; 0; 0; 9; 0; 0; 0; 70; 101; 97; 116; 117; 114; 101; 32; 55; 0; 0; 0; 99; 0; 2; 0; 0; 0; 0; 17; 208; 2; 0; 0; 5; 2; 0; 0; 9; 0; 0; 0; 70; 101; 97; 116; 117; 114; 101; 32; 56; 0; 0; 0; 100; 0; 2; 0; 0; 0; 0; 18; 208; 2; 0; 0; 7; 2; 0; 0; 5; 0; 0; 0; 65; 117; 120; 69; 120; 0; 0; 0; 92; 0; 2; 0; 0; 0; 0; 20; 208; 2; 0; 0; 8; 0; 0; 0; 5; 0; 0; 0; 87; 104; 105; 116; 101; 0; 0; 0; 255; 0; 0; 0; 255; 0; 0; 0; 255; 0; 0; 0; 11; 0; 0; 0; 76; 105; 103; 104; 116; 32; 71; 114; 101; 101; 110; 0; 160; 0; 0; 0; 255; 0; 0; 0; 160; 0; 0; 0; 5; 0; 0; 0; 71; 114; 101; 101; 110; 0; 0; 0; 0; 0; 0; 0; 255; 0; 0; 0; 80; 0; 0; 0; 4; 0; 0; 0; 67; 121; 97; 110; 0; 0; 0; 0; 255; 0; 0; 0; 200; 0; 0; 0; 4; 0; 0; 0; 66; 108; 117; 101; 100; 0; 0; 0; 140; 0; 0; 0; 255; 0; 0; 0; 8; 0; 0; 0; 76; 97; 118; 101; 110; 100; 101; 114; 230; 0; 0; 0; 130; 0; 0; 0; 255; 0; 0; 0; 7; 0; 0; 0; 77; 97; 103; 101; 110; 116; 97; 0; 255; 0; 0; 0; 0; 0; 0; 0; 128; 0; 0; 0; 13; 0; 0; 0; 76; 105; 103; 104; 116; 32; 77; 97; 103; 101; 110; 116; 97; 0; 0; 0; 255; 0; 0; 0; 180; 0; 0; 0; 210; 0; 0; 0; 70; 0; 0; 0; 0; 0; 0; 0; 127; 0; 0; 0; 1; 0; 0; 0] ;;;
  decode_pool_status [2; 0; 0; 0; 0; 0; 0; 0; 0; 0; 0; 0; 0; 0; 0; 0; 2; 0; 0; 0; 0; 0; 0; 0; 0; 0; 0; 0; 0; 0; 0; 0; 0; 0; 0; 0; 0; 0; 0; 0; 0; 0; 0; 0; 1; 0; 0; 0; 0; 0; 0; 0; 0; 0; 0; 0; 0; 0; 0; 0; 0; 0; 0; 0; 0; 0; 0; 0; 18; 0; 0; 0; 244; 1; 0; 0; 0; 0; 0; 0; 0; 0; 0; 0; 245; 1; 0; 0; 0; 0; 0; 0; 0; 0; 0; 0; 246; 1; 0; 0; 0; 0; 0; 0; 0; 0; 10; 0; 247; 1; 0; 0; 0; 0; 0; 0; 0; 0; 0; 0; 248; 1; 0; 0; 0; 0; 0; 0; 0; 0; 0; 0; 249; 1; 0; 0; 0; 0; 0; 0; 0; 0; 0; 0; 250; 1; 0; 0; 0; 0; 0; 0; 0; 0; 0; 0; 251; 1; 0; 0; 0; 0; 0; 0; 0; 0; 0; 0; 252; 1; 0; 0; 0; 0; 0; 0; 0; 0; 0; 0; 254; 1; 0; 0; 0; 0; 0; 0; 0; 0; 0; 0; 255; 1; 0; 0; 0; 0; 0; 0; 0; 0; 0; 0; 0; 2; 0; 0; 0; 0; 0; 0; 0; 0; 0; 0; 1; 2; 0; 0; 0; 0; 0; 0; 0; 0; 0; 0; 2; 2; 0; 0; 0; 0; 0; 0; 0; 0; 0; 0; 3; 2; 0; 0; 0; 0; 0; 0; 0; 0; 0; 0; 4; 2; 0; 0; 0; 0; 0; 0; 0; 0; 0; 0; 5; 2; 0; 0; 0; 0; 0; 0; 0; 0; 0; 0; 7; 2; 0; 0; 0; 0; 0; 0; 0; 0; 0; 0; 0; 0; 0; 0; 0; 0; 0; 0; 0; 0; 0; 0; 0; 0; 0; 0; 0; 0; 0; 0; 0; 0; 0; 0; 0; 0; 0; 0] ;;;
  decode_pump_status [3; 0; 0; 0; 1; 0; 0; 0; 57; 5; 0; 0; 34; 11; 0; 0; 0; 0; 0; 0; 68; 0; 0; 0; 255; 0; 0; 0; 6; 0; 0; 0; 34; 11; 0; 0; 1; 0; 0; 0; 1; 0; 0; 0; 240; 10; 0; 0; 1; 0; 0; 0; 0; 0; 0; 0; 30; 0; 0; 0; 0; 0; 0; 0; 0; 0; 0; 0; 30; 0; 0; 0; 0; 0; 0; 0; 0; 0; 0; 0; 30; 0; 0; 0; 0; 0; 0; 0; 0; 0; 0; 0; 30; 0; 0; 0; 0; 0; 0; 0; 0; 0; 0; 0; 30; 0; 0; 0; 0; 0; 0; 0; 0; 0; 0; 0; 30; 0; 0; 0; 0; 0; 0; 0] 0 ;;;
  decode_chemistry [42; 0; 0; 0; 0; 0; 0; 0; 0; 0; 0; 0; 0; 0; 0; 0; 0; 0; 0; 0; 0; 0; 0; 0; 0; 0; 0; 0; 0; 0; 0; 0; 0; 0; 0; 0; 0; 0; 0; 0; 0; 0; 0; 0; 0; 0; 0; 0] ;;;
  decode_scg_config [11; 0; 0; 0; 129; 0; 0; 0; 80; 0; 0; 0; 5; 0; 0; 0; 63; 0; 0; 0; 128; 0; 0; 0; 0; 0; 0; 0])%dm [].
Definition expect4 : pv := D [(KS "adapter", D [(KS "firmware", D [(KS "name", S_ "Protocol Adapter Firmware"); (KS "value", S_ "POOL: 5.2 Build 738.0 Rel"); (KS "major", F false 5854679515581645 (-50)); (KS "minor", F false 6491516650389504 (-43))])]); (KS "controller", D [(KS "controller_id", VInt (100)); (KS "configuration", D [(KS "body_type", D [(KI 0, D [(KS "min_setpoint", VInt (40)); (KS "max_setpoint", VInt (104))]); (KI 1, D [(KS "min_setpoint", VInt (40)); (KS "max_setpoint", VInt (104))])]); (KS "is_celsius", D [(KS "name", S_ "Is Celsius"); (KS "value", VInt (0))]); (KS "controller_type", VInt (13)); (KS "hardware_type", VInt (0)); (KS "controller_data", VInt (0)); (KS "generic_circuit_name", S_ "Water Features"); (KS "circuit_count", VInt (18)); (KS "color_count", VInt (8)); (KS "color", VList [D [(KS "name", S_ "White"); (KS "value", VList [VInt (255); VInt (255); VInt (255)])]; D [(KS "name", S_ "Light Green"); (KS "value", VList [VInt (160); VInt (255); VInt (160)])]; D [(KS "name", S_ "Green"); (KS "value", VList [VInt (0); VInt (255); VInt (80)])]; D [(KS "name", S_ "Cyan"); (KS "value", VList [VInt (0); VInt (255); VInt (200)])]; D [(KS "name", S_ "Blue"); (KS "value", VList [VInt (100); VInt (140); VInt (255)])]; D [(KS "name", S_ "Lavender"); (KS "value", VList [VInt (230); VInt (130); VInt (255)])]; D [(KS "name", S_ "Magenta"); (KS "value", VList [VInt (255); VInt (0); VInt (128)])]; D [(KS "name", S_ "Light Magenta"); (KS "value", VList [VInt (255); VInt (180); VInt (210)])]]); (KS "interface_tab_flags", VInt (127)); (KS "show_alarms", VInt (1)); (KS "remotes", VInt (0)); (KS "unknown_at_offset_09", VInt (0)); (KS "unknown_at_offset_10", VInt (0)); (KS "unknown_at_offset_11", VInt (0))]); (KS "model", D [(KS "name", S_ "Model"); (KS "value", S_ "EasyTouch2 8")]); (KS "equipment", D [(KS "flags", VInt (28)); (KS "list", VList [S_ "CHLORINATOR"; S_ "INTELLIBRITE"; S_ "INTELLIFLO_0"])]); (KS "sensor", D [(KS "state", D [(KS "name", S_ "Controller State"); (KS "value", VInt (2)); (KS "device_type", S_ "enum"); (KS "enum_options", VList [S_ "Unknown"; S_ "Ready"; S_ "Sync"; S_ "Service"])]); (KS "freeze_mode", D [(KS "name", S_ "Freeze Mode"); (KS "value", VInt (0))]); (KS "pool_delay", D [(KS "name", S_ "Pool Delay"); (KS "value", VInt (0))]); (KS "spa_delay", D [(KS "name", S_ "Spa Delay"); (KS "value", VInt (0))]); (KS "cleaner_delay", D [(KS "name", S_ "Cleaner Delay"); (KS "value", VInt (0))]); (KS "air_temperature", D [(KS "name", S_ "Air Temperature"); (KS "value", VInt (0)); (KS "unit", VStr [176; 70]); (KS "device_type", S_ "temperature"); (KS "state_type", S_ "measurement")]); (KS "ph", D [(KS "name", S_ "pH"); (KS "value", VFloat (S754_zero false)); (KS "unit", S_ "pH"); (KS "state_type", S_ "measurement")]); (KS "orp", D [(KS "name", S_ "ORP"); (KS "value", VInt (0)); (KS "unit", S_ "mV"); (KS "state_type", S_ "measurement")]); (KS "saturation", D [(KS "name", S_ "Saturation Index"); (KS "value", VFloat (S754_zero false)); (KS "unit", S_ "lsi"); (KS "state_type", S_ "measurement")]); (KS "salt_ppm", D [(KS "name", S_ "Salt"); (KS "value", VInt (0)); (KS "unit", S_ "ppm"); (KS "state_type", S_ "measurement")]); (KS "ph_supply_level", D [(KS "name", S_ "pH Supply Level"); (KS "value", VInt (0)); (KS "state_type", S_ "measurement")]); (KS "orp_supply_level", D [(KS "name", S_ "ORP Supply Level"); (KS "value", VInt (0)); (KS "state_type", S_ "measurement")]); (KS "active_alert", D [(KS "name", S_ "Active Alert"); (KS "value", VInt (0)); (KS "device_type", S_ "alarm")])])]); (KS "circuit", D [(KI 500, D [(KS "circuit_id", VInt (500)); (KS "name", S_ "Spa"); (KS "configuration", D [(KS "name_index", VInt (71)); (KS "flags", VInt (1)); (KS "default_runtime", VInt (720)); (KS "unknown_at_offset_62", VInt (0)); (KS "unknown_at_offset_63", VInt (0)); (KS "delay", VInt (0))]); (KS "function", VInt (1)); (KS "interface", VInt (1)); (KS "color", D [(KS "color_set", VInt (0)); (KS "color_position", VInt (0)); (KS "color_stagger", VInt (0))]); (KS "device_id", VInt (1)); (KS "value", VInt (0))]); (KI 501, D [(KS "circuit_id", VInt (501)); (KS "name", S_ "Air Blower"); (KS "configuration", D [(KS "name_index", VInt (1)); (KS "flags", VInt (0)); (KS "default_runtime", VInt (720)); (KS "unknown_at_offset_94", VInt (0)); (KS "unknown_at_offset_95", VInt (0)); (KS "delay", VInt (0))]); (KS "function", VInt (0)); (KS "interface", VInt (2)); (KS "color", D [(KS "color_set", VInt (0)); (KS "color_position", VInt (0)); (KS "color_stagger", VInt (0))]); (KS "device_id", VInt (2)); (KS "value", VInt (0))]); (KI 502, D [(KS "circuit_id", VInt (502)); (KS "name", S_ "Lights"); (KS "configuration", D [(KS "name_index", VInt (46)); (KS "flags", VInt (0)); (KS "default_runtime", VInt (720)); (KS "unknown_at_offset_122", VInt (0)); (KS "unknown_at_offset_123", VInt (0)); (KS "delay", VInt (0))]); (KS "function", VInt (16)); (KS "interface", VInt (3)); (KS "color", D [(KS "color_set", VInt (0)); (KS "color_position", VInt (0)); (KS "color_stagger", VInt (10))]); (KS "device_id", VInt (3)); (KS "value", VInt (0))]); (KI 503, D [(KS "circuit_id", VInt (503)); (KS "name", S_ "BUBBLERS   "); (KS "configuration", D [(KS "name_index", VInt (101)); (KS "flags", VInt (0)); (KS "default_runtime", VInt (720)); (KS "unknown_at_offset_154", VInt (0)); (KS "unknown_at_offset_155", VInt (0)); (KS "delay", VInt (0))]); (KS "function", VInt (13)); (KS "interface", VInt (2)); (KS "color", D [(KS "color_set", VInt (0)); (KS "color_position", VInt (0)); (KS "color_stagger", VInt (0))]); (KS "device_id", VInt (4)); (KS "value", VInt (0))]); (KI 504, D [(KS "circuit_id", VInt (504)); (KS "name", S_ "Aux 4"); (KS "configuration", D [(KS "name_index", VInt (5)); (KS "flags", VInt (0)); (KS "default_runtime", VInt (720)); (KS "unknown_at_offset_182", VInt (0)); (KS "unknown_at_offset_183", VInt (0)); (KS "delay", VInt (0))]); (KS "function", VInt (0)); (KS "interface", VInt (2)); (KS "color", D [(KS "color_set", VInt (0)); (KS "color_position", VInt (0)); (KS "color_stagger", VInt (0))]); (KS "device_id", VInt (5)); (KS "value", VInt (0))]); (KI 505, D [(KS "circuit_id", VInt (505)); (KS "name", S_ "Pool"); (KS "configuration", D [(KS "name_index", VInt (60)); (KS "flags", VInt (1)); (KS "default_runtime", VInt (720)); (KS "unknown_at_offset_206", VInt (0)); (KS "unknown_at_offset_207", VInt (0)); (KS "delay", VInt (0))]); (KS "function", VInt (2)); (KS "interface", VInt (0)); (KS "color", D [(KS "color_set", VInt (0)); (KS "color_position", VInt (0)); (KS "color_stagger", VInt (0))]); (KS "device_id", VInt (6)); (KS "value", VInt (0))]); (KI 506, D [(KS "circuit_id", VInt (506)); (KS "name", S_ "Aux 5"); (KS "configuration", D [(KS "name_index", VInt (6)); (KS "flags", VInt (0)); (KS "default_runtime", VInt (720)); (KS "unknown_at_offset_234", VInt (0)); (KS "unknown_at_offset_235", VInt (0)); (KS "delay", VInt (0))]); (KS "function", VInt (0)); (KS "interface", VInt (2)); (KS "color", D [(KS "color_set", VInt (0)); (KS "color_position", VInt (0)); (KS "color_stagger", VInt (0))]); (KS "device_id", VInt (7)); (KS "value", VInt (0))]); (KI 507, D [(KS "circuit_id", VInt (507)); (KS "name", S_ "Aux 6"); (KS "configuration", D [(KS "name_index", VInt (7)); (KS "flags", VInt (0)); (KS "default_runtime", VInt (720)); (KS "unknown_at_offset_262", VInt (0)); (KS "unknown_at_offset_263", VInt (0)); (KS "delay", VInt (0))]); (KS "function", VInt (0)); (KS "interface", VInt (2)); (KS "color", D [(KS "color_set", VInt (0)); (KS "color_position", VInt (0)); (KS "color_stagger", VInt (0))]); (KS "device_id", VInt (8)); (KS "value", VInt (0))]); (KI 508, D [(KS "circuit_id", VInt (508)); (KS "name", S_ "Aux 7"); (KS "configuration", D [(KS "name_index", VInt (8)); (KS "flags", VInt (0)); (KS "default_runtime", VInt (720)); (KS "unknown_at_offset_290", VInt (0)); (KS "unknown_at_offset_291", VInt (0)); (KS "delay", VInt (0))]); (KS "function", VInt (0)); (KS "interface", VInt (2)); (KS "color", D [(KS "color_set", VInt (0)); (KS "color_position", VInt (0)); (KS "color_stagger", VInt (0))]); (KS "device_id", VInt (9)); (KS "value", VInt (0))]); (KI 510, D [(KS "circuit_id", VInt (510)); (KS "name", S_ "Feature 1"); (KS "configuration", D [(KS "name_index", VInt (93)); (KS "flags", VInt (0)); (KS "default_runtime", VInt (720)); (KS "unknown_at_offset_322", VInt (0)); (KS "unknown_at_offset_323", VInt (0)); (KS "delay", VInt (0))]); (KS "function", VInt (0)); (KS "interface", VInt (2)); (KS "color", D [(KS "color_set", VInt (0)); (KS "color_position", VInt (0)); (KS "color_stagger", VInt (0))]); (KS "device_id", VInt (11)); (KS "value", VInt (0))]); (KI 511, D [(KS "circuit_id", VInt (511)); (KS "name", S_ "Feature 2"); (KS "configuration", D [(KS "name_index", VInt (94)); (KS "flags", VInt (0)); (KS "default_runtime", VInt (720)); (KS "unknown_at_offset_354", VInt (0)); (KS "unknown_at_offset_355", VInt (0)); (KS "delay", VInt (0))]); (KS "function", VInt (0)); (KS "interface", VInt (2)); (KS "color", D [(KS "color_set", VInt (0)); (KS "color_position", VInt (0)); (KS "color_stagger", VInt (0))]); (KS "device_id", VInt (12)); (KS "value", VInt (0))]); (KI 512, D [(KS "circuit_id", VInt (512)); (KS "name", S_ "Feature 3"); (KS "configuration", D [(KS "name_index", VInt (95)); (KS "flags", VInt (0)); (KS "default_runtime", VInt (720)); (KS "unknown_at_offset_386", VInt (0)); (KS "unknown_at_offset_387", VInt (0)); (KS "delay", VInt (0))]); (KS "function", VInt (0)); (KS "interface", VInt (2)); (KS "color", D [(KS "color_set", VInt (0)); (KS "color_position", VInt (0)); (KS "color_stagger", VInt (0))]); (KS "device_id", VInt (13)); (KS "value", VInt (0))]); (KI 513, D [(KS "circuit_id", VInt (513)); (KS "name", S_ "Feature 4"); (KS "configuration", D [(KS "name_index", VInt (96)); (KS "flags", VInt (0)); (KS "default_runtime", VInt (720)); (KS "unknown_at_offset_418", VInt (0)); (KS "unknown_at_offset_419", VInt (0)); (KS "delay", VInt (0))]); (KS "function", VInt (0)); (KS "interface", VInt (2)); (KS "color", D [(KS "color_set", VInt (0)); (KS "color_position", VInt (0)); (KS "color_stagger", VInt (0))]); (KS "device_id", VInt (14)); (KS "value", VInt (0))]); (KI 514, D [(KS "circuit_id", VInt (514)); (KS "name", S_ "Feature 5"); (KS "configuration", D [(KS "name_index", VInt (97)); (KS "flags", VInt (0)); (KS "default_runtime", VInt (720)); (KS "unknown_at_offset_450", VInt (0)); (KS "unknown_at_offset_451", VInt (0)); (KS "delay", VInt (0))]); (KS "function", VInt (0)); (KS "interface", VInt (2)); (KS "color", D [(KS "color_set", VInt (0)); (KS "color_position", VInt (0)); (KS "color_stagger", VInt (0))]); (KS "device_id", VInt (15)); (KS "value", VInt (0))]); (KI 515, D [(KS "circuit_id", VInt (515)); (KS "name", S_ "Feature 6"); (KS "configuration", D [(KS "name_index", VInt (98)); (KS "flags", VInt (0)); (KS "default_runtime", VInt (720)); (KS "unknown_at_offset_482", VInt (0)); (KS "unknown_at_offset_483", VInt (0)); (KS "delay", VInt (0))]); (KS "function", VInt (0)); (KS "interface", VInt (2)); (KS "color", D [(KS "color_set", VInt (0)); (KS "color_position", VInt (0)); (KS "color_stagger", VInt (0))]); (KS "device_id", VInt (16)); (KS "value", VInt (0))]); (KI 516, D [(KS "circuit_id", VInt (516)); (KS "name", S_ "Feature 7"); (KS "configuration", D [(KS "name_index", VInt (99)); (KS "flags", VInt (0)); (KS "default_runtime", VInt (720)); (KS "unknown_at_offset_514", VInt (0)); (KS "unknown_at_offset_515", VInt (0)); (KS "delay", VInt (0))]); (KS "function", VInt (0)); (KS "interface", VInt (2)); (KS "color", D [(KS "color_set", VInt (0)); (KS "color_position", VInt (0)); (KS "color_stagger", VInt (0))]); (KS "device_id", VInt (17)); (KS "value", VInt (0))]); (KI 517, D [(KS "circuit_id", VInt (517)); (KS "name", S_ "Feature 8"); (KS "configuration", D [(KS "name_index", VInt (100)); (KS "flags", VInt (0)); (KS "default_runtime", VInt (720)); (KS "unknown_at_offset_546", VInt (0)); (KS "unknown_at_offset_547", VInt (0)); (KS "delay", VInt (0))]); (KS "function", VInt (0)); (KS "interface", VInt (2)); (KS "color", D [(KS "color_set", VInt (0)); (KS "color_position", VInt (0)); (KS "color_stagger", VInt (0))]); (KS "device_id", VInt (18)); (KS "value", VInt (0))]); (KI 519, D [(KS "circuit_id", VInt (519)); (KS "name", S_ "AuxEx"); (KS "configuration", D [(KS "name_index", VInt (92)); (KS "flags", VInt (0)); (KS "default_runtime", VInt (720)); (KS "unknown_at_offset_574", VInt (0)); (KS "unknown_at_offset_575", VInt (0)); (KS "delay", VInt (0))]); (KS "function", VInt (0)); (KS "interface", VInt (2)); (KS "color", D [(KS "color_set", VInt (0)); (KS "color_position", VInt (0)); (KS "color_stagger", VInt (0))]); (KS "device_id", VInt (20)); (KS "value", VInt (0))])]); (KS "pump", D [(KI 0, D [(KS "data", VInt (70)); (KS "type", VInt (3)); (KS "state", D [(KS "name", S_ "Pool Pump"); (KS "value", VInt (1))]); (KS "watts_now", D [(KS "name", S_ "Pool Pump Watts Now"); (KS "value", VInt (1337)); (KS "unit", S_ "W"); (KS "device_type", S_ "power"); (KS "state_type", S_ "measurement")]); (KS "rpm_now", D [(KS "name", S_ "Pool Pump RPM Now"); (KS "value", VInt (2850)); (KS "unit", S_ "rpm"); (KS "state_type", S_ "measurement")]); (KS "unknown_at_offset_16", VInt (0)); (KS "gpm_now", D [(KS "name", S_ "Pool Pump GPM Now"); (KS "value", VInt (68)); (KS "unit", S_ "gpm"); (KS "state_type", S_ "measurement")]); (KS "unknown_at_offset_24", VInt (255)); (KS "preset", D [(KI 0, D [(KS "device_id", VInt (6)); (KS "setpoint", VInt (2850)); (KS "is_rpm", VInt (1))]); (KI 1, D [(KS "device_id", VInt (1)); (KS "setpoint", VInt (2800)); (KS "is_rpm", VInt (1))]); (KI 2, D [(KS "device_id", VInt (0)); (KS "setpoint", VInt (30)); (KS "is_rpm", VInt (0))]); (KI 3, D [(KS "device_id", VInt (0)); (KS "setpoint", VInt (30)); (KS "is_rpm", VInt (0))]); (KI 4, D [(KS "device_id", VInt (0)); (KS "setpoint", VInt (30)); (KS "is_rpm", VInt (0))]); (KI 5, D [(KS "device_id", VInt (0)); (KS "setpoint", VInt (30)); (KS "is_rpm", VInt (0))]); (KI 6, D [(KS "device_id", VInt (0)); (KS "setpoint", VInt (30)); (KS "is_rpm", VInt (0))]); (KI 7, D [(KS "device_id", VInt (0)); (KS "setpoint", VInt (30)); (KS "is_rpm", VInt (0))])])]); (KI 1, D [(KS "data", VInt (0))]); (KI 2, D [(KS "data", VInt (0))]); (KI 3, D [(KS "data", VInt (0))]); (KI 4, D [(KS "data", VInt (0))]); (KI 5, D [(KS "data", VInt (0))]); (KI 6, D [(KS "data", VInt (0))]); (KI 7, D [(KS "data", VInt (0))])]); (KS "body", D [(KI 0, D [(KS "body_type", VInt (0)); (KS "min_setpoint", VInt (40)); (KS "max_setpoint", VInt (104)); (KS "name", S_ "Pool"); (KS "last_temperature", D [(KS "name", S_ "Last Pool Temperature"); (KS "value", VInt (0)); (KS "unit", VStr [176; 70]); (KS "device_type", S_ "temperature"); (KS "state_type", S_ "measurement")]); (KS "heat_state", D [(KS "name", S_ "Pool Heat"); (KS "value", VInt (0)); (KS "device_type", S_ "enum"); (KS "enum_options", VList [S_ "Off"; S_ "Solar"; S_ "Heater"; S_ "Both"])]); (KS "heat_setpoint", D [(KS "name", S_ "Pool Heat Set Point"); (KS "value", VInt (0)); (KS "unit", VStr [176; 70]); (KS "device_type", S_ "temperature")]); (KS "cool_setpoint", D [(KS "name", S_ "Pool Cool Set Point"); (KS "value", VInt (0)); (KS "unit", VStr [176; 70]); (KS "device_type", S_ "temperature")]); (KS "heat_mode", D [(KS "name", S_ "Pool Heat Mode"); (KS "value", VInt (0)); (KS "device_type", S_ "enum"); (KS "enum_options", VList [S_ "Off"; S_ "Solar"; S_ "Solar Preferred"; S_ "Heater"; S_ "Don't Change"])])]); (KI 1, D [(KS "body_type", VInt (1)); (KS "min_setpoint", VInt (40)); (KS "max_setpoint", VInt (104)); (KS "name", S_ "Spa"); (KS "last_temperature", D [(KS "name", S_ "Last Spa Temperature"); (KS "value", VInt (0)); (KS "unit", VStr [176; 70]); (KS "device_type", S_ "temperature"); (KS "state_type", S_ "measurement")]); (KS "heat_state", D [(KS "name", S_ "Spa Heat"); (KS "value", VInt (0)); (KS "device_type", S_ "enum"); (KS "enum_options", VList [S_ "Off"; S_ "Solar"; S_ "Heater"; S_ "Both"])]); (KS "heat_setpoint", D [(KS "name", S_ "Spa Heat Set Point"); (KS "value", VInt (0)); (KS "unit", VStr [176; 70]); (KS "device_type", S_ "temperature")]); (KS "cool_setpoint", D [(KS "name", S_ "Spa Cool Set Point"); (KS "value", VInt (0)); (KS "unit", VStr [176; 70]); (KS "device_type", S_ "temperature")]); (KS "heat_mode", D [(KS "name", S_ "Spa Heat Mode"); (KS "value", VInt (0)); (KS "device_type", S_ "enum"); (KS "enum_options", VList [S_ "Off"; S_ "Solar"; S_ "Solar Preferred"; S_ "Heater"; S_ "Don't Change"])])])]); (KS "intellichem", D [(KS "unknown_at_offset_00", VInt (42)); (KS "unknown_at_offset_04", VInt (0)); (KS "sensor", D [(KS "ph_now", D [(KS "name", S_ "pH Now"); (KS "value", VFloat (S754_zero false)); (KS "unit", S_ "pH"); (KS "state_type", S_ "measurement")]); (KS "orp_now", D [(KS "name", S_ "ORP Now"); (KS "value", VInt (0)); (KS "unit", S_ "mV"); (KS "state_type", S_ "measurement")]); (KS "ph_supply_level", D [(KS "name", S_ "pH Supply Level"); (KS "value", VInt (0)); (KS "state_type", S_ "measurement")]); (KS "orp_supply_level", D [(KS "name", S_ "ORP Supply Level"); (KS "value", VInt (0)); (KS "state_type", S_ "measurement")]); (KS "saturation", D [(KS "name", S_ "Saturation Index"); (KS "value", VFloat (S754_zero false)); (KS "unit", S_ "lsi"); (KS "state_type", S_ "measurement")]); (KS "ph_probe_water_temp", D [(KS "name", S_ "pH Probe Water Temperature"); (KS "value", VInt (0)); (KS "unit", VStr [176; 70]); (KS "device_type", S_ "temperature"); (KS "state_type", S_ "measurement")])]); (KS "configuration", D [(KS "ph_setpoint", D [(KS "name", S_ "pH Setpoint"); (KS "value", VFloat (S754_zero false)); (KS "unit", S_ "pH"); (KS "min_setpoint", F false 8106479329266893 (-50)); (KS "max_setpoint", F false 8556839292003942 (-50))]); (KS "orp_setpoint", D [(KS "name", S_ "ORP Setpoint"); (KS "value", VInt (0)); (KS "unit", S_ "mV"); (KS "min_setpoint", VInt (400)); (KS "max_setpoint", VInt (800))]); (KS "calcium_hardness", D [(KS "name", S_ "Calcium Hardness"); (KS "value", VInt (0)); (KS "unit", S_ "ppm"); (KS "min_setpoint", VInt (25)); (KS "max_setpoint", VInt (800))]); (KS "cya", D [(KS "name", S_ "Cyanuric Acid"); (KS "value", VInt (0)); (KS "unit", S_ "ppm"); (KS "min_setpoint", VInt (0)); (KS "max_setpoint", VInt (201))]); (KS "total_alkalinity", D [(KS "name", S_ "Total Alkalinity"); (KS "value", VInt (0)); (KS "unit", S_ "ppm"); (KS "min_setpoint", VInt (25)); (KS "max_setpoint", VInt (800))]); (KS "salt_tds_ppm", D [(KS "name", S_ "Salt/TDS"); (KS "value", VInt (0)); (KS "unit", S_ "ppm"); (KS "min_setpoint", VInt (500)); (KS "max_setpoint", VInt (6500))]); (KS "probe_is_celsius", VInt (0)); (KS "flags", VInt (0))]); (KS "dose_status", D [(KS "ph_last_dose_time", D [(KS "name", S_ "Last pH Dose Time"); (KS "value", VInt (0)); (KS "unit", S_ "sec"); (KS "device_type", S_ "duration"); (KS "state_type", S_ "total_increasing")]); (KS "orp_last_dose_time", D [(KS "name", S_ "Last ORP Dose Time"); (KS "value", VInt (0)); (KS "unit", S_ "sec"); (KS "device_type", S_ "duration"); (KS "state_type", S_ "total_increasing")]); (KS "ph_last_dose_volume", D [(KS "name", S_ "Last pH Dose Volume"); (KS "value", VInt (0)); (KS "unit", S_ "mL"); (KS "device_type", S_ "volume"); (KS "state_type", S_ "total_increasing")]); (KS "orp_last_dose_volume", D [(KS "name", S_ "Last ORP Dose Volume"); (KS "value", VInt (0)); (KS "unit", S_ "mL"); (KS "device_type", S_ "volume"); (KS "state_type", S_ "total_increasing")]); (KS "flags", VInt (0)); (KS "ph_dosing_state", D [(KS "name", S_ "pH Dosing State"); (KS "value", VInt (0)); (KS "device_type", S_ "enum"); (KS "enum_options", VList [S_ "Dosing"; S_ "Mixing"; S_ "Monitoring"])]); (KS "orp_dosing_state", D [(KS "name", S_ "ORP Dosing State"); (KS "value", VInt (0)); (KS "device_type", S_ "enum"); (KS "enum_options", VList [S_ "Dosing"; S_ "Mixing"; S_ "Monitoring"])])]); (KS "alarm", D [(KS "flags", VInt (0)); (KS "flow_alarm", D [(KS "name", S_ "Flow Alarm"); (KS "value", VInt (0)); (KS "device_type", S_ "alarm")]); (KS "ph_high_alarm", D [(KS "name", S_ "pH HIGH Alarm"); (KS "value", VInt (0)); (KS "device_type", S_ "alarm")]); (KS "ph_low_alarm", D [(KS "name", S_ "pH LOW Alarm"); (KS "value", VInt (0)); (KS "device_type", S_ "alarm")]); (KS "orp_high_alarm", D [(KS "name", S_ "ORP HIGH Alarm"); (KS "value", VInt (0)); (KS "device_type", S_ "alarm")]); (KS "orp_low_alarm", D [(KS "name", S_ "ORP LOW Alarm"); (KS "value", VInt (0)); (KS "device_type", S_ "alarm")]); (KS "ph_supply_alarm", D [(KS "name", S_ "pH Supply Alarm"); (KS "value", VInt (0)); (KS "device_type", S_ "alarm")]); (KS "orp_supply_alarm", D [(KS "name", S_ "ORP Supply Alarm"); (KS "value", VInt (0)); (KS "device_type", S_ "alarm")]); (KS "probe_fault_alarm", D [(KS "name", S_ "Probe Fault"); (KS "value", VInt (0)); (KS "device_type", S_ "alarm")])]); (KS "alert", D [(KS "flags", VInt (0)); (KS "ph_lockout", D [(KS "name", S_ "pH Lockout"); (KS "value", VInt (0))]); (KS "ph_limit", D [(KS "name", S_ "pH Dose Limit Reached"); (KS "value", VInt (0))]); (KS "orp_limit", D [(KS "name", S_ "ORP Dose Limit Reached"); (KS "value", VInt (0))])]); (KS "firmware", D [(KS "name", S_ "IntelliChem Firmware"); (KS "value", S_ "0.000"); (KS "major", VInt (0)); (KS "minor", VInt (0))]); (KS "water_balance", D [(KS "flags", VInt (0)); (KS "corrosive", D [(KS "name", S_ "SI Corrosive"); (KS "value", VInt (0)); (KS "device_type", S_ "alarm")]); (KS "scaling", D [(KS "name", S_ "SI Scaling"); (KS "value", VInt (0)); (KS "device_type", S_ "alarm")])]); (KS "unknown_at_offset_44", VInt (0)); (KS "unknown_at_offset_45", VInt (0)); (KS "unknown_at_offset_46", VInt (0))]); (KS "scg", D [(KS "scg_present", VInt (11)); (KS "sensor", D [(KS "state", D [(KS "name", S_ "Chlorinator"); (KS "value", VInt (1))]); (KS "salt_ppm", D [(KS "name", S_ "Chlorinator Salt"); (KS "value", VInt (3150)); (KS "unit", S_ "ppm"); (KS "state_type", S_ "measurement")])]); (KS "configuration", D [(KS "pool_setpoint", D [(KS "name", S_ "Pool Chlorinator Setpoint"); (KS "value", VInt (80)); (KS "unit", S_ "%"); (KS "min_setpoint", VInt (0)); (KS "max_setpoint", VInt (100)); (KS "step", VInt (1)); (KS "body_type", VInt (0))]); (KS "spa_setpoint", D [(KS "name", S_ "Spa Chlorinator Setpoint"); (KS "value", VInt (5)); (KS "unit", S_ "%"); (KS "min_setpoint", VInt (0)); (KS "max_setpoint", VInt (100)); (KS "step", VInt (1)); (KS "body_type", VInt (1))]); (KS "super_chlor_timer", D [(KS "name", S_ "Super Chlorination Timer"); (KS "value", VInt (0)); (KS "unit", S_ "hr"); (KS "min_setpoint", VInt (0)); (KS "max_setpoint", VInt (72)); (KS "step", VInt (1))])]); (KS "flags", VInt (128)); (KS "super_chlorinate", D [(KS "name", S_ "Super Chlorinate"); (KS "value", VInt (0))])])].
Example fixture4 : (match run4 with (d, Ok tt) => pv_equiv 20 (VDict d) expect4 | _ => false end) = true.
Proof. vm_compute. reflexivity. Qed.

(** tests/data/slpy-0101_pool-52-build-7380-rel_easytouch2-8_32824.json *)
Definition fl5 (s : pystr) : option spec_float :=
  if pystr_eqb s (u "738.0") then (match F false 6491516650389504 (-43) with VFloat x => Some x | _ => None end) else if pystr_eqb s (u "5.2") then (match F false 5854679515581645 (-50) with VFloat x => Some x | _ => None end) else None.
Definition run5 : dict * res unit := (decode_version fl5 [25; 0; 0; 0; 80; 79; 79; 76; 58; 32; 53; 46; 50; 32; 66; 117; 105; 108; 100; 32; 55; 51; 56; 46; 48; 32; 82; 101; 108; 0; 0; 0; 2; 0; 0; 0; 5; 0; 0; 0; 2; 0; 0; 0; 2; 0; 0; 0; 2; 0; 0; 0; 12; 0; 0; 0] ;;;
  decode_pool_config [100; 0; 0; 0; 40; 104; 40; 104; 0; 13; 0; 0; 56; 128; 0; 0; 14; 0; 0; 0; 87; 97; 116; 101; 114; 32; 70; 101; 97; 116; 117; 114; 101; 115; 0; 0; 11; 0; 0; 0; 244; 1; 0; 0; 3; 0; 0; 0; 83; 112; 97; 0; 71; 1; 1; 1; 0; 0; 0; 1; 208; 2; 0; 0; 245; 1; 0; 0; 9; 0; 0; 0; 87; 97; 116; 101; 114; 102; 97; 108; 108; 0; 0; 0; 85; 0; 2; 0; 0; 0; 0; 2; 208; 2; 0; 0; 246; 1; 0; 0; 10; 0; 0; 0; 80; 111; 111; 108; 32; 76; 105; 103; 104; 116; 0; 0; 62; 16; 3; 0; 2; 0; 2; 3; 208; 2; 0; 0; 247; 1; 0; 0; 9; 0; 0; 0; 83; 112; 97; 32; 76; 105; 103; 104; 116; 0; 0; 0; 73; 16; 3; 0; 6; 1; 10; 4; 208; 2; 0; 0; 248; 1; 0; 0; 7; 0; 0; 0; 67; 108; 101; 97; 110; 101; 114; 0; 21; 5; 2; 0; 0; 0; 0; 5; 240; 0; 0; 0; 249; 1; 0; 0; 8; 0; 0; 0; 80; 111; 111; 108; 32; 76; 111; 119; 63; 2; 0; 1; 0; 0; 0; 6; 208; 2; 0; 0; 250; 1; 0; 0; 10; 0; 0; 0; 89; 97; 114; 100; 32; 76; 105; 103; 104; 116; 0; 0; 91; 7; 4; 0; 0; 0; 0; 7; 208; 2; 0; 0; 251; 1; 0; 0; 7; 0; 0; 0; 67; 97; 109; 101; 114; 97; 115; 0; 101; 0; 2; 0; 0; 0; 0; 8; 84; 6; 0; 0; 252; 1; 0; 0; 9; 0; 0; 0; 80; 111; 111; 108; 32; 72; 105; 103; 104; 0; 0; 0; 61; 0; 2; 0; 0; 0; 0; 9; 208; 2; 0; 0; 254; 1; 0; 0; 8; 0; 0; 0; 83; 112; 105; 108; 108; 119; 97; 121; 78; 14; 2; 0; 0; 0; 0; 11; 208; 2; 0; 0; 255; 1; 0; 0; 9; 0; 0; 0; 80; 111; 111; 108; 32; 72; 105; 103; 104; 0; 0; 0; 61; 0; 5; 0; 0; 0; 0; 12; 208; 2; 0; 0; 8; 0; 0; 0; 5; 0; 0; 0; 87; 104; 105; 116; 101; 0; 0; 0; 255; 0; 0; 0; 255; 0; 0; 0; 255; 0; 0; 0; 11; 0; 0; 0; 76; 105; 103; 104; 116; 32; 71; 114; 101; 101; 110; 0; 160; 0; 0; 0; 255; 0; 0; 0; 160; 0; 0; 0; 5; 0; 0; 0; 71; 114; 101; 101; 110; 0; 0; 0; 0; 0; 0; 0; 255; 0; 0; 0; 80; 0; 0; 0; 4; 0; 0; 0; 67; 121; 97; 110; 0; 0; 0; 0; 255; 0; 0; 0; 200; 0; 0; 0; 4; 0; 0; 0; 66; 108; 117; 101; 100; 0; 0; 0; 140; 0; 0; 0; 255; 0; 0; 0; 8; 0; 0; 0; 76; 97; 118; 101; 110; 100; 101; 114; 230; 0; 0; 0; 130; 0; 0; 0; 255; 0; 0; 0; 7; 0; 0; 0; 77; 97; 103; 101; 110; 116; 97; 0; 255; 0; 0; 0; 0; 0; 0; 0; 128; 0; 0; 0; 13; 0; 0; 0; 76; 105; 103; 104; 116; 32; 77; 97; 103; 101; 110; 116; 97; 0; 0; 0; 255; 0; 0; 0; 180; 0; 0; 0; 210; 0; 0; 0; 70; 66; 0; 0; 0; 0; 0; 0; 127; 0; 0; 0; 0; 0; 0; 0] ;;;
  decode_pool_status [1; 0; 0; 0; 0; 0; 0; 0; 0; 0; 0; 0; 48; 0; 0; 0; 2; 0; 0; 0; 0; 0; 0; 0; 57; 0; 0; 0; 0; 0; 0; 0; 83; 0; 0; 0; 100; 0; 0; 0; 0; 0; 0; 0; 1; 0; 0; 0; 59; 0; 0; 0; 0; 0; 0; 0; 95; 0; 0; 0; 48; 0; 0; 0; 3; 0; 0; 0; 11; 0; 0; 0; 244; 1; 0; 0; 0; 0; 0; 0; 0; 0; 0; 0; 245; 1; 0; 0; 0; 0; 0; 0; 0; 0; 0; 0; 246; 1; 0; 0; 0; 0; 0; 0; 2; 0; 2; 0; 247; 1; 0; 0; 0; 0; 0; 0; 6; 1; 10; 0; 248; 1; 0; 0; 0; 0; 0; 0; 0; 0; 0; 0; 249; 1; 0; 0; 0; 0; 0; 0; 0; 0; 0; 0; 250; 1; 0; 0; 0; 0; 0; 0; 0; 0; 0; 0; 251; 1; 0; 0; 1; 0; 0; 0; 0; 0; 0; 0; 252; 1; 0; 0; 0; 0; 0; 0; 0; 0; 0; 0; 254; 1; 0; 0; 0; 0; 0; 0; 0; 0; 0; 0; 255; 1; 0; 0; 0; 0; 0; 0; 0; 0; 0; 0; 249; 2; 0; 0; 218; 2; 0; 0; 215; 255; 255; 255; 0; 0; 0; 0; 7; 0; 0; 0; 4; 0; 0; 0; 0; 0; 0; 0] ;;;
  decode_pump_status [3; 0; 0; 0; 1; 0; 0; 0; 255; 4; 0; 0; 181; 10; 0; 0; 0; 0; 0; 0; 62; 0; 0; 0; 255; 0; 0; 0; 6; 0; 0; 0; 63; 0; 0; 0; 0; 0; 0; 0; 9; 0; 0; 0; 72; 0; 0; 0; 0; 0; 0; 0; 1; 0; 0; 0; 122; 13; 0; 0; 1; 0; 0; 0; 130; 0; 0; 0; 75; 0; 0; 0; 0; 0; 0; 0; 12; 0; 0; 0; 72; 0; 0; 0; 0; 0; 0; 0; 0; 0; 0; 0; 30; 0; 0; 0; 0; 0; 0; 0; 0; 0; 0; 0; 30; 0; 0; 0; 0; 0; 0; 0; 0; 0; 0; 0; 30; 0; 0; 0; 0; 0; 0; 0] 0 ;;;
  decode_pump_status [3; 0; 0; 0; 0; 0; 0; 0; 0; 0; 0; 0; 0; 0; 0; 0; 0; 0; 0; 0; 0; 0; 0; 0; 255; 0; 0; 0; 2; 0; 0; 0; 140; 10; 0; 0; 1; 0; 0; 0; 0; 0; 0; 0; 30; 0; 0; 0; 0; 0; 0; 0; 0; 0; 0; 0; 30; 0; 0; 0; 0; 0; 0; 0; 0; 0; 0; 0; 30; 0; 0; 0; 0; 0; 0; 0; 0; 0; 0; 0; 30; 0; 0; 0; 0; 0; 0; 0; 0; 0; 0; 0; 30; 0; 0; 0; 0; 0; 0; 0; 0; 0; 0; 0; 30; 0; 0; 0; 0; 0; 0; 0; 0; 0; 0; 0; 30; 0; 0; 0; 0; 0; 0; 0] 1 ;;;
  decode_chemistry [42; 0; 0; 0; 0; 0; 0; 0; 0; 2; 248; 2; 208; 0; 0; 0; 7; 0; 0; 0; 11; 0; 12; 0; 24; 7; 4; 215; 3; 32; 0; 45; 0; 35; 20; 0; 57; 1; 0; 149; 32; 60; 1; 1; 0; 0; 0; 0] ;;;
  decode_scg_config [0; 0; 0; 0; 0; 0; 0; 0; 70; 0; 0; 0; 0; 0; 0; 0; 0; 0; 0; 0; 0; 0; 0; 0; 2; 0; 0; 0] ;;;
  decode_date_time (match F false 7145920707756170 (-22) with VFloat x => x | _ => S754_nan end) [231; 7; 12; 0; 0; 0; 25; 0; 23; 0; 48; 0; 48; 0; 0; 0; 1; 0; 0; 0])%dm [].
Definition expect5 : pv := D [(KS "adapter", D [(KS "firmware", D [(KS "name", S_ "Protocol Adapter Firmware"); (KS "value", S_ "POOL: 5.2 Build 738.0 Rel"); (KS "major", F false 5854679515581645 (-50)); (KS "minor", F false 6491516650389504 (-43))])]); (KS "controller", D [(KS "controller_id", VInt (100)); (KS "configuration", D [(KS "body_type", D [(KI 0, D [(KS "min_setpoint", VInt (40)); (KS "max_setpoint", VInt (104))]); (KI 1, D [(KS "min_setpoint", VInt (40)); (KS "max_setpoint", VInt (104))])]); (KS "is_celsius", D [(KS "name", S_ "Is Celsius"); (KS "value", VInt (0))]); (KS "controller_type", VInt (13)); (KS "hardware_type", VInt (0)); (KS "controller_data", VInt (0)); (KS "generic_circuit_name", S_ "Water Features"); (KS "circuit_count", VInt (11)); (KS "color_count", VInt (8)); (KS "color", VList [D [(KS "name", S_ "White"); (KS "value", VList [VInt (255); VInt (255); VInt (255)])]; D [(KS "name", S_ "Light Green"); (KS "value", VList [VInt (160); VInt (255); VInt (160)])]; D [(KS "name", S_ "Green"); (KS "value", VList [VInt (0); VInt (255); VInt (80)])]; D [(KS "name", S_ "Cyan"); (KS "value", VList [VInt (0); VInt (255); VInt (200)])]; D [(KS "name", S_ "Blue"); (KS "value", VList [VInt (100); VInt (140); VInt (255)])]; D [(KS "name", S_ "Lavender"); (KS "value", VList [VInt (230); VInt (130); VInt (255)])]; D [(KS "name", S_ "Magenta"); (KS "value", VList [VInt (255); VInt (0); VInt (128)])]; D [(KS "name", S_ "Light Magenta"); (KS "value", VList [VInt (255); VInt (180); VInt (210)])]]); (KS "interface_tab_flags", VInt (127)); (KS "show_alarms", VInt (0)); (KS "remotes", VInt (0)); (KS "unknown_at_offset_09", VInt (0)); (KS "unknown_at_offset_10", VInt (0)); (KS "unknown_at_offset_11", VInt (0))]); (KS "model", D [(KS "name", S_ "Model"); (KS "value", S_ "EasyTouch2 8")]); (KS "equipment", D [(KS "flags", VInt (32824)); (KS "list", VList [S_ "INTELLIBRITE"; S_ "INTELLIFLO_0"; S_ "INTELLIFLO_1"; S_ "INTELLICHEM"])]); (KS "sensor", D [(KS "state", D [(KS "name", S_ "Controller State"); (KS "value", VInt (1)); (KS "device_type", S_ "enum"); (KS "enum_options", VList [S_ "Unknown"; S_ "Ready"; S_ "Sync"; S_ "Service"])]); (KS "freeze_mode", D [(KS "name", S_ "Freeze Mode"); (KS "value", VInt (0))]); (KS "pool_delay", D [(KS "name", S_ "Pool Delay"); (KS "value", VInt (0))]); (KS "spa_delay", D [(KS "name", S_ "Spa Delay"); (KS "value", VInt (0))]); (KS "cleaner_delay", D [(KS "name", S_ "Cleaner Delay"); (KS "value", VInt (0))]); (KS "air_temperature", D [(KS "name", S_ "Air Temperature"); (KS "value", VInt (48)); (KS "unit", VStr [176; 70]); (KS "device_type", S_ "temperature"); (KS "state_type", S_ "measurement")]); (KS "ph", D [(KS "name", S_ "pH"); (KS "value", F false 8568098291072369 (-50)); (KS "unit", S_ "pH"); (KS "state_type", S_ "measurement")]); (KS "orp", D [(KS "name", S_ "ORP"); (KS "value", VInt (730)); (KS "unit", S_ "mV"); (KS "state_type", S_ "measurement")]); (KS "saturation", D [(KS "name", S_ "Saturation Index"); (KS "value", F true 7385903388887613 (-54)); (KS "unit", S_ "lsi"); (KS "state_type", S_ "measurement")]); (KS "salt_ppm", D [(KS "name", S_ "Salt"); (KS "value", VInt (0)); (KS "unit", S_ "ppm"); (KS "state_type", S_ "measurement")]); (KS "ph_supply_level", D [(KS "name", S_ "pH Supply Level"); (KS "value", VInt (7)); (KS "state_type", S_ "measurement")]); (KS "orp_supply_level", D [(KS "name", S_ "ORP Supply Level"); (KS "value", VInt (4)); (KS "state_type", S_ "measurement")]); (KS "active_alert", D [(KS "name", S_ "Active Alert"); (KS "value", VInt (0)); (KS "device_type", S_ "alarm")])]); (KS "date_time", D [(KS "timestamp", F false 7145198727462912 (-22)); (KS "timestamp_host", F false 7145920707756170 (-22)); (KS "auto_dst", D [(KS "name", S_ "Automatic Daylight Saving Time"); (KS "value", VInt (1))])])]); (KS "circuit", D [(KI 500, D [(KS "circuit_id", VInt (500)); (KS "name", S_ "Spa"); (KS "configuration", D [(KS "name_index", VInt (71)); (KS "flags", VInt (1)); (KS "default_runtime", VInt (720)); (KS "unknown_at_offset_62", VInt (0)); (KS "unknown_at_offset_63", VInt (0)); (KS "delay", VInt (0))]); (KS "function", VInt (1)); (KS "interface", VInt (1)); (KS "color", D [(KS "color_set", VInt (0)); (KS "color_position", VInt (0)); (KS "color_stagger", VInt (0))]); (KS "device_id", VInt (1)); (KS "value", VInt (0))]); (KI 501, D [(KS "circuit_id", VInt (501)); (KS "name", S_ "Waterfall"); (KS "configuration", D [(KS "name_index", VInt (85)); (KS "flags", VInt (0)); (KS "default_runtime", VInt (720)); (KS "unknown_at_offset_94", VInt (0)); (KS "unknown_at_offset_95", VInt (0)); (KS "delay", VInt (0))]); (KS "function", VInt (0)); (KS "interface", VInt (2)); (KS "color", D [(KS "color_set", VInt (0)); (KS "color_position", VInt (0)); (KS "color_stagger", VInt (0))]); (KS "device_id", VInt (2)); (KS "value", VInt (0))]); (KI 502, D [(KS "circuit_id", VInt (502)); (KS "name", S_ "Pool Light"); (KS "configuration", D [(KS "name_index", VInt (62)); (KS "flags", VInt (0)); (KS "default_runtime", VInt (720)); (KS "unknown_at_offset_126", VInt (0)); (KS "unknown_at_offset_127", VInt (0)); (KS "delay", VInt (0))]); (KS "function", VInt (16)); (KS "interface", VInt (3)); (KS "color", D [(KS "color_set", VInt (2)); (KS "color_position", VInt (0)); (KS "color_stagger", VInt (2))]); (KS "device_id", VInt (3)); (KS "value", VInt (0))]); (KI 503, D [(KS "circuit_id", VInt (503)); (KS "name", S_ "Spa Light"); (KS "configuration", D [(KS "name_index", VInt (73)); (KS "flags", VInt (0)); (KS "default_runtime", VInt (720)); (KS "unknown_at_offset_158", VInt (0)); (KS "unknown_at_offset_159", VInt (0)); (KS "delay", VInt (0))]); (KS "function", VInt (16)); (KS "interface", VInt (3)); (KS "color", D [(KS "color_set", VInt (6)); (KS "color_position", VInt (1)); (KS "color_stagger", VInt (10))]); (KS "device_id", VInt (4)); (KS "value", VInt (0))]); (KI 504, D [(KS "circuit_id", VInt (504)); (KS "name", S_ "Cleaner"); (KS "configuration", D [(KS "name_index", VInt (21)); (KS "flags", VInt (0)); (KS "default_runtime", VInt (240)); (KS "unknown_at_offset_186", VInt (0)); (KS "unknown_at_offset_187", VInt (0)); (KS "delay", VInt (0))]); (KS "function", VInt (5)); (KS "interface", VInt (2)); (KS "color", D [(KS "color_set", VInt (0)); (KS "color_position", VInt (0)); (KS "color_stagger", VInt (0))]); (KS "device_id", VInt (5)); (KS "value", VInt (0))]); (KI 505, D [(KS "circuit_id", VInt (505)); (KS "name", S_ "Pool Low"); (KS "configuration", D [(KS "name_index", VInt (63)); (KS "flags", VInt (1)); (KS "default_runtime", VInt (720)); (KS "unknown_at_offset_214", VInt (0)); (KS "unknown_at_offset_215", VInt (0)); (KS "delay", VInt (0))]); (KS "function", VInt (2)); (KS "interface", VInt (0)); (KS "color", D [(KS "color_set", VInt (0)); (KS "color_position", VInt (0)); (KS "color_stagger", VInt (0))]); (KS "device_id", VInt (6)); (KS "value", VInt (0))]); (KI 506, D [(KS "circuit_id", VInt (506)); (KS "name", S_ "Yard Light"); (KS "configuration", D [(KS "name_index", VInt (91)); (KS "flags", VInt (0)); (KS "default_runtime", VInt (720)); (KS "unknown_at_offset_246", VInt (0)); (KS "unknown_at_offset_247", VInt (0)); (KS "delay", VInt (0))]); (KS "function", VInt (7)); (KS "interface", VInt (4)); (KS "color", D [(KS "color_set", VInt (0)); (KS "color_position", VInt (0)); (KS "color_stagger", VInt (0))]); (KS "device_id", VInt (7)); (KS "value", VInt (0))]); (KI 507, D [(KS "circuit_id", VInt (507)); (KS "name", S_ "Cameras"); (KS "configuration", D [(KS "name_index", VInt (101)); (KS "flags", VInt (0)); (KS "default_runtime", VInt (1620)); (KS "unknown_at_offset_274", VInt (0)); (KS "unknown_at_offset_275", VInt (0)); (KS "delay", VInt (0))]); (KS "function", VInt (0)); (KS "interface", VInt (2)); (KS "color", D [(KS "color_set", VInt (0)); (KS "color_position", VInt (0)); (KS "color_stagger", VInt (0))]); (KS "device_id", VInt (8)); (KS "value", VInt (1))]); (KI 508, D [(KS "circuit_id", VInt (508)); (KS "name", S_ "Pool High"); (KS "configuration", D [(KS "name_index", VInt (61)); (KS "flags", VInt (0)); (KS "default_runtime", VInt (720)); (KS "unknown_at_offset_306", VInt (0)); (KS "unknown_at_offset_307", VInt (0)); (KS "delay", VInt (0))]); (KS "function", VInt (0)); (KS "interface", VInt (2)); (KS "color", D [(KS "color_set", VInt (0)); (KS "color_position", VInt (0)); (KS "color_stagger", VInt (0))]); (KS "device_id", VInt (9)); (KS "value", VInt (0))]); (KI 510, D [(KS "circuit_id", VInt (510)); (KS "name", S_ "Spillway"); (KS "configuration", D [(KS "name_index", VInt (78)); (KS "flags", VInt (0)); (KS "default_runtime", VInt (720)); (KS "unknown_at_offset_334", VInt (0)); (KS "unknown_at_offset_335", VInt (0)); (KS "delay", VInt (0))]); (KS "function", VInt (14)); (KS "interface", VInt (2)); (KS "color", D [(KS "color_set", VInt (0)); (KS "color_position", VInt (0)); (KS "color_stagger", VInt (0))]); (KS "device_id", VInt (11)); (KS "value", VInt (0))]); (KI 511, D [(KS "circuit_id", VInt (511)); (KS "name", S_ "Pool High"); (KS "configuration", D [(KS "name_index", VInt (61)); (KS "flags", VInt (0)); (KS "default_runtime", VInt (720)); (KS "unknown_at_offset_366", VInt (0)); (KS "unknown_at_offset_367", VInt (0)); (KS "delay", VInt (0))]); (KS "function", VInt (0)); (KS "interface", VInt (5)); (KS "color", D [(KS "color_set", VInt (0)); (KS "color_position", VInt (0)); (KS "color_stagger", VInt (0))]); (KS "device_id", VInt (12)); (KS "value", VInt (0))])]); (KS "pump", D [(KI 0, D [(KS "data", VInt (70)); (KS "type", VInt (3)); (KS "state", D [(KS "name", S_ "Pool Low Pump"); (KS "value", VInt (1))]); (KS "watts_now", D [(KS "name", S_ "Pool Low Pump Watts Now"); (KS "value", VInt (1279)); (KS "unit", S_ "W"); (KS "device_type", S_ "power"); (KS "state_type", S_ "measurement")]); (KS "rpm_now", D [(KS "name", S_ "Pool Low Pump RPM Now"); (KS "value", VInt (2741)); (KS "unit", S_ "rpm"); (KS "state_type", S_ "measurement")]); (KS "unknown_at_offset_16", VInt (0)); (KS "gpm_now", D [(KS "name", S_ "Pool Low Pump GPM Now"); (KS "value", VInt (62)); (KS "unit", S_ "gpm"); (KS "state_type", S_ "measurement")]); (KS "unknown_at_offset_24", VInt (255)); (KS "preset", D [(KI 0, D [(KS "device_id", VInt (6)); (KS "setpoint", VInt (63)); (KS "is_rpm", VInt (0))]); (KI 1, D [(KS "device_id", VInt (9)); (KS "setpoint", VInt (72)); (KS "is_rpm", VInt (0))]); (KI 2, D [(KS "device_id", VInt (1)); (KS "setpoint", VInt (3450)); (KS "is_rpm", VInt (1))]); (KI 3, D [(KS "device_id", VInt (130)); (KS "setpoint", VInt (75)); (KS "is_rpm", VInt (0))]); (KI 4, D [(KS "device_id", VInt (12)); (KS "setpoint", VInt (72)); (KS "is_rpm", VInt (0))]); (KI 5, D [(KS "device_id", VInt (0)); (KS "setpoint", VInt (30)); (KS "is_rpm", VInt (0))]); (KI 6, D [(KS "device_id", VInt (0)); (KS "setpoint", VInt (30)); (KS "is_rpm", VInt (0))]); (KI 7, D [(KS "device_id", VInt (0)); (KS "setpoint", VInt (30)); (KS "is_rpm", VInt (0))])])]); (KI 1, D [(KS "data", VInt (66)); (KS "type", VInt (3)); (KS "state", D [(KS "name", S_ "Waterfall Pump"); (KS "value", VInt (0))]); (KS "watts_now", D [(KS "name", S_ "Waterfall Pump Watts Now"); (KS "value", VInt (0)); (KS "unit", S_ "W"); (KS "device_type", S_ "power"); (KS "state_type", S_ "measurement")]); (KS "rpm_now", D [(KS "name", S_ "Waterfall Pump RPM Now"); (KS "value", VInt (0)); (KS "unit", S_ "rpm"); (KS "state_type", S_ "measurement")]); (KS "unknown_at_offset_16", VInt (0)); (KS "gpm_now", D [(KS "name", S_ "Waterfall Pump GPM Now"); (KS "value", VInt (0)); (KS "unit", S_ "gpm"); (KS "state_type", S_ "measurement")]); (KS "unknown_at_offset_24", VInt (255)); (KS "preset", D [(KI 0, D [(KS "device_id", VInt (2)); (KS "setpoint", VInt (2700)); (KS "is_rpm", VInt (1))]); (KI 1, D [(KS "device_id", VInt (0)); (KS "setpoint", VInt (30)); (KS "is_rpm", VInt (0))]); (KI 2, D [(KS "device_id", VInt (0)); (KS "setpoint", VInt (30)); (KS "is_rpm", VInt (0))]); (KI 3, D [(KS "device_id", VInt (0)); (KS "setpoint", VInt (30)); (KS "is_rpm", VInt (0))]); (KI 4, D [(KS "device_id", VInt (0)); (KS "setpoint", VInt (30)); (KS "is_rpm", VInt (0))]); (KI 5, D [(KS "device_id", VInt (0)); (KS "setpoint", VInt (30)); (KS "is_rpm", VInt (0))]); (KI 6, D [(KS "device_id", VInt (0)); (KS "setpoint", VInt (30)); (KS "is_rpm", VInt (0))]); (KI 7, D [(KS "device_id", VInt (0)); (KS "setpoint", VInt (30)); (KS "is_rpm", VInt (0))])])]); (KI 2, D [(KS "data", VInt (0))]); (KI 3, D [(KS "data", VInt (0))]); (KI 4, D [(KS "data", VInt (0))]); (KI 5, D [(KS "data", VInt (0))]); (KI 6, D [(KS "data", VInt (0))]); (KI 7, D [(KS "data", VInt (0))])]); (KS "body", D [(KI 0, D [(KS "body_type", VInt (0)); (KS "min_setpoint", VInt (40)); (KS "max_setpoint", VInt (104)); (KS "name", S_ "Pool"); (KS "last_temperature", D [(KS "name", S_ "Last Pool Temperature"); (KS "value", VInt (57)); (KS "unit", VStr [176; 70]); (KS "device_type", S_ "temperature"); (KS "state_type", S_ "measurement")]); (KS "heat_state", D [(KS "name", S_ "Pool Heat"); (KS "value", VInt (0)); (KS "device_type", S_ "enum"); (KS "enum_options", VList [S_ "Off"; S_ "Solar"; S_ "Heater"; S_ "Both"])]); (KS "heat_setpoint", D [(KS "name", S_ "Pool Heat Set Point"); (KS "value", VInt (83)); (KS "unit", VStr [176; 70]); (KS "device_type", S_ "temperature")]); (KS "cool_setpoint", D [(KS "name", S_ "Pool Cool Set Point"); (KS "value", VInt (100)); (KS "unit", VStr [176; 70]); (KS "device_type", S_ "temperature")]); (KS "heat_mode", D [(KS "name", S_ "Pool Heat Mode"); (KS "value", VInt (0)); (KS "device_type", S_ "enum"); (KS "enum_options", VList [S_ "Off"; S_ "Solar"; S_ "Solar Preferred"; S_ "Heater"; S_ "Don't Change"])])]); (KI 1, D [(KS "body_type", VInt (1)); (KS "min_setpoint", VInt (40)); (KS "max_setpoint", VInt (104)); (KS "name", S_ "Spa"); (KS "last_temperature", D [(KS "name", S_ "Last Spa Temperature"); (KS "value", VInt (59)); (KS "unit", VStr [176; 70]); (KS "device_type", S_ "temperature"); (KS "state_type", S_ "measurement")]); (KS "heat_state", D [(KS "name", S_ "Spa Heat"); (KS "value", VInt (0)); (KS "device_type", S_ "enum"); (KS "enum_options", VList [S_ "Off"; S_ "Solar"; S_ "Heater"; S_ "Both"])]); (KS "heat_setpoint", D [(KS "name", S_ "Spa Heat Set Point"); (KS "value", VInt (95)); (KS "unit", VStr [176; 70]); (KS "device_type", S_ "temperature")]); (KS "cool_setpoint", D [(KS "name", S_ "Spa Cool Set Point"); (KS "value", VInt (48)); (KS "unit", VStr [176; 70]); (KS "device_type", S_ "temperature")]); (KS "heat_mode", D [(KS "name", S_ "Spa Heat Mode"); (KS "value", VInt (3)); (KS "device_type", S_ "enum"); (KS "enum_options", VList [S_ "Off"; S_ "Solar"; S_ "Solar Preferred"; S_ "Heater"; S_ "Don't Change"])])])]); (KS "intellichem", D [(KS "unknown_at_offset_00", VInt (42)); (KS "unknown_at_offset_04", VInt (0)); (KS "sensor", D [(KS "ph_now", D [(KS "name", S_ "pH Now"); (KS "value", VFloat (S754_zero false)); (KS "unit", S_ "pH"); (KS "state_type", S_ "measurement")]); (KS "orp_now", D [(KS "name", S_ "ORP Now"); (KS "value", VInt (0)); (KS "unit", S_ "mV"); (KS "state_type", S_ "measurement")]); (KS "ph_supply_level", D [(KS "name", S_ "pH Supply Level"); (KS "value", VInt (7)); (KS "state_type", S_ "measurement")]); (KS "orp_supply_level", D [(KS "name", S_ "ORP Supply Level"); (KS "value", VInt (4)); (KS "state_type", S_ "measurement")]); (KS "saturation", D [(KS "name", S_ "Saturation Index"); (KS "value", F true 7385903388887613 (-54)); (KS "unit", S_ "lsi"); (KS "state_type", S_ "measurement")]); (KS "ph_probe_water_temp", D [(KS "name", S_ "pH Probe Water Temperature"); (KS "value", VInt (57)); (KS "unit", VStr [176; 70]); (KS "device_type", S_ "temperature"); (KS "state_type", S_ "measurement")])]); (KS "configuration", D [(KS "ph_setpoint", D [(KS "name", S_ "pH Setpoint"); (KS "value", F false 8556839292003942 (-50)); (KS "unit", S_ "pH"); (KS "min_setpoint", F false 8106479329266893 (-50)); (KS "max_setpoint", F false 8556839292003942 (-50))]); (KS "orp_setpoint", D [(KS "name", S_ "ORP Setpoint"); (KS "value", VInt (720)); (KS "unit", S_ "mV"); (KS "min_setpoint", VInt (400)); (KS "max_setpoint", VInt (800))]); (KS "calcium_hardness", D [(KS "name", S_ "Calcium Hardness"); (KS "value", VInt (800)); (KS "unit", S_ "ppm"); (KS "min_setpoint", VInt (25)); (KS "max_setpoint", VInt (800))]); (KS "cya", D [(KS "name", S_ "Cyanuric Acid"); (KS "value", VInt (45)); (KS "unit", S_ "ppm"); (KS "min_setpoint", VInt (0)); (KS "max_setpoint", VInt (201))]); (KS "total_alkalinity", D [(KS "name", S_ "Total Alkalinity"); (KS "value", VInt (35)); (KS "unit", S_ "ppm"); (KS "min_setpoint", VInt (25)); (KS "max_setpoint", VInt (800))]); (KS "salt_tds_ppm", D [(KS "name", S_ "Salt/TDS"); (KS "value", VInt (1000)); (KS "unit", S_ "ppm"); (KS "min_setpoint", VInt (500)); (KS "max_setpoint", VInt (6500))]); (KS "probe_is_celsius", VInt (0)); (KS "flags", VInt (32))]); (KS "dose_status", D [(KS "ph_last_dose_time", D [(KS "name", S_ "Last pH Dose Time"); (KS "value", VInt (7)); (KS "unit", S_ "sec"); (KS "device_type", S_ "duration"); (KS "state_type", S_ "total_increasing")]); (KS "orp_last_dose_time", D [(KS "name", S_ "Last ORP Dose Time"); (KS "value", VInt (11)); (KS "unit", S_ "sec"); (KS "device_type", S_ "duration"); (KS "state_type", S_ "total_increasing")]); (KS "ph_last_dose_volume", D [(KS "name", S_ "Last pH Dose Volume"); (KS "value", VInt (12)); (KS "unit", S_ "mL"); (KS "device_type", S_ "volume"); (KS "state_type", S_ "total_increasing")]); (KS "orp_last_dose_volume", D [(KS "name", S_ "Last ORP Dose Volume"); (KS "value", VInt (24)); (KS "unit", S_ "mL"); (KS "device_type", S_ "volume"); (KS "state_type", S_ "total_increasing")]); (KS "flags", VInt (149)); (KS "ph_dosing_state", D [(KS "name", S_ "pH Dosing State"); (KS "value", VInt (1)); (KS "device_type", S_ "enum"); (KS "enum_options", VList [S_ "Dosing"; S_ "Mixing"; S_ "Monitoring"])]); (KS "orp_dosing_state", D [(KS "name", S_ "ORP Dosing State"); (KS "value", VInt (2)); (KS "device_type", S_ "enum"); (KS "enum_options", VList [S_ "Dosing"; S_ "Mixing"; S_ "Monitoring"])])]); (KS "alarm", D [(KS "flags", VInt (1)); (KS "flow_alarm", D [(KS "name", S_ "Flow Alarm"); (KS "value", VInt (1)); (KS "device_type", S_ "alarm")]); (KS "ph_high_alarm", D [(KS "name", S_ "pH HIGH Alarm"); (KS "value", VInt (0)); (KS "device_type", S_ "alarm")]); (KS "ph_low_alarm", D [(KS "name", S_ "pH LOW Alarm"); (KS "value", VInt (0)); (KS "device_type", S_ "alarm")]); (KS "orp_high_alarm", D [(KS "name", S_ "ORP HIGH Alarm"); (KS "value", VInt (0)); (KS "device_type", S_ "alarm")]); (KS "orp_low_alarm", D [(KS "name", S_ "ORP LOW Alarm"); (KS "value", VInt (0)); (KS "device_type", S_ "alarm")]); (KS "ph_supply_alarm", D [(KS "name", S_ "pH Supply Alarm"); (KS "value", VInt (0)); (KS "device_type", S_ "alarm")]); (KS "orp_supply_alarm", D [(KS "name", S_ "ORP Supply Alarm"); (KS "value", VInt (0)); (KS "device_type", S_ "alarm")]); (KS "probe_fault_alarm", D [(KS "name", S_ "Probe Fault"); (KS "value", VInt (0)); (KS "device_type", S_ "alarm")])]); (KS "alert", D [(KS "flags", VInt (0)); (KS "ph_lockout", D [(KS "name", S_ "pH Lockout"); (KS "value", VInt (0))]); (KS "ph_limit", D [(KS "name", S_ "pH Dose Limit Reached"); (KS "value", VInt (0))]); (KS "orp_limit", D [(KS "name", S_ "ORP Dose Limit Reached"); (KS "value", VInt (0))])]); (KS "firmware", D [(KS "name", S_ "IntelliChem Firmware"); (KS "value", S_ "1.060"); (KS "major", VInt (1)); (KS "minor", VInt (60))]); (KS "water_balance", D [(KS "flags", VInt (1)); (KS "corrosive", D [(KS "name", S_ "SI Corrosive"); (KS "value", VInt (1)); (KS "device_type", S_ "alarm")]); (KS "scaling", D [(KS "name", S_ "SI Scaling"); (KS "value", VInt (0)); (KS "device_type", S_ "alarm")])]); (KS "unknown_at_offset_44", VInt (0)); (KS "unknown_at_offset_45", VInt (0)); (KS "unknown_at_offset_46", VInt (0))]); (KS "scg", D [(KS "scg_present", VInt (0)); (KS "sensor", D [(KS "state", D [(KS "name", S_ "Chlorinator"); (KS "value", VInt (0))]); (KS "salt_ppm", D [(KS "name", S_ "Chlorinator Salt"); (KS "value", VInt (0)); (KS "unit", S_ "ppm"); (KS "state_type", S_ "measurement")])]); (KS "configuration", D [(KS "pool_setpoint", D [(KS "name", S_ "Pool Chlorinator Setpoint"); (KS "value", VInt (70)); (KS "unit", S_ "%"); (KS "min_setpoint", VInt (0)); (KS "max_setpoint", VInt (100)); (KS "step", VInt (1)); (KS "body_type", VInt (0))]); (KS "spa_setpoint", D [(KS "name", S_ "Spa Chlorinator Setpoint"); (KS "value", VInt (0)); (KS "unit", S_ "%"); (KS "min_setpoint", VInt (0)); (KS "max_setpoint", VInt (100)); (KS "step", VInt (1)); (KS "body_type", VInt (1))]); (KS "super_chlor_timer", D [(KS "name", S_ "Super Chlorination Timer"); (KS "value", VInt (2)); (KS "unit", S_ "hr"); (KS "min_setpoint", VInt (0)); (KS "max_setpoint", VInt (72)); (KS "step", VInt (1))])]); (KS "flags", VInt (0)); (KS "super_chlorinate", D [(KS "name", S_ "Super Chlorinate"); (KS "value", VInt (0))])])].
Example fixture5 : (match run5 with (d, Ok tt) => pv_equiv 20 (VDict d) expect5 | _ => false end) = true.
Proof. vm_compute. reflexivity. Qed.

(** tests/data/slpy-0101_pool-52-build-7380-rel_intellitouch-i73_56.json *)
Definition fl6 (s : pystr) : option spec_float :=
  if pystr_eqb s (u "738.0") then (match F false 6491516650389504 (-43) with VFloat x => Some x | _ => None end) else if pystr_eqb s (u "5.2") then (match F false 5854679515581645 (-50) with VFloat x => Some x | _ => None end) else None.
Definition run6 : dict * res unit := (decode_version fl6 [25; 0; 0; 0; 80; 79; 79; 76; 58; 32; 53; 46; 50; 32; 66; 117; 105; 108; 100; 32; 55; 51; 56; 46; 48; 32; 82; 101; 108; 0; 0; 0; 2; 0; 0; 0; 5; 0; 0; 0; 2; 0; 0; 0; 2; 0; 0; 0; 2; 0; 0; 0; 12; 0; 0; 0] ;;;
  decode_pool_config [100; 0; 0; 0; 40; 104; 40; 104; 0; 1; 0; 0; 56; 0; 0; 0; 14; 0; 0; 0; 87; 97; 116; 101; 114; 32; 70; 101; 97; 116; 117; 114; 101; 115; 0; 0; 7; 0; 0; 0; 244; 1; 0; 0; 3; 0; 0; 0; 83; 112; 97; 0; 71; 1; 1; 1; 0; 0; 0; 1; 208; 2; 0; 0; 245; 1; 0; 0; 7; 0; 0; 0; 67; 108; 101; 97; 110; 101; 114; 0; 21; 5; 5; 0; 0; 0; 0; 2; 208; 2; 0; 0; 246; 1; 0; 0; 4; 0; 0; 0; 74; 101; 116; 115; 45; 0; 5; 0; 0; 0; 0; 3; 208; 2; 0; 0; 247; 1; 0; 0; 10; 0; 0; 0; 80; 111; 111; 108; 32; 76; 105; 103; 104; 116; 0; 0; 62; 16; 3; 0; 0; 0; 10; 4; 208; 2; 0; 0; 248; 1; 0; 0; 9; 0; 0; 0; 83; 112; 97; 32; 76; 105; 103; 104; 116; 0; 0; 0; 73; 16; 3; 0; 0; 1; 10; 5; 208; 2; 0; 0; 249; 1; 0; 0; 4; 0; 0; 0; 80; 111; 111; 108; 60; 2; 0; 1; 0; 0; 0; 6; 208; 2; 0; 0; 250; 1; 0; 0; 10; 0; 0; 0; 65; 105; 114; 32; 66; 108; 111; 119; 101; 114; 0; 0; 1; 0; 5; 0; 0; 0; 0; 7; 208; 2; 0; 0; 8; 0; 0; 0; 5; 0; 0; 0; 87; 104; 105; 116; 101; 0; 0; 0; 255; 0; 0; 0; 255; 0; 0; 0; 255; 0; 0; 0; 11; 0; 0; 0; 76; 105; 103; 104; 116; 32; 71; 114; 101; 101; 110; 0; 160; 0; 0; 0; 255; 0; 0; 0; 160; 0; 0; 0; 5; 0; 0; 0; 71; 114; 101; 101; 110; 0; 0; 0; 0; 0; 0; 0; 255; 0; 0; 0; 80; 0; 0; 0; 4; 0; 0; 0; 67; 121; 97; 110; 0; 0; 0; 0; 255; 0; 0; 0; 200; 0; 0; 0; 4; 0; 0; 0; 66; 108; 117; 101; 100; 0; 0; 0; 140; 0; 0; 0; 255; 0; 0; 0; 8; 0; 0; 0; 76; 97; 118; 101; 110; 100; 101; 114; 230; 0; 0; 0; 130; 0; 0; 0; 255; 0; 0; 0; 7; 0; 0; 0; 77; 97; 103; 101; 110; 116; 97; 0; 255; 0; 0; 0; 0; 0; 0; 0; 128; 0; 0; 0; 13; 0; 0; 0; 76; 105; 103; 104; 116; 32; 77; 97; 103; 101; 110; 116; 97; 0; 0; 0; 255; 0; 0; 0; 180; 0; 0; 0; 210; 0; 0; 0; 134; 131; 0; 0; 0; 0; 0; 0; 127; 0; 0; 0; 1; 0; 0; 0] ;;;
  decode_pool_status [1; 0; 0; 0; 0; 0; 0; 0; 0; 0; 0; 0; 91; 0; 0; 0; 2; 0; 0; 0; 0; 0; 0; 0; 86; 0; 0; 0; 0; 0; 0; 0; 85; 0; 0; 0; 100; 0; 0; 0; 0; 0; 0; 0; 1; 0; 0; 0; 84; 0; 0; 0; 0; 0; 0; 0; 102; 0; 0; 0; 91; 0; 0; 0; 3; 0; 0; 0; 7; 0; 0; 0; 244; 1; 0; 0; 0; 0; 0; 0; 0; 0; 0; 0; 245; 1; 0; 0; 0; 0; 0; 0; 0; 0; 0; 0; 246; 1; 0; 0; 0; 0; 0; 0; 0; 0; 0; 0; 247; 1; 0; 0; 0; 0; 0; 0; 0; 0; 10; 0; 248; 1; 0; 0; 0; 0; 0; 0; 0; 1; 10; 0; 249; 1; 0; 0; 1; 0; 0; 0; 0; 0; 0; 0; 250; 1; 0; 0; 0; 0; 0; 0; 0; 0; 0; 0; 0; 0; 0; 0; 0; 0; 0; 0; 0; 0; 0; 0; 0; 0; 0; 0; 0; 0; 0; 0; 0; 0; 0; 0; 0; 0; 0; 0] ;;;
  decode_pump_status [2; 0; 0; 0; 1; 0; 0; 0; 63; 0; 0; 0; 26; 4; 0; 0; 0; 0; 0; 0; 255; 0; 0; 0; 255; 0; 0; 0; 6; 0; 0; 0; 26; 4; 0; 0; 1; 0; 0; 0; 1; 0; 0; 0; 58; 7; 0; 0; 1; 0; 0; 0; 2; 0; 0; 0; 220; 5; 0; 0; 1; 0; 0; 0; 0; 0; 0; 0; 232; 3; 0; 0; 1; 0; 0; 0; 0; 0; 0; 0; 232; 3; 0; 0; 1; 0; 0; 0; 0; 0; 0; 0; 232; 3; 0; 0; 1; 0; 0; 0; 0; 0; 0; 0; 232; 3; 0; 0; 1; 0; 0; 0; 0; 0; 0; 0; 232; 3; 0; 0; 1; 0; 0; 0] 0 ;;;
  decode_pump_status [2; 0; 0; 0; 0; 0; 0; 0; 0; 0; 0; 0; 0; 0; 0; 0; 0; 0; 0; 0; 0; 0; 0; 0; 255; 0; 0; 0; 3; 0; 0; 0; 154; 11; 0; 0; 1; 0; 0; 0; 0; 0; 0; 0; 232; 3; 0; 0; 1; 0; 0; 0; 0; 0; 0; 0; 232; 3; 0; 0; 1; 0; 0; 0; 0; 0; 0; 0; 232; 3; 0; 0; 1; 0; 0; 0; 0; 0; 0; 0; 232; 3; 0; 0; 1; 0; 0; 0; 0; 0; 0; 0; 232; 3; 0; 0; 1; 0; 0; 0; 0; 0; 0; 0; 232; 3; 0; 0; 1; 0; 0; 0; 0; 0; 0; 0; 232; 3; 0; 0; 1; 0; 0; 0] 1 ;;;
  decode_chemistry [42; 0; 0; 0; 0; 0; 0; 0; 0; 0; 0; 0; 0; 0; 0; 0; 0; 0; 0; 0; 0; 0; 0; 0; 0; 0; 0; 0; 0; 0; 0; 0; 0; 0; 0; 0; 0; 0; 0; 0; 0; 0; 0; 0; 0; 0; 0; 0] ;;;
  decode_scg_config [0; 0; 0; 0; 1; 0; 0; 0; 50; 0; 0; 0; 0; 0; 0; 0; 0; 0; 0; 0; 0; 0; 0; 0; 0; 0; 0; 0])%dm [].
Definition expect6 : pv := D [(KS "adapter", D [(KS "firmware", D [(KS "name", S_ "Protocol Adapter Firmware"); (KS "value", S_ "POOL: 5.2 Build 738.0 Rel"); (KS "major", F false 5854679515581645 (-50)); (KS "minor", F false 6491516650389504 (-43))])]); (KS "controller", D [(KS "controller_id", VInt (100)); (KS "configuration", D [(KS "body_type", D [(KI 0, D [(KS "min_setpoint", VInt (40)); (KS "max_setpoint", VInt (104))]); (KI 1, D [(KS "min_setpoint", VInt (40)); (KS "max_setpoint", VInt (104))])]); (KS "is_celsius", D [(KS "name", S_ "Is Celsius"); (KS "value", VInt (0))]); (KS "controller_type", VInt (1)); (KS "hardware_type", VInt (0)); (KS "controller_data", VInt (0)); (KS "generic_circuit_name", S_ "Water Features"); (KS "circuit_count", VInt (7)); (KS "color_count", VInt (8)); (KS "color", VList [D [(KS "name", S_ "White"); (KS "value", VList [VInt (255); VInt (255); VInt (255)])]; D [(KS "name", S_ "Light Green"); (KS "value", VList [VInt (160); VInt (255); VInt (160)])]; D [(KS "name", S_ "Green"); (KS "value", VList [VInt (0); VInt (255); VInt (80)])]; D [(KS "name", S_ "Cyan"); (KS "value", VList [VInt (0); VInt (255); VInt (200)])]; D [(KS "name", S_ "Blue"); (KS "value", VList [VInt (100); VInt (140); VInt (255)])]; D [(KS "name", S_ "Lavender"); (KS "value", VList [VInt (230); VInt (130); VInt (255)])]; D [(KS "name", S_ "Magenta"); (KS "value", VList [VInt (255); VInt (0); VInt (128)])]; D [(KS "name", S_ "Light Magenta"); (KS "value", VList [VInt (255); VInt (180); VInt (210)])]]); (KS "interface_tab_flags", VInt (127)); (KS "show_alarms", VInt (1)); (KS "remotes", VInt (0)); (KS "unknown_at_offset_09", VInt (0)); (KS "unknown_at_offset_10", VInt (0)); (KS "unknown_at_offset_11", VInt (0))]); (KS "model", D [(KS "name", S_ "Model"); (KS "value", S_ "IntelliTouch i7+3")]); (KS "equipment", D [(KS "flags", VInt (56)); (KS "list", VList [S_ "INTELLIBRITE"; S_ "INTELLIFLO_0"; S_ "INTELLIFLO_1"])]); (KS "sensor", D [(KS "state", D [(KS "name", S_ "Controller State"); (KS "value", VInt (1)); (KS "device_type", S_ "enum"); (KS "enum_options", VList [S_ "Unknown"; S_ "Ready"; S_ "Sync"; S_ "Service"])]); (KS "freeze_mode", D [(KS "name", S_ "Freeze Mode"); (KS "value", VInt (0))]); (KS "pool_delay", D [(KS "name", S_ "Pool Delay"); (KS "value", VInt (0))]); (KS "spa_delay", D [(KS "name", S_ "Spa Delay"); (KS "value", VInt (0))]); (KS "cleaner_delay", D [(KS "name", S_ "Cleaner Delay"); (KS "value", VInt (0))]); (KS "air_temperature", D [(KS "name", S_ "Air Temperature"); (KS "value", VInt (91)); (KS "unit", VStr [176; 70]); (KS "device_type", S_ "temperature"); (KS "state_type", S_ "measurement")]); (KS "ph", D [(KS "name", S_ "pH"); (KS "value", VFloat (S754_zero false)); (KS "unit", S_ "pH"); (KS "state_type", S_ "measurement")]); (KS "orp", D [(KS "name", S_ "ORP"); (KS "value", VInt (0)); (KS "unit", S_ "mV"); (KS "state_type", S_ "measurement")]); (KS "saturation", D [(KS "name", S_ "Saturation Index"); (KS "value", VFloat (S754_zero false)); (KS "unit", S_ "lsi"); (KS "state_type", S_ "measurement")]); (KS "salt_ppm", D [(KS "name", S_ "Salt"); (KS "value", VInt (0)); (KS "unit", S_ "ppm"); (KS "state_type", S_ "measurement")]); (KS "ph_supply_level", D [(KS "name", S_ "pH Supply Level"); (KS "value", VInt (0)); (KS "state_type", S_ "measurement")]); (KS "orp_supply_level", D [(KS "name", S_ "ORP Supply Level"); (KS "value", VInt (0)); (KS "state_type", S_ "measurement")]); (KS "active_alert", D [(KS "name", S_ "Active Alert"); (KS "value", VInt (0)); (KS "device_type", S_ "alarm")])])]); (KS "circuit", D [(KI 500, D [(KS "circuit_id", VInt (500)); (KS "name", S_ "Spa"); (KS "configuration", D [(KS "name_index", VInt (71)); (KS "flags", VInt (1)); (KS "default_runtime", VInt (720)); (KS "unknown_at_offset_62", VInt (0)); (KS "unknown_at_offset_63", VInt (0)); (KS "delay", VInt (0))]); (KS "function", VInt (1)); (KS "interface", VInt (1)); (KS "color", D [(KS "color_set", VInt (0)); (KS "color_position", VInt (0)); (KS "color_stagger", VInt (0))]); (KS "device_id", VInt (1)); (KS "value", VInt (0))]); (KI 501, D [(KS "circuit_id", VInt (501)); (KS "name", S_ "Cleaner"); (KS "configuration", D [(KS "name_index", VInt (21)); (KS "flags", VInt (0)); (KS "default_runtime", VInt (720)); (KS "unknown_at_offset_90", VInt (0)); (KS "unknown_at_offset_91", VInt (0)); (KS "delay", VInt (0))]); (KS "function", VInt (5)); (KS "interface", VInt (5)); (KS "color", D [(KS "color_set", VInt (0)); (KS "color_position", VInt (0)); (KS "color_stagger", VInt (0))]); (KS "device_id", VInt (2)); (KS "value", VInt (0))]); (KI 502, D [(KS "circuit_id", VInt (502)); (KS "name", S_ "Jets"); (KS "configuration", D [(KS "name_index", VInt (45)); (KS "flags", VInt (0)); (KS "default_runtime", VInt (720)); (KS "unknown_at_offset_114", VInt (0)); (KS "unknown_at_offset_115", VInt (0)); (KS "delay", VInt (0))]); (KS "function", VInt (0)); (KS "interface", VInt (5)); (KS "color", D [(KS "color_set", VInt (0)); (KS "color_position", VInt (0)); (KS "color_stagger", VInt (0))]); (KS "device_id", VInt (3)); (KS "value", VInt (0))]); (KI 503, D [(KS "circuit_id", VInt (503)); (KS "name", S_ "Pool Light"); (KS "configuration", D [(KS "name_index", VInt (62)); (KS "flags", VInt (0)); (KS "default_runtime", VInt (720)); (KS "unknown_at_offset_146", VInt (0)); (KS "unknown_at_offset_147", VInt (0)); (KS "delay", VInt (0))]); (KS "function", VInt (16)); (KS "interface", VInt (3)); (KS "color", D [(KS "color_set", VInt (0)); (KS "color_position", VInt (0)); (KS "color_stagger", VInt (10))]); (KS "device_id", VInt (4)); (KS "value", VInt (0))]); (KI 504, D [(KS "circuit_id", VInt (504)); (KS "name", S_ "Spa Light"); (KS "configuration", D [(KS "name_index", VInt (73)); (KS "flags", VInt (0)); (KS "default_runtime", VInt (720)); (KS "unknown_at_offset_178", VInt (0)); (KS "unknown_at_offset_179", VInt (0)); (KS "delay", VInt (0))]); (KS "function", VInt (16)); (KS "interface", VInt (3)); (KS "color", D [(KS "color_set", VInt (0)); (KS "color_position", VInt (1)); (KS "color_stagger", VInt (10))]); (KS "device_id", VInt (5)); (KS "value", VInt (0))]); (KI 505, D [(KS "circuit_id", VInt (505)); (KS "name", S_ "Pool"); (KS "configuration", D [(KS "name_index", VInt (60)); (KS "flags", VInt (1)); (KS "default_runtime", VInt (720)); (KS "unknown_at_offset_202", VInt (0)); (KS "unknown_at_offset_203", VInt (0)); (KS "delay", VInt (0))]); (KS "function", VInt (2)); (KS "interface", VInt (0)); (KS "color", D [(KS "color_set", VInt (0)); (KS "color_position", VInt (0)); (KS "color_stagger", VInt (0))]); (KS "device_id", VInt (6)); (KS "value", VInt (1))]); (KI 506, D [(KS "circuit_id", VInt (506)); (KS "name", S_ "Air Blower"); (KS "configuration", D [(KS "name_index", VInt (1)); (KS "flags", VInt (0)); (KS "default_runtime", VInt (720)); (KS "unknown_at_offset_234", VInt (0)); (KS "unknown_at_offset_235", VInt (0)); (KS "delay", VInt (0))]); (KS "function", VInt (0)); (KS "interface", VInt (5)); (KS "color", D [(KS "color_set", VInt (0)); (KS "color_position", VInt (0)); (KS "color_stagger", VInt (0))]); (KS "device_id", VInt (7)); (KS "value", VInt (0))])]); (KS "pump", D [(KI 0, D [(KS "data", VInt (134)); (KS "type", VInt (2)); (KS "state", D [(KS "name", S_ "Pool Pump"); (KS "value", VInt (1))]); (KS "watts_now", D [(KS "name", S_ "Pool Pump Watts Now"); (KS "value", VInt (63)); (KS "unit", S_ "W"); (KS "device_type", S_ "power"); (KS "state_type", S_ "measurement")]); (KS "rpm_now", D [(KS "name", S_ "Pool Pump RPM Now"); (KS "value", VInt (1050)); (KS "unit", S_ "rpm"); (KS "state_type", S_ "measurement")]); (KS "unknown_at_offset_16", VInt (0)); (KS "gpm_now", D [(KS "name", S_ "Pool Pump GPM Now"); (KS "value", VInt (255)); (KS "unit", S_ "gpm"); (KS "state_type", S_ "measurement")]); (KS "unknown_at_offset_24", VInt (255)); (KS "preset", D [(KI 0, D [(KS "device_id", VInt (6)); (KS "setpoint", VInt (1050)); (KS "is_rpm", VInt (1))]); (KI 1, D [(KS "device_id", VInt (1)); (KS "setpoint", VInt (1850)); (KS "is_rpm", VInt (1))]); (KI 2, D [(KS "device_id", VInt (2)); (KS "setpoint", VInt (1500)); (KS "is_rpm", VInt (1))]); (KI 3, D [(KS "device_id", VInt (0)); (KS "setpoint", VInt (1000)); (KS "is_rpm", VInt (1))]); (KI 4, D [(KS "device_id", VInt (0)); (KS "setpoint", VInt (1000)); (KS "is_rpm", VInt (1))]); (KI 5, D [(KS "device_id", VInt (0)); (KS "setpoint", VInt (1000)); (KS "is_rpm", VInt (1))]); (KI 6, D [(KS "device_id", VInt (0)); (KS "setpoint", VInt (1000)); (KS "is_rpm", VInt (1))]); (KI 7, D [(KS "device_id", VInt (0)); (KS "setpoint", VInt (1000)); (KS "is_rpm", VInt (1))])])]); (KI 1, D [(KS "data", VInt (131)); (KS "type", VInt (2)); (KS "state", D [(KS "name", S_ "Jets Pump"); (KS "value", VInt (0))]); (KS "watts_now", D [(KS "name", S_ "Jets Pump Watts Now"); (KS "value", VInt (0)); (KS "unit", S_ "W"); (KS "device_type", S_ "power"); (KS "state_type", S_ "measurement")]); (KS "rpm_now", D [(KS "name", S_ "Jets Pump RPM Now"); (KS "value", VInt (0)); (KS "unit", S_ "rpm"); (KS "state_type", S_ "measurement")]); (KS "unknown_at_offset_16", VInt (0)); (KS "gpm_now", D [(KS "name", S_ "Jets Pump GPM Now"); (KS "value", VInt (0)); (KS "unit", S_ "gpm"); (KS "state_type", S_ "measurement")]); (KS "unknown_at_offset_24", VInt (255)); (KS "preset", D [(KI 0, D [(KS "device_id", VInt (3)); (KS "setpoint", VInt (2970)); (KS "is_rpm", VInt (1))]); (KI 1, D [(KS "device_id", VInt (0)); (KS "setpoint", VInt (1000)); (KS "is_rpm", VInt (1))]); (KI 2, D [(KS "device_id", VInt (0)); (KS "setpoint", VInt (1000)); (KS "is_rpm", VInt (1))]); (KI 3, D [(KS "device_id", VInt (0)); (KS "setpoint", VInt (1000)); (KS "is_rpm", VInt (1))]); (KI 4, D [(KS "device_id", VInt (0)); (KS "setpoint", VInt (1000)); (KS "is_rpm", VInt (1))]); (KI 5, D [(KS "device_id", VInt (0)); (KS "setpoint", VInt (1000)); (KS "is_rpm", VInt (1))]); (KI 6, D [(KS "device_id", VInt (0)); (KS "setpoint", VInt (1000)); (KS "is_rpm", VInt (1))]); (KI 7, D [(KS "device_id", VInt (0)); (KS "setpoint", VInt (1000)); (KS "is_rpm", VInt (1))])])]); (KI 2, D [(KS "data", VInt (0))]); (KI 3, D [(KS "data", VInt (0))]); (KI 4, D [(KS "data", VInt (0))]); (KI 5, D [(KS "data", VInt (0))]); (KI 6, D [(KS "data", VInt (0))]); (KI 7, D [(KS "data", VInt (0))])]); (KS "body", D [(KI 0, D [(KS "body_type", VInt (0)); (KS "min_setpoint", VInt (40)); (KS "max_setpoint", VInt (104)); (KS "name", S_ "Pool"); (KS "last_temperature", D [(KS "name", S_ "Last Pool Temperature"); (KS "value", VInt (86)); (KS "unit", VStr [176; 70]); (KS "device_type", S_ "temperature"); (KS "state_type", S_ "measurement")]); (KS "heat_state", D [(KS "name", S_ "Pool Heat"); (KS "value", VInt (0)); (KS "device_type", S_ "enum"); (KS "enum_options", VList [S_ "Off"; S_ "Solar"; S_ "Heater"; S_ "Both"])]); (KS "heat_setpoint", D [(KS "name", S_ "Pool Heat Set Point"); (KS "value", VInt (85)); (KS "unit", VStr [176; 70]); (KS "device_type", S_ "temperature")]); (KS "cool_setpoint", D [(KS "name", S_ "Pool Cool Set Point"); (KS "value", VInt (100)); (KS "unit", VStr [176; 70]); (KS "device_type", S_ "temperature")]); (KS "heat_mode", D [(KS "name", S_ "Pool Heat Mode"); (KS "value", VInt (0)); (KS "device_type", S_ "enum"); (KS "enum_options", VList [S_ "Off"; S_ "Solar"; S_ "Solar Preferred"; S_ "Heater"; S_ "Don't Change"])])]); (KI 1, D [(KS "body_type", VInt (1)); (KS "min_setpoint", VInt (40)); (KS "max_setpoint", VInt (104)); (KS "name", S_ "Spa"); (KS "last_temperature", D [(KS "name", S_ "Last Spa Temperature"); (KS "value", VInt (84)); (KS "unit", VStr [176; 70]); (KS "device_type", S_ "temperature"); (KS "state_type", S_ "measurement")]); (KS "heat_state", D [(KS "name", S_ "Spa Heat"); (KS "value", VInt (0)); (KS "device_type", S_ "enum"); (KS "enum_options", VList [S_ "Off"; S_ "Solar"; S_ "Heater"; S_ "Both"])]); (KS "heat_setpoint", D [(KS "name", S_ "Spa Heat Set Point"); (KS "value", VInt (102)); (KS "unit", VStr [176; 70]); (KS "device_type", S_ "temperature")]); (KS "cool_setpoint", D [(KS "name", S_ "Spa Cool Set Point"); (KS "value", VInt (91)); (KS "unit", VStr [176; 70]); (KS "device_type", S_ "temperature")]); (KS "heat_mode", D [(KS "name", S_ "Spa Heat Mode"); (KS "value", VInt (3)); (KS "device_type", S_ "enum"); (KS "enum_options", VList [S_ "Off"; S_ "Solar"; S_ "Solar Preferred"; S_ "Heater"; S_ "Don't Change"])])])]); (KS "intellichem", D [(KS "unknown_at_offset_00", VInt (42)); (KS "unknown_at_offset_04", VInt (0)); (KS "sensor", D [(KS "ph_now", D [(KS "name", S_ "pH Now"); (KS "value", VFloat (S754_zero false)); (KS "unit", S_ "pH"); (KS "state_type", S_ "measurement")]); (KS "orp_now", D [(KS "name", S_ "ORP Now"); (KS "value", VInt (0)); (KS "unit", S_ "mV"); (KS "state_type", S_ "measurement")]); (KS "ph_supply_level", D [(KS "name", S_ "pH Supply Level"); (KS "value", VInt (0)); (KS "state_type", S_ "measurement")]); (KS "orp_supply_level", D [(KS "name", S_ "ORP Supply Level"); (KS "value", VInt (0)); (KS "state_type", S_ "measurement")]); (KS "saturation", D [(KS "name", S_ "Saturation Index"); (KS "value", VFloat (S754_zero false)); (KS "unit", S_ "lsi"); (KS "state_type", S_ "measurement")]); (KS "ph_probe_water_temp", D [(KS "name", S_ "pH Probe Water Temperature"); (KS "value", VInt (0)); (KS "unit", VStr [176; 70]); (KS "device_type", S_ "temperature"); (KS "state_type", S_ "measurement")])]); (KS "configuration", D [(KS "ph_setpoint", D [(KS "name", S_ "pH Setpoint"); (KS "value", VFloat (S754_zero false)); (KS "unit", S_ "pH"); (KS "min_setpoint", F false 8106479329266893 (-50)); (KS "max_setpoint", F false 8556839292003942 (-50))]); (KS "orp_setpoint", D [(KS "name", S_ "ORP Setpoint"); (KS "value", VInt (0)); (KS "unit", S_ "mV"); (KS "min_setpoint", VInt (400)); (KS "max_setpoint", VInt (800))]); (KS "calcium_hardness", D [(KS "name", S_ "Calcium Hardness"); (KS "value", VInt (0)); (KS "unit", S_ "ppm"); (KS "min_setpoint", VInt (25)); (KS "max_setpoint", VInt (800))]); (KS "cya", D [(KS "name", S_ "Cyanuric Acid"); (KS "value", VInt (0)); (KS "unit", S_ "ppm"); (KS "min_setpoint", VInt (0)); (KS "max_setpoint", VInt (201))]); (KS "total_alkalinity", D [(KS "name", S_ "Total Alkalinity"); (KS "value", VInt (0)); (KS "unit", S_ "ppm"); (KS "min_setpoint", VInt (25)); (KS "max_setpoint", VInt (800))]); (KS "salt_tds_ppm", D [(KS "name", S_ "Salt/TDS"); (KS "value", VInt (0)); (KS "unit", S_ "ppm"); (KS "min_setpoint", VInt (500)); (KS "max_setpoint", VInt (6500))]); (KS "probe_is_celsius", VInt (0)); (KS "flags", VInt (0))]); (KS "dose_status", D [(KS "ph_last_dose_time", D [(KS "name", S_ "Last pH Dose Time"); (KS "value", VInt (0)); (KS "unit", S_ "sec"); (KS "device_type", S_ "duration"); (KS "state_type", S_ "total_increasing")]); (KS "orp_last_dose_time", D [(KS "name", S_ "Last ORP Dose Time"); (KS "value", VInt (0)); (KS "unit", S_ "sec"); (KS "device_type", S_ "duration"); (KS "state_type", S_ "total_increasing")]); (KS "ph_last_dose_volume", D [(KS "name", S_ "Last pH Dose Volume"); (KS "value", VInt (0)); (KS "unit", S_ "mL"); (KS "device_type", S_ "volume"); (KS "state_type", S_ "total_increasing")]); (KS "orp_last_dose_volume", D [(KS "name", S_ "Last ORP Dose Volume"); (KS "value", VInt (0)); (KS "unit", S_ "mL"); (KS "device_type", S_ "volume"); (KS "state_type", S_ "total_increasing")]); (KS "flags", VInt (0)); (KS "ph_dosing_state", D [(KS "name", S_ "pH Dosing State"); (KS "value", VInt (0)); (KS "device_type", S_ "enum"); (KS "enum_options", VList [S_ "Dosing"; S_ "Mixing"; S_ "Monitoring"])]); (KS "orp_dosing_state", D [(KS "name", S_ "ORP Dosing State"); (KS "value", VInt (0)); (KS "device_type", S_ "enum"); (KS "enum_options", VList [S_ "Dosing"; S_ "Mixing"; S_ "Monitoring"])])]); (KS "alarm", D [(KS "flags", VInt (0)); (KS "flow_alarm", D [(KS "name", S_ "Flow Alarm"); (KS "value", VInt (0)); (KS "device_type", S_ "alarm")]); (KS "ph_high_alarm", D [(KS "name", S_ "pH HIGH Alarm"); (KS "value", VInt (0)); (KS "device_type", S_ "alarm")]); (KS "ph_low_alarm", D [(KS "name", S_ "pH LOW Alarm"); (KS "value", VInt (0)); (KS "device_type", S_ "alarm")]); (KS "orp_high_alarm", D [(KS "name", S_ "ORP HIGH Alarm"); (KS "value", VInt (0)); (KS "device_type", S_ "alarm")]); (KS "orp_low_alarm", D [(KS "name", S_ "ORP LOW Alarm"); (KS "value", VInt (0)); (KS "device_type", S_ "alarm")]); (KS "ph_supply_alarm", D [(KS "name", S_ "pH Supply Alarm"); (KS "value", VInt (0)); (KS "device_type", S_ "alarm")]); (KS "orp_supply_alarm", D [(KS "name", S_ "ORP Supply Alarm"); (KS "value", VInt (0)); (KS "device_type", S_ "alarm")]); (KS "probe_fault_alarm", D [(KS "name", S_ "Probe Fault"); (KS "value", VInt (0)); (KS "device_type", S_ "alarm")])]); (KS "alert", D [(KS "flags", VInt (0)); (KS "ph_lockout", D [(KS "name", S_ "pH Lockout"); (KS "value", VInt (0))]); (KS "ph_limit", D [(KS "name", S_ "pH Dose Limit Reached"); (KS "value", VInt (0))]); (KS "orp_limit", D [(KS "name", S_ "ORP Dose Limit Reached"); (KS "value", VInt (0))])]); (KS "firmware", D [(KS "name", S_ "IntelliChem Firmware"); (KS "value", S_ "0.000"); (KS "major", VInt (0)); (KS "minor", VInt (0))]); (KS "water_balance", D [(KS "flags", VInt (0)); (KS "corrosive", D [(KS "name", S_ "SI Corrosive"); (KS "value", VInt (0)); (KS "device_type", S_ "alarm")]); (KS "scaling", D [(KS "name", S_ "SI Scaling"); (KS "value", VInt (0)); (KS "device_type", S_ "alarm")])]); (KS "unknown_at_offset_44", VInt (0)); (KS "unknown_at_offset_45", VInt (0)); (KS "unknown_at_offset_46", VInt (0))]); (KS "scg", D [(KS "scg_present", VInt (0)); (KS "sensor", D [(KS "state", D [(KS "name", S_ "Chlorinator"); (KS "value", VInt (1))]); (KS "salt_ppm", D [(KS "name", S_ "Chlorinator Salt"); (KS "value", VInt (0)); (KS "unit", S_ "ppm"); (KS "state_type", S_ "measurement")])]); (KS "configuration", D [(KS "pool_setpoint", D [(KS "name", S_ "Pool Chlorinator Setpoint"); (KS "value", VInt (50)); (KS "unit", S_ "%"); (KS "min_setpoint", VInt (0)); (KS "max_setpoint", VInt (100)); (KS "step", VInt (1)); (KS "body_type", VInt (0))]); (KS "spa_setpoint", D [(KS "name", S_ "Spa Chlorinator Setpoint"); (KS "value", VInt (0)); (KS "unit", S_ "%"); (KS "min_setpoint", VInt (0)); (KS "max_setpoint", VInt (100)); (KS "step", VInt (1)); (KS "body_type", VInt (1))]); (KS "super_chlor_timer", D [(KS "name", S_ "Super Chlorination Timer"); (KS "value", VInt (0)); (KS "unit", S_ "hr"); (KS "min_setpoint", VInt (0)); (KS "max_setpoint", VInt (72)); (KS "step", VInt (1))])]); (KS "flags", VInt (0)); (KS "super_chlorinate", D [(KS "name", S_ "Super Chlorinate"); (KS "value", VInt (0))])])].
Example fixture6 : (match run6 with (d, Ok tt) => pv_equiv 20 (VDict d) expect6 | _ => false end) = true.
Proof. vm_compute. reflexivity. Qed.

(** tests/data/slpy-0102_pool-52-build-7380-rel_easytouch2-8_32828.json *)
Definition fl7 (s : pystr) : option spec_float :=
  if pystr_eqb s (u "738.0") then (match F false 6491516650389504 (-43) with VFloat x => Some x | _ => None end) else if pystr_eqb s (u "5.2") then (match F false 5854679515581645 (-50) with VFloat x => Some x | _ => None end) else None.
Definition run7 : dict * res unit := (decode_version fl7 [25; 0; 0; 0; 80; 79; 79; 76; 58; 32; 53; 46; 50; 32; 66; 117; 105; 108; 100; 32; 55; 51; 56; 46; 48; 32; 82; 101; 108; 0; 0; 0; 2; 0; 0; 0; 5; 0; 0; 0; 2; 0; 0; 0; 2; 0; 0; 0; 2; 0; 0; 0; 12; 0; 0; 0] ;;;
  decode_pool_config [100; 0; 0; 0; 40; 104; 40; 104; 0; 13; 0; 0; 60; 128; 0; 0; 14; 0; 0; 0; 87; 97; 116; 101; 114; 32; 70; 101; 97; 116; 117; 114; 101; 115; 0; 0; 11; 0; 0; 0; 244; 1; 0; 0; 3; 0; 0; 0; 83; 112; 97; 0; 71; 1; 1; 1; 0; 0; 0; 1; 208; 2; 0; 0; 245; 1; 0; 0; 9; 0; 0; 0; 87; 97; 116; 101; 114; 102; 97; 108; 108; 0; 0; 0; 85; 0; 2; 0; 0; 0; 0; 2; 208; 2; 0; 0; 246; 1; 0; 0; 10; 0; 0; 0; 80; 111; 111; 108; 32; 76; 105; 103; 104; 116; 0; 0; 62; 16; 3; 0; 2; 0; 2; 3; 208; 2; 0; 0; 247; 1; 0; 0; 9; 0; 0; 0; 83; 112; 97; 32; 76; 105; 103; 104; 116; 0; 0; 0; 73; 16; 3; 0; 6; 1; 10; 4; 208; 2; 0; 0; 248; 1; 0; 0; 7; 0; 0; 0; 67; 108; 101; 97; 110; 101; 114; 0; 21; 5; 2; 0; 0; 0; 0; 5; 240; 0; 0; 0; 249; 1; 0; 0; 8; 0; 0; 0; 80; 111; 111; 108; 32; 76; 111; 119; 63; 2; 0; 1; 0; 0; 0; 6; 208; 2; 0; 0; 250; 1; 0; 0; 10; 0; 0; 0; 89; 97; 114; 100; 32; 76; 105; 103; 104; 116; 0; 0; 91; 7; 4; 0; 0; 0; 0; 7; 208; 2; 0; 0; 251; 1; 0; 0; 7; 0; 0; 0; 67; 97; 109; 101; 114; 97; 115; 0; 101; 0; 2; 0; 0; 0; 0; 8; 84; 6; 0; 0; 252; 1; 0; 0; 9; 0; 0; 0; 80; 111; 111; 108; 32; 72; 105; 103; 104; 0; 0; 0; 61; 0; 2; 0; 0; 0; 0; 9; 208; 2; 0; 0; 254; 1; 0; 0; 8; 0; 0; 0; 83; 112; 105; 108; 108; 119; 97; 121; 78; 14; 2; 0; 0; 0; 0; 11; 208; 2; 0; 0; 255; 1; 0; 0; 9; 0; 0; 0; 80; 111; 111; 108; 32; 72; 105; 103; 104; 0; 0; 0; 61; 0; 5; 0; 0; 0; 0; 12; 208; 2; 0; 0; 8; 0; 0; 0; 5; 0; 0; 0; 87; 104; 105; 116; 101; 0; 0; 0; 255; 0; 0; 0; 255; 0; 0; 0; 255; 0; 0; 0; 11; 0; 0; 0; 76; 105; 103; 104; 116; 32; 71; 114; 101; 101; 110; 0; 160; 0; 0; 0; 255; 0; 0; 0; 160; 0; 0; 0; 5; 0; 0; 0; 71; 114; 101; 101; 110; 0; 0; 0; 0; 0; 0; 0; 255; 0; 0; 0; 80; 0; 0; 0; 4; 0; 0; 0; 67; 121; 97; 110; 0; 0; 0; 0; 255; 0; 0; 0; 200; 0; 0; 0; 4; 0; 0; 0; 66; 108; 117; 101; 100; 0; 0; 0; 140; 0; 0; 0; 255; 0; 0; 0; 8; 0; 0; 0; 76; 97; 118; 101; 110; 100; 101; 114; 230; 0; 0; 0; 130; 0; 0; 0; 255; 0; 0; 0; 7; 0; 0; 0; 77; 97; 103; 101; 110; 116; 97; 0; 255; 0; 0; 0; 0; 0; 0; 0; 128; 0; 0; 0; 13; 0; 0; 0; 76; 105; 103; 104; 116; 32; 77; 97; 103; 101; 110; 116; 97; 0; 0; 0; 255; 0; 0; 0; 180; 0; 0; 0; 210; 0; 0; 0; 70; 66; 0; 0; 0; 0; 0; 0; 127; 0; 0; 0; 0; 0; 0; 0] ;;;
  decode_pool_status [1; 0; 0; 0; 0; 0; 0; 0; 0; 0; 0; 0; 79; 0; 0; 0; 2; 0; 0; 0; 0; 0; 0; 0; 71; 0; 0; 0; 0; 0; 0; 0; 78; 0; 0; 0; 100; 0; 0; 0; 0; 0; 0; 0; 1; 0; 0; 0; 90; 0; 0; 0; 0; 0; 0; 0; 97; 0; 0; 0; 79; 0; 0; 0; 3; 0; 0; 0; 11; 0; 0; 0; 244; 1; 0; 0; 0; 0; 0; 0; 0; 0; 0; 0; 245; 1; 0; 0; 0; 0; 0; 0; 0; 0; 0; 0; 246; 1; 0; 0; 0; 0; 0; 0; 2; 0; 2; 0; 247; 1; 0; 0; 0; 0; 0; 0; 6; 1; 10; 0; 248; 1; 0; 0; 0; 0; 0; 0; 0; 0; 0; 0; 249; 1; 0; 0; 0; 0; 0; 0; 0; 0; 0; 0; 250; 1; 0; 0; 0; 0; 0; 0; 0; 0; 0; 0; 251; 1; 0; 0; 1; 0; 0; 0; 0; 0; 0; 0; 252; 1; 0; 0; 0; 0; 0; 0; 0; 0; 0; 0; 254; 1; 0; 0; 0; 0; 0; 0; 0; 0; 0; 0; 255; 1; 0; 0; 0; 0; 0; 0; 0; 0; 0; 0; 115; 2; 0; 0; 164; 2; 0; 0; 157; 255; 255; 255; 0; 0; 0; 0; 7; 0; 0; 0; 4; 0; 0; 0; 1; 0; 0; 0] ;;;
  decode_pump_status [3; 0; 0; 0; 0; 0; 0; 0; 0; 0; 0; 0; 0; 0; 0; 0; 0; 0; 0; 0; 0; 0; 0; 0; 255; 0; 0; 0; 6; 0; 0; 0; 63; 0; 0; 0; 0; 0; 0; 0; 9; 0; 0; 0; 72; 0; 0; 0; 0; 0; 0; 0; 1; 0; 0; 0; 122; 13; 0; 0; 1; 0; 0; 0; 130; 0; 0; 0; 75; 0; 0; 0; 0; 0; 0; 0; 12; 0; 0; 0; 78; 0; 0; 0; 0; 0; 0; 0; 0; 0; 0; 0; 30; 0; 0; 0; 0; 0; 0; 0; 0; 0; 0; 0; 30; 0; 0; 0; 0; 0; 0; 0; 0; 0; 0; 0; 30; 0; 0; 0; 0; 0; 0; 0] 0 ;;;
  decode_pump_status [3; 0; 0; 0; 0; 0; 0; 0; 0; 0; 0; 0; 0; 0; 0; 0; 0; 0; 0; 0; 0; 0; 0; 0; 255; 0; 0; 0; 2; 0; 0; 0; 140; 10; 0; 0; 1; 0; 0; 0; 0; 0; 0; 0; 30; 0; 0; 0; 0; 0; 0; 0; 0; 0; 0; 0; 30; 0; 0; 0; 0; 0; 0; 0; 0; 0; 0; 0; 30; 0; 0; 0; 0; 0; 0; 0; 0; 0; 0; 0; 30; 0; 0; 0; 0; 0; 0; 0; 0; 0; 0; 0; 30; 0; 0; 0; 0; 0; 0; 0; 0; 0; 0; 0; 30; 0; 0; 0; 0; 0; 0; 0; 0; 0; 0; 0; 30; 0; 0; 0; 0; 0; 0; 0] 1 ;;;
  decode_chemistry [42; 0; 0; 0; 0; 0; 0; 0; 0; 2; 248; 2; 138; 0; 0; 0; 5; 0; 0; 0; 1; 0; 8; 0; 2; 7; 4; 157; 1; 95; 0; 45; 0; 80; 20; 0; 71; 5; 0; 165; 32; 60; 1; 1; 0; 0; 0; 0] ;;;
  decode_scg_config [40; 0; 0; 0; 1; 0; 0; 0; 50; 0; 0; 0; 20; 0; 0; 0; 0; 0; 0; 0; 0; 0; 0; 0; 24; 0; 0; 0] ;;;
  decode_date_time (match F false 7349982695043277 (-22) with VFloat x => x | _ => S754_nan end) [233; 7; 7; 0; 5; 0; 12; 0; 19; 0; 11; 0; 30; 0; 0; 0; 1; 0; 0; 0])%dm [].
Definition expect7 : pv := D [(KS "adapter", D [(KS "firmware", D [(KS "name", S_ "Protocol Adapter Firmware"); (KS "value", S_ "POOL: 5.2 Build 738.0 Rel"); (KS "major", F false 5854679515581645 (-50)); (KS "minor", F false 6491516650389504 (-43))])]); (KS "controller", D [(KS "controller_id", VInt (100)); (KS "configuration", D [(KS "body_type", D [(KI 0, D [(KS "min_setpoint", VInt (40)); (KS "max_setpoint", VInt (104))]); (KI 1, D [(KS "min_setpoint", VInt (40)); (KS "max_setpoint", VInt (104))])]); (KS "is_celsius", D [(KS "name", S_ "Is Celsius"); (KS "value", VInt (0))]); (KS "controller_type", VInt (13)); (KS "hardware_type", VInt (0)); (KS "controller_data", VInt (0)); (KS "generic_circuit_name", S_ "Water Features"); (KS "circuit_count", VInt (11)); (KS "color_count", VInt (8)); (KS "color", VList [D [(KS "name", S_ "White"); (KS "value", VList [VInt (255); VInt (255); VInt (255)])]; D [(KS "name", S_ "Light Green"); (KS "value", VList [VInt (160); VInt (255); VInt (160)])]; D [(KS "name", S_ "Green"); (KS "value", VList [VInt (0); VInt (255); VInt (80)])]; D [(KS "name", S_ "Cyan"); (KS "value", VList [VInt (0); VInt (255); VInt (200)])]; D [(KS "name", S_ "Blue"); (KS "value", VList [VInt (100); VInt (140); VInt (255)])]; D [(KS "name", S_ "Lavender"); (KS "value", VList [VInt (230); VInt (130); VInt (255)])]; D [(KS "name", S_ "Magenta"); (KS "value", VList [VInt (255); VInt (0); VInt (128)])]; D [(KS "name", S_ "Light Magenta"); (KS "value", VList [VInt (255); VInt (180); VInt (210)])]]); (KS "interface_tab_flags", VInt (127)); (KS "show_alarms", VInt (0)); (KS "remotes", VInt (0)); (KS "unknown_at_offset_09", VInt (0)); (KS "unknown_at_offset_10", VInt (0)); (KS "unknown_at_offset_11", VInt (0))]); (KS "model", D [(KS "name", S_ "Model"); (KS "value", S_ "EasyTouch2 8")]); (KS "equipment", D [(KS "flags", VInt (32828)); (KS "list", VList [S_ "CHLORINATOR"; S_ "INTELLIBRITE"; S_ "INTELLIFLO_0"; S_ "INTELLIFLO_1"; S_ "INTELLICHEM"])]); (KS "sensor", D [(KS "state", D [(KS "name", S_ "Controller State"); (KS "value", VInt (1)); (KS "device_type", S_ "enum"); (KS "enum_options", VList [S_ "Unknown"; S_ "Ready"; S_ "Sync"; S_ "Service"])]); (KS "freeze_mode", D [(KS "name", S_ "Freeze Mode"); (KS "value", VInt (0))]); (KS "pool_delay", D [(KS "name", S_ "Pool Delay"); (KS "value", VInt (0))]); (KS "spa_delay", D [(KS "name", S_ "Spa Delay"); (KS "value", VInt (0))]); (KS "cleaner_delay", D [(KS "name", S_ "Cleaner Delay"); (KS "value", VInt (0))]); (KS "air_temperature", D [(KS "name", S_ "Air Temperature"); (KS "value", VInt (79)); (KS "unit", VStr [176; 70]); (KS "device_type", S_ "temperature"); (KS "state_type", S_ "measurement")]); (KS "ph", D [(KS "name", S_ "pH"); (KS "value", F false 7059392415903252 (-50)); (KS "unit", S_ "pH"); (KS "state_type", S_ "measurement")]); (KS "orp", D [(KS "name", S_ "ORP"); (KS "value", VInt (676)); (KS "unit", S_ "mV"); (KS "state_type", S_ "measurement")]); (KS "saturation", D [(KS "name", S_ "Saturation Index"); (KS "value", F true 8917127262193582 (-53)); (KS "unit", S_ "lsi"); (KS "state_type", S_ "measurement")]); (KS "salt_ppm", D [(KS "name", S_ "Salt"); (KS "value", VInt (0)); (KS "unit", S_ "ppm"); (KS "state_type", S_ "measurement")]); (KS "ph_supply_level", D [(KS "name", S_ "pH Supply Level"); (KS "value", VInt (7)); (KS "state_type", S_ "measurement")]); (KS "orp_supply_level", D [(KS "name", S_ "ORP Supply Level"); (KS "value", VInt (4)); (KS "state_type", S_ "measurement")]); (KS "active_alert", D [(KS "name", S_ "Active Alert"); (KS "value", VInt (1)); (KS "device_type", S_ "alarm")])]); (KS "date_time", D [(KS "timestamp", F false 7349878086696960 (-22)); (KS "timestamp_host", F false 7349982695043277 (-22)); (KS "auto_dst", D [(KS "name", S_ "Automatic Daylight Saving Time"); (KS "value", VInt (1))])])]); (KS "circuit", D [(KI 500, D [(KS "circuit_id", VInt (500)); (KS "name", S_ "Spa"); (KS "configuration", D [(KS "name_index", VInt (71)); (KS "flags", VInt (1)); (KS "default_runtime", VInt (720)); (KS "unknown_at_offset_62", VInt (0)); (KS "unknown_at_offset_63", VInt (0)); (KS "delay", VInt (0))]); (KS "function", VInt (1)); (KS "interface", VInt (1)); (KS "color", D [(KS "color_set", VInt (0)); (KS "color_position", VInt (0)); (KS "color_stagger", VInt (0))]); (KS "device_id", VInt (1)); (KS "value", VInt (0))]); (KI 501, D [(KS "circuit_id", VInt (501)); (KS "name", S_ "Waterfall"); (KS "configuration", D [(KS "name_index", VInt (85)); (KS "flags", VInt (0)); (KS "default_runtime", VInt (720)); (KS "unknown_at_offset_94", VInt (0)); (KS "unknown_at_offset_95", VInt (0)); (KS "delay", VInt (0))]); (KS "function", VInt (0)); (KS "interface", VInt (2)); (KS "color", D [(KS "color_set", VInt (0)); (KS "color_position", VInt (0)); (KS "color_stagger", VInt (0))]); (KS "device_id", VInt (2)); (KS "value", VInt (0))]); (KI 502, D [(KS "circuit_id", VInt (502)); (KS "name", S_ "Pool Light"); (KS "configuration", D [(KS "name_index", VInt (62)); (KS "flags", VInt (0)); (KS "default_runtime", VInt (720)); (KS "unknown_at_offset_126", VInt (0)); (KS "unknown_at_offset_127", VInt (0)); (KS "delay", VInt (0))]); (KS "function", VInt (16)); (KS "interface", VInt (3)); (KS "color", D [(KS "color_set", VInt (2)); (KS "color_position", VInt (0)); (KS "color_stagger", VInt (2))]); (KS "device_id", VInt (3)); (KS "value", VInt (0))]); (KI 503, D [(KS "circuit_id", VInt (503)); (KS "name", S_ "Spa Light"); (KS "configuration", D [(KS "name_index", VInt (73)); (KS "flags", VInt (0)); (KS "default_runtime", VInt (720)); (KS "unknown_at_offset_158", VInt (0)); (KS "unknown_at_offset_159", VInt (0)); (KS "delay", VInt (0))]); (KS "function", VInt (16)); (KS "interface", VInt (3)); (KS "color", D [(KS "color_set", VInt (6)); (KS "color_position", VInt (1)); (KS "color_stagger", VInt (10))]); (KS "device_id", VInt (4)); (KS "value", VInt (0))]); (KI 504, D [(KS "circuit_id", VInt (504)); (KS "name", S_ "Cleaner"); (KS "configuration", D [(KS "name_index", VInt (21)); (KS "flags", VInt (0)); (KS "default_runtime", VInt (240)); (KS "unknown_at_offset_186", VInt (0)); (KS "unknown_at_offset_187", VInt (0)); (KS "delay", VInt (0))]); (KS "function", VInt (5)); (KS "interface", VInt (2)); (KS "color", D [(KS "color_set", VInt (0)); (KS "color_position", VInt (0)); (KS "color_stagger", VInt (0))]); (KS "device_id", VInt (5)); (KS "value", VInt (0))]); (KI 505, D [(KS "circuit_id", VInt (505)); (KS "name", S_ "Pool Low"); (KS "configuration", D [(KS "name_index", VInt (63)); (KS "flags", VInt (1)); (KS "default_runtime", VInt (720)); (KS "unknown_at_offset_214", VInt (0)); (KS "unknown_at_offset_215", VInt (0)); (KS "delay", VInt (0))]); (KS "function", VInt (2)); (KS "interface", VInt (0)); (KS "color", D [(KS "color_set", VInt (0)); (KS "color_position", VInt (0)); (KS "color_stagger", VInt (0))]); (KS "device_id", VInt (6)); (KS "value", VInt (0))]); (KI 506, D [(KS "circuit_id", VInt (506)); (KS "name", S_ "Yard Light"); (KS "configuration", D [(KS "name_index", VInt (91)); (KS "flags", VInt (0)); (KS "default_runtime", VInt (720)); (KS "unknown_at_offset_246", VInt (0)); (KS "unknown_at_offset_247", VInt (0)); (KS "delay", VInt (0))]); (KS "function", VInt (7)); (KS "interface", VInt (4)); (KS "color", D [(KS "color_set", VInt (0)); (KS "color_position", VInt (0)); (KS "color_stagger", VInt (0))]); (KS "device_id", VInt (7)); (KS "value", VInt (0))]); (KI 507, D [(KS "circuit_id", VInt (507)); (KS "name", S_ "Cameras"); (KS "configuration", D [(KS "name_index", VInt (101)); (KS "flags", VInt (0)); (KS "default_runtime", VInt (1620)); (KS "unknown_at_offset_274", VInt (0)); (KS "unknown_at_offset_275", VInt (0)); (KS "delay", VInt (0))]); (KS "function", VInt (0)); (KS "interface", VInt (2)); (KS "color", D [(KS "color_set", VInt (0)); (KS "color_position", VInt (0)); (KS "color_stagger", VInt (0))]); (KS "device_id", VInt (8)); (KS "value", VInt (1))]); (KI 508, D [(KS "circuit_id", VInt (508)); (KS "name", S_ "Pool High"); (KS "configuration", D [(KS "name_index", VInt (61)); (KS "flags", VInt (0)); (KS "default_runtime", VInt (720)); (KS "unknown_at_offset_306", VInt (0)); (KS "unknown_at_offset_307", VInt (0)); (KS "delay", VInt (0))]); (KS "function", VInt (0)); (KS "interface", VInt (2)); (KS "color", D [(KS "color_set", VInt (0)); (KS "color_position", VInt (0)); (KS "color_stagger", VInt (0))]); (KS "device_id", VInt (9)); (KS "value", VInt (0))]); (KI 510, D [(KS "circuit_id", VInt (510)); (KS "name", S_ "Spillway"); (KS "configuration", D [(KS "name_index", VInt (78)); (KS "flags", VInt (0)); (KS "default_runtime", VInt (720)); (KS "unknown_at_offset_334", VInt (0)); (KS "unknown_at_offset_335", VInt (0)); (KS "delay", VInt (0))]); (KS "function", VInt (14)); (KS "interface", VInt (2)); (KS "color", D [(KS "color_set", VInt (0)); (KS "color_position", VInt (0)); (KS "color_stagger", VInt (0))]); (KS "device_id", VInt (11)); (KS "value", VInt (0))]); (KI 511, D [(KS "circuit_id", VInt (511)); (KS "name", S_ "Pool High"); (KS "configuration", D [(KS "name_index", VInt (61)); (KS "flags", VInt (0)); (KS "default_runtime", VInt (720)); (KS "unknown_at_offset_366", VInt (0)); (KS "unknown_at_offset_367", VInt (0)); (KS "delay", VInt (0))]); (KS "function", VInt (0)); (KS "interface", VInt (5)); (KS "color", D [(KS "color_set", VInt (0)); (KS "color_position", VInt (0)); (KS "color_stagger", VInt (0))]); (KS "device_id", VInt (12)); (KS "value", VInt (0))])]); (KS "pump", D [(KI 0, D [(KS "data", VInt (70)); (KS "type", VInt (3)); (KS "state", D [(KS "name", S_ "Pool Low Pump"); (KS "value", VInt (0))]); (KS "watts_now", D [(KS "name", S_ "Pool Low Pump Watts Now"); (KS "value", VInt (0)); (KS "unit", S_ "W"); (KS "device_type", S_ "power"); (KS "state_type", S_ "measurement")]); (KS "rpm_now", D [(KS "name", S_ "Pool Low Pump RPM Now"); (KS "value", VInt (0)); (KS "unit", S_ "rpm"); (KS "state_type", S_ "measurement")]); (KS "unknown_at_offset_16", VInt (0)); (KS "gpm_now", D [(KS "name", S_ "Pool Low Pump GPM Now"); (KS "value", VInt (0)); (KS "unit", S_ "gpm"); (KS "state_type", S_ "measurement")]); (KS "unknown_at_offset_24", VInt (255)); (KS "preset", D [(KI 0, D [(KS "device_id", VInt (6)); (KS "setpoint", VInt (63)); (KS "is_rpm", VInt (0))]); (KI 1, D [(KS "device_id", VInt (9)); (KS "setpoint", VInt (72)); (KS "is_rpm", VInt (0))]); (KI 2, D [(KS "device_id", VInt (1)); (KS "setpoint", VInt (3450)); (KS "is_rpm", VInt (1))]); (KI 3, D [(KS "device_id", VInt (130)); (KS "setpoint", VInt (75)); (KS "is_rpm", VInt (0))]); (KI 4, D [(KS "device_id", VInt (12)); (KS "setpoint", VInt (78)); (KS "is_rpm", VInt (0))]); (KI 5, D [(KS "device_id", VInt (0)); (KS "setpoint", VInt (30)); (KS "is_rpm", VInt (0))]); (KI 6, D [(KS "device_id", VInt (0)); (KS "setpoint", VInt (30)); (KS "is_rpm", VInt (0))]); (KI 7, D [(KS "device_id", VInt (0)); (KS "setpoint", VInt (30)); (KS "is_rpm", VInt (0))])])]); (KI 1, D [(KS "data", VInt (66)); (KS "type", VInt (3)); (KS "state", D [(KS "name", S_ "Waterfall Pump"); (KS "value", VInt (0))]); (KS "watts_now", D [(KS "name", S_ "Waterfall Pump Watts Now"); (KS "value", VInt (0)); (KS "unit", S_ "W"); (KS "device_type", S_ "power"); (KS "state_type", S_ "measurement")]); (KS "rpm_now", D [(KS "name", S_ "Waterfall Pump RPM Now"); (KS "value", VInt (0)); (KS "unit", S_ "rpm"); (KS "state_type", S_ "measurement")]); (KS "unknown_at_offset_16", VInt (0)); (KS "gpm_now", D [(KS "name", S_ "Waterfall Pump GPM Now"); (KS "value", VInt (0)); (KS "unit", S_ "gpm"); (KS "state_type", S_ "measurement")]); (KS "unknown_at_offset_24", VInt (255)); (KS "preset", D [(KI 0, D [(KS "device_id", VInt (2)); (KS "setpoint", VInt (2700)); (KS "is_rpm", VInt (1))]); (KI 1, D [(KS "device_id", VInt (0)); (KS "setpoint", VInt (30)); (KS "is_rpm", VInt (0))]); (KI 2, D [(KS "device_id", VInt (0)); (KS "setpoint", VInt (30)); (KS "is_rpm", VInt (0))]); (KI 3, D [(KS "device_id", VInt (0)); (KS "setpoint", VInt (30)); (KS "is_rpm", VInt (0))]); (KI 4, D [(KS "device_id", VInt (0)); (KS "setpoint", VInt (30)); (KS "is_rpm", VInt (0))]); (KI 5, D [(KS "device_id", VInt (0)); (KS "setpoint", VInt (30)); (KS "is_rpm", VInt (0))]); (KI 6, D [(KS "device_id", VInt (0)); (KS "setpoint", VInt (30)); (KS "is_rpm", VInt (0))]); (KI 7, D [(KS "device_id", VInt (0)); (KS "setpoint", VInt (30)); (KS "is_rpm", VInt (0))])])]); (KI 2, D [(KS "data", VInt (0))]); (KI 3, D [(KS "data", VInt (0))]); (KI 4, D [(KS "data", VInt (0))]); (KI 5, D [(KS "data", VInt (0))]); (KI 6, D [(KS "data", VInt (0))]); (KI 7, D [(KS "data", VInt (0))])]); (KS "body", D [(KI 0, D [(KS "body_type", VInt (0)); (KS "min_setpoint", VInt (40)); (KS "max_setpoint", VInt (104)); (KS "name", S_ "Pool"); (KS "last_temperature", D [(KS "name", S_ "Last Pool Temperature"); (KS "value", VInt (71)); (KS "unit", VStr [176; 70]); (KS "device_type", S_ "temperature"); (KS "state_type", S_ "measurement")]); (KS "heat_state", D [(KS "name", S_ "Pool Heat"); (KS "value", VInt (0)); (KS "device_type", S_ "enum"); (KS "enum_options", VList [S_ "Off"; S_ "Solar"; S_ "Heater"; S_ "Both"])]); (KS "heat_setpoint", D [(KS "name", S_ "Pool Heat Set Point"); (KS "value", VInt (78)); (KS "unit", VStr [176; 70]); (KS "device_type", S_ "temperature")]); (KS "cool_setpoint", D [(KS "name", S_ "Pool Cool Set Point"); (KS "value", VInt (100)); (KS "unit", VStr [176; 70]); (KS "device_type", S_ "temperature")]); (KS "heat_mode", D [(KS "name", S_ "Pool Heat Mode"); (KS "value", VInt (0)); (KS "device_type", S_ "enum"); (KS "enum_options", VList [S_ "Off"; S_ "Solar"; S_ "Solar Preferred"; S_ "Heater"; S_ "Don't Change"])])]); (KI 1, D [(KS "body_type", VInt (1)); (KS "min_setpoint", VInt (40)); (KS "max_setpoint", VInt (104)); (KS "name", S_ "Spa"); (KS "last_temperature", D [(KS "name", S_ "Last Spa Temperature"); (KS "value", VInt (90)); (KS "unit", VStr [176; 70]); (KS "device_type", S_ "temperature"); (KS "state_type", S_ "measurement")]); (KS "heat_state", D [(KS "name", S_ "Spa Heat"); (KS "value", VInt (0)); (KS "device_type", S_ "enum"); (KS "enum_options", VList [S_ "Off"; S_ "Solar"; S_ "Heater"; S_ "Both"])]); (KS "heat_setpoint", D [(KS "name", S_ "Spa Heat Set Point"); (KS "value", VInt (97)); (KS "unit", VStr [176; 70]); (KS "device_type", S_ "temperature")]); (KS "cool_setpoint", D [(KS "name", S_ "Spa Cool Set Point"); (KS "value", VInt (79)); (KS "unit", VStr [176; 70]); (KS "device_type", S_ "temperature")]); (KS "heat_mode", D [(KS "name", S_ "Spa Heat Mode"); (KS "value", VInt (3)); (KS "device_type", S_ "enum"); (KS "enum_options", VList [S_ "Off"; S_ "Solar"; S_ "Solar Preferred"; S_ "Heater"; S_ "Don't Change"])])])]); (KS "intellichem", D [(KS "unknown_at_offset_00", VInt (42)); (KS "unknown_at_offset_04", VInt (0)); (KS "sensor", D [(KS "ph_now", D [(KS "name", S_ "pH Now"); (KS "value", VFloat (S754_zero false)); (KS "unit", S_ "pH"); (KS "state_type", S_ "measurement")]); (KS "orp_now", D [(KS "name", S_ "ORP Now"); (KS "value", VInt (0)); (KS "unit", S_ "mV"); (KS "state_type", S_ "measurement")]); (KS "ph_supply_level", D [(KS "name", S_ "pH Supply Level"); (KS "value", VInt (7)); (KS "state_type", S_ "measurement")]); (KS "orp_supply_level", D [(KS "name", S_ "ORP Supply Level"); (KS "value", VInt (4)); (KS "state_type", S_ "measurement")]); (KS "saturation", D [(KS "name", S_ "Saturation Index"); (KS "value", F true 8917127262193582 (-53)); (KS "unit", S_ "lsi"); (KS "state_type", S_ "measurement")]); (KS "ph_probe_water_temp", D [(KS "name", S_ "pH Probe Water Temperature"); (KS "value", VInt (71)); (KS "unit", VStr [176; 70]); (KS "device_type", S_ "temperature"); (KS "state_type", S_ "measurement")])]); (KS "configuration", D [(KS "ph_setpoint", D [(KS "name", S_ "pH Setpoint"); (KS "value", F false 8556839292003942 (-50)); (KS "unit", S_ "pH"); (KS "min_setpoint", F false 8106479329266893 (-50)); (KS "max_setpoint", F false 8556839292003942 (-50))]); (KS "orp_setpoint", D [(KS "name", S_ "ORP Setpoint"); (KS "value", VInt (650)); (KS "unit", S_ "mV"); (KS "min_setpoint", VInt (400)); (KS "max_setpoint", VInt (800))]); (KS "calcium_hardness", D [(KS "name", S_ "Calcium Hardness"); (KS "value", VInt (351)); (KS "unit", S_ "ppm"); (KS "min_setpoint", VInt (25)); (KS "max_setpoint", VInt (800))]); (KS "cya", D [(KS "name", S_ "Cyanuric Acid"); (KS "value", VInt (45)); (KS "unit", S_ "ppm"); (KS "min_setpoint", VInt (0)); (KS "max_setpoint", VInt (201))]); (KS "total_alkalinity", D [(KS "name", S_ "Total Alkalinity"); (KS "value", VInt (80)); (KS "unit", S_ "ppm"); (KS "min_setpoint", VInt (25)); (KS "max_setpoint", VInt (800))]); (KS "salt_tds_ppm", D [(KS "name", S_ "Salt/TDS"); (KS "value", VInt (1000)); (KS "unit", S_ "ppm"); (KS "min_setpoint", VInt (500)); (KS "max_setpoint", VInt (6500))]); (KS "probe_is_celsius", VInt (0)); (KS "flags", VInt (32))]); (KS "dose_status", D [(KS "ph_last_dose_time", D [(KS "name", S_ "Last pH Dose Time"); (KS "value", VInt (5)); (KS "unit", S_ "sec"); (KS "device_type", S_ "duration"); (KS "state_type", S_ "total_increasing")]); (KS "orp_last_dose_time", D [(KS "name", S_ "Last ORP Dose Time"); (KS "value", VInt (1)); (KS "unit", S_ "sec"); (KS "device_type", S_ "duration"); (KS "state_type", S_ "total_increasing")]); (KS "ph_last_dose_volume", D [(KS "name", S_ "Last pH Dose Volume"); (KS "value", VInt (8)); (KS "unit", S_ "mL"); (KS "device_type", S_ "volume"); (KS "state_type", S_ "total_increasing")]); (KS "orp_last_dose_volume", D [(KS "name", S_ "Last ORP Dose Volume"); (KS "value", VInt (2)); (KS "unit", S_ "mL"); (KS "device_type", S_ "volume"); (KS "state_type", S_ "total_increasing")]); (KS "flags", VInt (165)); (KS "ph_dosing_state", D [(KS "name", S_ "pH Dosing State"); (KS "value", VInt (2)); (KS "device_type", S_ "enum"); (KS "enum_options", VList [S_ "Dosing"; S_ "Mixing"; S_ "Monitoring"])]); (KS "orp_dosing_state", D [(KS "name", S_ "ORP Dosing State"); (KS "value", VInt (2)); (KS "device_type", S_ "enum"); (KS "enum_options", VList [S_ "Dosing"; S_ "Mixing"; S_ "Monitoring"])])]); (KS "alarm", D [(KS "flags", VInt (5)); (KS "flow_alarm", D [(KS "name", S_ "Flow Alarm"); (KS "value", VInt (1)); (KS "device_type", S_ "alarm")]); (KS "ph_high_alarm", D [(KS "name", S_ "pH HIGH Alarm"); (KS "value", VInt (0)); (KS "device_type", S_ "alarm")]); (KS "ph_low_alarm", D [(KS "name", S_ "pH LOW Alarm"); (KS "value", VInt (1)); (KS "device_type", S_ "alarm")]); (KS "orp_high_alarm", D [(KS "name", S_ "ORP HIGH Alarm"); (KS "value", VInt (0)); (KS "device_type", S_ "alarm")]); (KS "orp_low_alarm", D [(KS "name", S_ "ORP LOW Alarm"); (KS "value", VInt (0)); (KS "device_type", S_ "alarm")]); (KS "ph_supply_alarm", D [(KS "name", S_ "pH Supply Alarm"); (KS "value", VInt (0)); (KS "device_type", S_ "alarm")]); (KS "orp_supply_alarm", D [(KS "name", S_ "ORP Supply Alarm"); (KS "value", VInt (0)); (KS "device_type", S_ "alarm")]); (KS "probe_fault_alarm", D [(KS "name", S_ "Probe Fault"); (KS "value", VInt (0)); (KS "device_type", S_ "alarm")])]); (KS "alert", D [(KS "flags", VInt (0)); (KS "ph_lockout", D [(KS "name", S_ "pH Lockout"); (KS "value", VInt (0))]); (KS "ph_limit", D [(KS "name", S_ "pH Dose Limit Reached"); (KS "value", VInt (0))]); (KS "orp_limit", D [(KS "name", S_ "ORP Dose Limit Reached"); (KS "value", VInt (0))])]); (KS "firmware", D [(KS "name", S_ "IntelliChem Firmware"); (KS "value", S_ "1.060"); (KS "major", VInt (1)); (KS "minor", VInt (60))]); (KS "water_balance", D [(KS "flags", VInt (1)); (KS "corrosive", D [(KS "name", S_ "SI Corrosive"); (KS "value", VInt (1)); (KS "device_type", S_ "alarm")]); (KS "scaling", D [(KS "name", S_ "SI Scaling"); (KS "value", VInt (0)); (KS "device_type", S_ "alarm")])]); (KS "unknown_at_offset_44", VInt (0)); (KS "unknown_at_offset_45", VInt (0)); (KS "unknown_at_offset_46", VInt (0))]); (KS "scg", D [(KS "scg_present", VInt (40)); (KS "sensor", D [(KS "state", D [(KS "name", S_ "Chlorinator"); (KS "value", VInt (1))]); (KS "salt_ppm", D [(KS "name", S_ "Chlorinator Salt"); (KS "value", VInt (0)); (KS "unit", S_ "ppm"); (KS "state_type", S_ "measurement")])]); (KS "configuration", D [(KS "pool_setpoint", D [(KS "name", S_ "Pool Chlorinator Setpoint"); (KS "value", VInt (50)); (KS "unit", S_ "%"); (KS "min_setpoint", VInt (0)); (KS "max_setpoint", VInt (100)); (KS "step", VInt (1)); (KS "body_type", VInt (0))]); (KS "spa_setpoint", D [(KS "name", S_ "Spa Chlorinator Setpoint"); (KS "value", VInt (20)); (KS "unit", S_ "%"); (KS "min_setpoint", VInt (0)); (KS "max_setpoint", VInt (100)); (KS "step", VInt (1)); (KS "body_type", VInt (1))]); (KS "super_chlor_timer", D [(KS "name", S_ "Super Chlorination Timer"); (KS "value", VInt (24)); (KS "unit", S_ "hr"); (KS "min_setpoint", VInt (0)); (KS "max_setpoint", VInt (72)); (KS "step", VInt (1))])]); (KS "flags", VInt (0)); (KS "super_chlorinate", D [(KS "name", S_ "Super Chlorinate"); (KS "value", VInt (0))])])].
Example fixture7 : (match run7 with (d, Ok tt) => pv_equiv 20 (VDict d) expect7 | _ => false end) = true.
Proof. vm_compute. reflexivity. Qed.

