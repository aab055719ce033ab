(** The setters of gateway.py: what they send. *)
From Verif Require Import Py F64 Struct Utf Utility Const Spec Enum Decode World Request Gateway Traces Paths P_Base P_Util P_Monad P_Request P_Sat P_Paths P_Dict P_Gw1.
Open Scope m_scope.

Ltac not_connecting := let H := fresh in intros H; unfold connecting in H; cbn in H; intuition discriminate.

Lemma u32s_3 a b c : List.concat (map u32le [a; b; c]) = u32le a ++ u32le b ++ u32le c.
Proof. cbn [map List.concat]. rewrite app_nil_r. reflexivity. Qed.
Lemma u32s_2 a b : List.concat (map u32le [a; b]) = u32le a ++ u32le b.
Proof. cbn [map List.concat]. rewrite app_nil_r. reflexivity. Qed.
Lemma u32s_5 a b c d e : List.concat (map u32le [a; b; c; d; e]) = u32le a ++ u32le b ++ u32le c ++ u32le d ++ u32le e.
Proof. cbn [map List.concat]. rewrite app_nil_r. reflexivity. Qed.
Lemma u32s_7 a b c d e f g : List.concat (map u32le [a; b; c; d; e; f; g]) =
  u32le a ++ u32le b ++ u32le c ++ u32le d ++ u32le e ++ u32le f ++ u32le g.
Proof. cbn [map List.concat]. rewrite app_nil_r. reflexivity. Qed.
Lemma zlen_u32 v : zlen (u32le v) = 4. Proof. reflexivity. Qed.

Ltac pack_inv H := let zs := fresh "zs" in let L := fresh in let F := fresh "F" in let E := fresh "Ep" in
  apply pack_Is_inv in H; destruct H as (zs & L & F & E);
  repeat (destruct zs as [|? zs]; cbn [map] in L; try discriminate L);
  injection L; clear L; intros; subst;
  repeat match goal with H : Forall _ (_ :: _) |- _ => inversion H; clear H; subst end;
  try match goal with H : Forall _ [] |- _ => clear H end.

(** C46 *)
Lemma set_circuit_only n circuit state w t w' o c p : async_set_circuit n circuit state w = (t, w', o) ->
  In (Send c 12530 p) t ->
  exists id st, circuit = VInt id /\ state = VInt st /\ listed (w_data w) (KS "circuit") id /\ is_u32 id /\ (st = 0 \/ st = 1) /\
    p = u32le 0 ++ u32le id ++ u32le st.
Proof.
  intros E I. unfold async_set_circuit in E. rewrite bind_get in E.
  apply require_inv in E. destruct E as [(B1 & E)|(-> & _)]; [|contradiction].
  apply require_inv in E. destruct E as [(B2 & E)|(-> & _)]; [|contradiction].
  apply (command_sends _ _ _ _ _ _ _ _ _ _ E) in I; [|not_connecting].
  pack_inv I. exists z0, z1. repeat (split; [reflexivity|]).
  apply in_section_int in B1. injection B2 as B2. unfold is_valid_circuit_state in B2. cbn [num_eqb] in B2.
  split; [apply B1; reflexivity|]. split; [assumption|]. split; [lia|]. rewrite u32s_3. reflexivity.
Qed.
Lemma set_circuit_rejected n id st w : ~ listed (w_data w) (KS "circuit") id \/ (st <> 0 /\ st <> 1) ->
  exists e, async_set_circuit n (VInt id) (VInt st) w = ([], w, Exc e) /\
    ((exists m, entry (w_data w) (KS "circuit") (VDict m)) -> e = EValue).
Proof.
  intros K. unfold async_set_circuit. rewrite bind_get.
  destruct (in_section DEVICE_CIRCUIT (VInt id) (w_data w)) as [[]|e] eqn:B.
  - rewrite require_true. assert (L : listed (w_data w) (KS "circuit") id) by (apply (in_section_int _ _ _ _ B); reflexivity).
    destruct K as [K|K]; [contradiction|]. rewrite require_bad; [eauto|].
    unfold is_valid_circuit_state. cbn [num_eqb]. intros X. injection X as X. lia.
  - rewrite require_bad by discriminate. eauto.
  - rewrite require_bad by discriminate. eexists. split; [reflexivity|]. intros (m & H).
    apply entry_dget in H. change (KS "circuit") with DEVICE_CIRCUIT in H. unfold in_section in B. rewrite H, contains_int in B. discriminate.
Qed.
Lemma set_circuit_sent n c id st w r rest l w1 : ready c w -> 0 <= w_retries w ->
  listed (w_data w) (KS "circuit") id -> is_u32 id -> st = 0 \/ st = 1 ->
  w_env w = r :: rest -> interfere r (set_env rest w) = (l, w1) -> answer_of r = Some (12531, []) ->
  async_set_circuit (S n) (VInt id) (VInt st) w =
    (Send c 12530 (u32le 0 ++ u32le id ++ u32le st) :: AwaitReply c 2000 :: Got r :: l, w1, Val tt).
Proof.
  intros K M L U S E I A. unfold async_set_circuit. rewrite bind_get.
  rewrite (in_section_listed DEVICE_CIRCUIT _ _ L), require_true.
  replace (is_valid_circuit_state (VInt st)) with true by (unfold is_valid_circuit_state; cbn [num_eqb]; lia). rewrite require_true.
  eapply ready_command_request; eauto.
  - change [VInt 0; VInt id; VInt st] with (map VInt [0; id; st]). rewrite pack_Is_ok; [rewrite u32s_3; reflexivity|].
    repeat constructor; unfold is_u32 in *; try lia.
  - apply small_message; [unfold is_u16, CODE_BUTTONPRESS_QUERY; lia|]. rewrite !zlen_app, !zlen_u32. lia.
Qed.

(** C47 *)
Lemma num_leb_int lo z : num_leb lo (VInt z) = Ok true -> is_number lo /\ (forall a, lo = VInt a -> a <= z).
Proof.
  unfold num_leb, num_cmp. destruct lo as [|a|f| | | | | ]; try discriminate; intros H; split; try exact Logic.I; intros b E; try discriminate.
  injection E as <-. destruct (Z.compare_spec a z); try discriminate; lia.
Qed.
Lemma num_leb_int' hi z : num_leb (VInt z) hi = Ok true -> is_number hi /\ (forall a, hi = VInt a -> z <= a).
Proof.
  unfold num_leb, num_cmp. destruct hi as [|a|f| | | | | ]; try discriminate; intros H; split; try exact Logic.I; intros b E; try discriminate.
  injection E as <-. destruct (Z.compare_spec z a); try discriminate; lia.
Qed.
Lemma soft_leads p d v : soft (get_data false p d) = v -> v <> VNone -> leads (VDict d) p v.
Proof.
  intros H N. destruct (leads_dec p (VDict d)) as [(x & L)|K].
  - unfold get_data in H. rewrite (walk_leads _ _ _ L) in H. cbn [soft] in H. congruence.
  - unfold get_data in H. rewrite (walk_none _ _ false K) in H. cbn [soft] in H. congruence.
Qed.
Lemma leads_soft p d v : leads (VDict d) p v -> soft (get_data false p d) = v.
Proof. intros L. unfold get_data. rewrite (walk_leads _ _ _ L). reflexivity. Qed.
Lemma heattemp_int b z d : is_valid_heattemp (VInt b) (VInt z) d = Ok true ->
  exists lo hi, leads (VDict d) [KS "body"; KI b; KS "min_setpoint"] lo /\ leads (VDict d) [KS "body"; KI b; KS "max_setpoint"] hi
   /\ is_number lo /\ is_number hi /\ (forall a, lo = VInt a -> a <= z) /\ (forall a, hi = VInt a -> z <= a).
Proof.
  unfold is_valid_heattemp. cbn [py_int rbind]. intros H.
  set (lo := soft (get_data false [DEVICE_BODY; KI b; ATTR_MIN_SETPOINT] d)) in *.
  set (hi := soft (get_data false [DEVICE_BODY; KI b; ATTR_MAX_SETPOINT] d)) in *.
  destruct (num_leb lo (VInt z)) as [[]|] eqn:L; try discriminate. cbn [rbind] in H.
  apply num_leb_int in L. apply num_leb_int' in H. destruct L as [L1 L2], H as [H1 H2].
  exists lo, hi. repeat split; auto.
  - apply soft_leads; [reflexivity|]. intros X. rewrite X in L1. exact L1.
  - apply soft_leads; [reflexivity|]. intros X. rewrite X in H1. exact H1.
Qed.
Lemma set_heat_temp_only n body temp w t w' o c p : async_set_heat_temp n body temp w = (t, w', o) ->
  In (Send c 12528 p) t ->
  exists b z lo hi, body = VInt b /\ temp = VInt z /\ listed (w_data w) (KS "body") b /\ is_u32 b /\ is_u32 z /\
    leads (VDict (w_data w)) [KS "body"; KI b; KS "min_setpoint"] lo /\
    leads (VDict (w_data w)) [KS "body"; KI b; KS "max_setpoint"] hi /\
    is_number lo /\ is_number hi /\ (forall a, lo = VInt a -> a <= z) /\ (forall a, hi = VInt a -> z <= a) /\
    p = u32le 0 ++ u32le b ++ u32le z.
Proof.
  intros E I. unfold async_set_heat_temp in E. rewrite bind_get in E.
  apply require_inv in E. destruct E as [(B1 & E)|(-> & _)]; [|contradiction].
  apply require_inv in E. destruct E as [(B2 & E)|(-> & _)]; [|contradiction].
  apply (command_sends _ _ _ _ _ _ _ _ _ _ E) in I; [|not_connecting].
  pack_inv I. apply in_section_int in B1. apply heattemp_int in B2. destruct B2 as (lo & hi & H).
  exists z0, z1, lo, hi. rewrite u32s_3. repeat (split; [first [reflexivity|assumption|apply B1; reflexivity]|]). tauto.
Qed.
(** an out-of-range call *)
Lemma set_heat_temp_rejected n b z w : ~ listed (w_data w) (KS "body") b \/
   (exists lo, leads (VDict (w_data w)) [KS "body"; KI b; KS "min_setpoint"] (VInt lo) /\ z < lo) \/
   (exists lo hi, leads (VDict (w_data w)) [KS "body"; KI b; KS "min_setpoint"] (VInt lo) /\
                  leads (VDict (w_data w)) [KS "body"; KI b; KS "max_setpoint"] (VInt hi) /\ hi < z) ->
  exists e, async_set_heat_temp n (VInt b) (VInt z) w = ([], w, Exc e) /\
    ((exists m, entry (w_data w) (KS "body") (VDict m)) -> e = EValue).
Proof.
  intros K. unfold async_set_heat_temp. rewrite bind_get.
  destruct (in_section DEVICE_BODY (VInt b) (w_data w)) as [[]|e] eqn:B.
  - rewrite require_true. assert (L : listed (w_data w) (KS "body") b) by (apply (in_section_int _ _ _ _ B); reflexivity).
    destruct K as [K|K]; [contradiction|].
    assert (F : is_valid_heattemp (VInt b) (VInt z) (w_data w) = Ok false).
    { unfold is_valid_heattemp. cbn [py_int rbind].
      destruct K as [(lo & L1 & H)|(lo & hi & L1 & L2 & H)]; apply leads_soft in L1;
        change [KS "body"; KI b; KS "min_setpoint"] with [DEVICE_BODY; KI b; ATTR_MIN_SETPOINT] in L1; rewrite L1; unfold num_leb, num_cmp.
      - destruct (Z.compare_spec lo z); try lia. reflexivity.
      - apply leads_soft in L2. change [KS "body"; KI b; KS "max_setpoint"] with [DEVICE_BODY; KI b; ATTR_MAX_SETPOINT] in L2. rewrite L2.
        destruct (Z.compare_spec lo z); try reflexivity; cbn [rbind]; (destruct (Z.compare_spec z hi); try lia; reflexivity). }
    rewrite F, require_bad by discriminate. eauto.
  - rewrite require_bad by discriminate. eauto.
  - rewrite require_bad by discriminate. eexists. split; [reflexivity|]. intros (m & H).
    apply entry_dget in H. change (KS "body") with DEVICE_BODY in H. unfold in_section in B. rewrite H, contains_int in B. discriminate.
Qed.
Lemma set_heat_temp_sent n c b z lo hi w r rest l w1 : ready c w -> 0 <= w_retries w ->
  listed (w_data w) (KS "body") b -> is_u32 b -> is_u32 z ->
  leads (VDict (w_data w)) [KS "body"; KI b; KS "min_setpoint"] (VInt lo) ->
  leads (VDict (w_data w)) [KS "body"; KI b; KS "max_setpoint"] (VInt hi) -> lo <= z <= hi ->
  w_env w = r :: rest -> interfere r (set_env rest w) = (l, w1) -> answer_of r = Some (12529, []) ->
  async_set_heat_temp (S n) (VInt b) (VInt z) w =
    (Send c 12528 (u32le 0 ++ u32le b ++ u32le z) :: AwaitReply c 2000 :: Got r :: l, w1, Val tt).
Proof.
  intros K M L U Uz L1 L2 Z E I A. unfold async_set_heat_temp. rewrite bind_get.
  rewrite (in_section_listed DEVICE_BODY _ _ L), require_true.
  assert (F : is_valid_heattemp (VInt b) (VInt z) (w_data w) = Ok true).
  { unfold is_valid_heattemp. cbn [py_int rbind]. apply leads_soft in L1, L2.
    change [KS "body"; KI b; KS "min_setpoint"] with [DEVICE_BODY; KI b; ATTR_MIN_SETPOINT] in L1.
    change [KS "body"; KI b; KS "max_setpoint"] with [DEVICE_BODY; KI b; ATTR_MAX_SETPOINT] in L2.
    rewrite L1, L2. unfold num_leb, num_cmp. destruct (Z.compare_spec lo z); try lia; cbn [rbind]; (destruct (Z.compare_spec z hi); try lia; reflexivity). }
  rewrite F, require_true. eapply ready_command_request; eauto.
  - change [VInt 0; VInt b; VInt z] with (map VInt [0; b; z]). rewrite pack_Is_ok; [rewrite u32s_3; reflexivity|].
    repeat constructor; unfold is_u32 in *; try lia.
  - apply small_message; [unfold is_u16, CODE_SETHEATTEMP_QUERY; lia|]. rewrite !zlen_app, !zlen_u32. lia.
Qed.

(** C48 *)
Lemma set_heat_mode_only n body mode w t w' o c p : async_set_heat_mode n body mode w = (t, w', o) ->
  In (Send c 12538 p) t ->
  exists b m, body = VInt b /\ mode = VInt m /\ listed (w_data w) (KS "body") b /\ is_u32 b /\ 0 <= m <= 4 /\
    p = u32le 0 ++ u32le b ++ u32le m.
Proof.
  intros E I. unfold async_set_heat_mode in E. rewrite bind_get in E.
  apply require_inv in E. destruct E as [(B1 & E)|(-> & _)]; [|contradiction].
  apply require_inv in E. destruct E as [(B2 & E)|(-> & _)]; [|contradiction].
  apply (command_sends _ _ _ _ _ _ _ _ _ _ E) in I; [|not_connecting].
  pack_inv I. apply in_section_int in B1. exists z0, z1. rewrite u32s_3.
  repeat (split; [first [reflexivity|assumption|apply B1; reflexivity]|]). split; [|reflexivity].
  unfold is_valid_heatmode, num_leb, num_ltb, num_cmp in B2. destruct (Z.compare_spec 0 z1); cbn [rbind] in B2; try discriminate;
    destruct (Z.compare_spec z1 5); try discriminate; lia.
Qed.
Lemma set_heat_mode_rejected n b m w : ~ listed (w_data w) (KS "body") b \/ ~ 0 <= m <= 4 ->
  exists e, async_set_heat_mode n (VInt b) (VInt m) w = ([], w, Exc e) /\
    ((exists x, entry (w_data w) (KS "body") (VDict x)) -> e = EValue).
Proof.
  intros K. unfold async_set_heat_mode. rewrite bind_get.
  destruct (in_section DEVICE_BODY (VInt b) (w_data w)) as [[]|e] eqn:B.
  - rewrite require_true. assert (L : listed (w_data w) (KS "body") b) by (apply (in_section_int _ _ _ _ B); reflexivity).
    destruct K as [K|K]; [contradiction|].
    assert (F : is_valid_heatmode (VInt m) = Ok false).
    { unfold is_valid_heatmode, num_leb, num_ltb, num_cmp. destruct (Z.compare_spec 0 m); cbn [rbind]; try reflexivity;
       destruct (Z.compare_spec m 5); try reflexivity; lia. }
    rewrite F, require_bad by discriminate. eauto.
  - rewrite require_bad by discriminate. eauto.
  - rewrite require_bad by discriminate. eexists. split; [reflexivity|]. intros (x & H).
    apply entry_dget in H. change (KS "body") with DEVICE_BODY in H. unfold in_section in B. rewrite H, contains_int in B. discriminate.
Qed.
Lemma set_heat_mode_sent n c b m w r rest l w1 : ready c w -> 0 <= w_retries w ->
  listed (w_data w) (KS "body") b -> is_u32 b -> 0 <= m <= 4 ->
  w_env w = r :: rest -> interfere r (set_env rest w) = (l, w1) -> answer_of r = Some (12539, []) ->
  async_set_heat_mode (S n) (VInt b) (VInt m) w =
    (Send c 12538 (u32le 0 ++ u32le b ++ u32le m) :: AwaitReply c 2000 :: Got r :: l, w1, Val tt).
Proof.
  intros K M L U Z E I A. unfold async_set_heat_mode. rewrite bind_get.
  rewrite (in_section_listed DEVICE_BODY _ _ L), require_true.
  assert (F : is_valid_heatmode (VInt m) = Ok true).
  { unfold is_valid_heatmode, num_leb, num_ltb, num_cmp. destruct (Z.compare_spec 0 m); cbn [rbind]; try lia;
       destruct (Z.compare_spec m 5); try reflexivity; lia. }
  rewrite F, require_true. eapply ready_command_request; eauto.
  - change [VInt 0; VInt b; VInt m] with (map VInt [0; b; m]). rewrite pack_Is_ok; [rewrite u32s_3; reflexivity|].
    repeat constructor; unfold is_u32 in *; try lia.
  - apply small_message; [unfold is_u16, CODE_SETHEATMODE_QUERY; lia|]. rewrite !zlen_app, !zlen_u32. lia.
Qed.

(** C49 *)
Lemma set_lights_only n cmd w t w' o c p : async_set_color_lights n cmd w = (t, w', o) ->
  In (Send c 12556 p) t -> exists z, cmd = VInt z /\ 0 <= z <= 21 /\ p = u32le 0 ++ u32le z.
Proof.
  intros E I. unfold async_set_color_lights in E.
  apply require_inv in E. destruct E as [(B2 & E)|(-> & _)]; [|contradiction].
  apply (command_sends _ _ _ _ _ _ _ _ _ _ E) in I; [|not_connecting].
  pack_inv I. exists z0. rewrite u32s_2. split; [reflexivity|]. split; [|reflexivity].
  unfold is_valid_color_mode, num_leb, num_cmp in B2. destruct (Z.compare_spec 0 z0); cbn [rbind] in B2; try discriminate;
    destruct (Z.compare_spec z0 21); try discriminate; lia.
Qed.
Lemma set_lights_rejected n z w : ~ 0 <= z <= 21 -> async_set_color_lights n (VInt z) w = ([], w, Exc EValue).
Proof.
  intros K. unfold async_set_color_lights.
  assert (F : is_valid_color_mode (VInt z) = Ok false).
  { unfold is_valid_color_mode, num_leb, num_ltb, num_cmp. destruct (Z.compare_spec 0 z); cbn [rbind]; try reflexivity;
       destruct (Z.compare_spec z 21); try reflexivity; lia. }
  rewrite F, require_bad by discriminate. reflexivity.
Qed.
Lemma set_lights_sent n c z w r rest l w1 : ready c w -> 0 <= w_retries w -> 0 <= z <= 21 ->
  w_env w = r :: rest -> interfere r (set_env rest w) = (l, w1) -> answer_of r = Some (12557, []) ->
  async_set_color_lights (S n) (VInt z) w =
    (Send c 12556 (u32le 0 ++ u32le z) :: AwaitReply c 2000 :: Got r :: l, w1, Val tt).
Proof.
  intros K M Z E I A. unfold async_set_color_lights.
  assert (F : is_valid_color_mode (VInt z) = Ok true).
  { unfold is_valid_color_mode, num_leb, num_ltb, num_cmp. destruct (Z.compare_spec 0 z); cbn [rbind]; try lia;
       destruct (Z.compare_spec z 21); try reflexivity; lia. }
  rewrite F, require_true. eapply ready_command_request; eauto.
  - change [VInt 0; VInt z] with (map VInt [0; z]). rewrite pack_Is_ok; [rewrite u32s_2; reflexivity|].
    repeat constructor; unfold is_u32 in *; try lia.
  - apply small_message; [unfold is_u16, CODE_LIGHTCOMMAND_QUERY; lia|]. rewrite !zlen_app, !zlen_u32. lia.
Qed.
