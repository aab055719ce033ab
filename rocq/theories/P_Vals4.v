(** Configuration decoding. *)
From Verif Require Import Py F64 Struct Utf Utility Const Enum Decode Spec Messages Meaning Shape P_Base P_Util P_Str P_Time P_Dict P_Idem P_Shape P_Trace P_Does P_Facts P_Vals1 P_Sym P_Vals3.

Lemma land_low x : Z.land x 65535 = x mod 65536.
Proof. change 65535 with (Z.ones 16). rewrite Z.land_ones by lia. reflexivity. Qed.
Lemma db_minor W K w {B} (F : pv -> DM B) l a K' : In (qMINOR, w) W ->
  does W K (F (or_none w)) l a K' -> does W K (dbind (rdata getAdapterVersion) F) l a K'.
Proof.
  intros I D. eapply db_rdata; [|exact D]. intros d S V. rewrite readMINOR by exact S. rewrite (V _ _ I). reflexivity.
Qed.
Lemma minor_num d v : Shape d -> dpget qMINOR d = Some v -> okkd KNum v = true.
Proof.
  intros S G. eapply (S (ksp [DEVICE_ADAPTER; VALUE_FIRMWARE; ATTR_MINOR]) KNum qMINOR); [in_table|reflexivity|exact G].
Qed.
Lemma mask_kept d flags : Shape d ->
  mask_flags (or_none (dpget qMINOR d)) flags = Ok (kept_flags (old_firmware d) flags).
Proof.
  intros S. unfold old_firmware. change [KS "adapter"; KS "firmware"; KS "minor"] with qMINOR.
  destruct (dpget qMINOR d) as [v|] eqn:E; [|reflexivity].
  pose proof (minor_num d v S E) as N. unfold mask_flags, kept_flags. cbn [or_none].
  change EQUIPMENT_MASK_736 with 65535.
  rewrite land_low.
  assert (X : exists b, num_leb v (VInt 736) = Ok b).
  { destruct v as [| z | f | | | | |]; try discriminate; unfold num_leb; cbn [num_cmp].
    - destruct (z ?= 736); eauto.
    - destruct (cmp_Zf 736 f) as [[| |]|]; cbn [CompOpp]; eauto. }
  destruct X as (b & Eb). rewrite Eb. destruct v; try discriminate; reflexivity.
Qed.
Lemma land_bit x n : 0 <= n -> (Z.land (2 ^ n) x =? 2 ^ n) = Z.testbit x n.
Proof.
  intros H. rewrite Z.land_comm. destruct (Z.testbit x n) eqn:T.
  - apply Z.eqb_eq. apply Z.bits_inj'. intros i Hi. rewrite Z.land_spec. destruct (Z.eq_dec i n) as [->|N].
    + rewrite T. reflexivity.
    + rewrite (Z.pow2_bits_false n i) by lia. apply andb_false_r.
  - apply Z.eqb_neq. intros E. assert (X : Z.testbit (Z.land x (2 ^ n)) n = true).
    { rewrite E. apply Z.pow2_bits_true. exact H. }
    rewrite Z.land_spec, T in X. discriminate.
Qed.
Lemma equipment_list_of flags : equipment_list flags = equipment_of flags.
Proof.
  unfold equipment_list, equipment_of.
  replace EQUIPMENT_FLAG with (map (fun x => (snd x, 2 ^ fst x)) equipment_names) by reflexivity.
  assert (P : Forall (fun x => 0 <= fst x) equipment_names) by (repeat constructor; cbn; lia).
  induction P as [|[n s] l Hn P IH]; [reflexivity|]. cbn [map filter fst snd] in *.
  rewrite land_bit by exact Hn. destruct (Z.testbit flags n); cbn [map fst snd]; rewrite IH; reflexivity.
Qed.

Definition Wcf (d : dict) : list (path * option pv) := [(qMINOR, dpget qMINOR d)].
Definition ccU (i : Z) (c : ccirc_msg) : list path := [[DEVICE_CIRCUIT; KI (cc_id c)]].
Lemma ccirc_does d K buff i c off rest : In [DEVICE_CIRCUIT] K -> ccirc_ok c ->
  at_ buff off (wire_ccirc c ++ rest) ->
  doesf (Wcf d) K (config_circuit buff i off) (off + zlen (wire_ccirc c)) K (ccirc_facts c) (ccU i c).
Proof.
  intros I OK A. unfold ccirc_ok in OK. unand.
  replace (off + zlen (wire_ccirc c)) with (off + 4 + zlen (wire_name (cc_name c)) + 1 + 1 + 1 + 1 + 1 + 1 + 1 + 1 + 2 + 1 + 1)
    by (unfold wire_ccirc, zlen; rewrite !app_length; cbn; lia).
  unfold wire_ccirc in A. splitapp A. unfold ccirc_facts. rewrite text_strip.
  eapply doesf_of; [ eapply does_forget; [unfold config_circuit; dsteps|incl_K] | | ].
  - sfacts.
  - swithin.
Qed.
Lemma colors_ok W K buff l : forall off acc rest, Forall color_ok l ->
  at_ buff off (List.concat (map wire_color l) ++ rest) ->
  does W K (config_colors (List.length l) buff off acc) [] 
    (acc ++ map color_entry l, off + zlen (List.concat (map wire_color l))) K
  /\ at_ buff (off + zlen (List.concat (map wire_color l))) rest.
Proof.
  induction l as [|c l IH]; intros off acc rest OK A; cbn [List.length config_colors map List.concat] in *.
  - rewrite app_nil_r. replace (off + zlen (@nil Z)) with off by (unfold zlen; cbn; lia).
    split; [apply does_ret|exact A].
  - inversion OK as [|? ? Oc Ol]; subst. rewrite <- app_assoc in A.
    pose proof (at_step _ _ _ _ A) as A2.
    destruct (IH (off + zlen (wire_color c)) (acc ++ [color_entry c]) rest Ol A2) as [D A3].
    replace (off + zlen (wire_color c ++ List.concat (map wire_color l)))
      with (off + zlen (wire_color c) + zlen (List.concat (map wire_color l))) by (unfold zlen; rewrite app_length; lia).
    split; [|exact A3]. clear A2 A3. unfold color_ok in Oc. unand. unfold wire_color in A. splitapp A.
    cbv beta iota zeta. do 4 (dstep; cbv beta iota zeta).
    assert (E : off + zlen (wire_name (co_name c)) + 4 + 4 + 4 = off + zlen (wire_color c))
      by (unfold wire_color, zlen; rewrite !app_length; cbn; lia).
    rewrite E. rewrite <- app_assoc in D. cbn [app] in D. unfold color_entry in D at 1. rewrite text_strip in D. exact D.
Qed.

Definition cf_head (old : bool) (md : pystr) (m : config_msg) := firstn 13 (config_facts old md m).
Definition cf_tail (old : bool) (md : pystr) (m : config_msg) := skipn 14 (config_facts old md m).
Definition cf_headU : list path :=
  [ [DEVICE_CONTROLLER; VALUE_CONTROLLER_ID]; qSP; pC VALUE_IS_CELSIUS; pC VALUE_CONTROLLER_TYPE; pC VALUE_HARDWARE_TYPE;
    [DEVICE_CONTROLLER; VALUE_MODEL]; pC VALUE_CONTROLLER_DATA; [DEVICE_CONTROLLER; GROUP_EQUIPMENT]; pC VALUE_DEFAULT_CIRCUIT_NAME ].
Definition cf_tailU : list path :=
  [ pC VALUE_COLOR_COUNT; pC GROUP_COLOR; [DEVICE_PUMP; KI 0]; [DEVICE_PUMP; KI 1]; [DEVICE_PUMP; KI 2]; [DEVICE_PUMP; KI 3];
    [DEVICE_PUMP; KI 4]; [DEVICE_PUMP; KI 5]; [DEVICE_PUMP; KI 6]; [DEVICE_PUMP; KI 7]; pC VALUE_INTERFACE_TAB_FLAGS; pC VALUE_SHOW_ALARMS ].
Definition cf_wire_head (m : config_msg) : bytes :=
  u32le (g_id m) ++ u8 (g_min0 m) ++ u8 (g_max0 m) ++ u8 (g_min1 m) ++ u8 (g_max1 m) ++ u8 (g_celsius m)
  ++ u8 (g_ctype m) ++ u8 (g_htype m) ++ u8 (g_cdata m) ++ u32le (g_equip m) ++ wire_name (g_name m).
Definition cf_wire_tail (m : config_msg) : bytes :=
  u32le (zlen (g_colors m)) ++ List.concat (map wire_color (g_colors m))
  ++ u8 (g_p0 m) ++ u8 (g_p1 m) ++ u8 (g_p2 m) ++ u8 (g_p3 m) ++ u8 (g_p4 m) ++ u8 (g_p5 m) ++ u8 (g_p6 m) ++ u8 (g_p7 m)
  ++ u32le (g_tabs m) ++ u32le (g_alarms m).
Definition K2 : list path := [pCTLCONFIG; []].

Lemma cf_head_does d buff m rest : Shape d -> is_u32 (g_id m) -> is_u32 (g_equip m) -> name_ok (g_name m) ->
  at_ buff 0 (cf_wire_head m ++ rest) ->
  doesf (Wcf d) startK (config_head buff) (16 + zlen (wire_name (g_name m))) K2
    (cf_head (old_firmware d) (model_from_type (g_ctype m) (g_htype m)) m) cf_headU
  /\ at_ buff (16 + zlen (wire_name (g_name m))) rest.
Proof.
  intros Sh H1 H2 H3 A. split.
  2:{ replace (16 + zlen (wire_name (g_name m))) with (0 + zlen (cf_wire_head m))
        by (unfold cf_wire_head, zlen; rewrite !app_length; cbn [List.length u32le u8]; lia). exact (at_step _ _ _ _ A). }
  unfold cf_wire_head in A. splitapp A.
  unfold cf_head. cbn [firstn config_facts]. rewrite text_strip.
  assert (MK := mask_kept d (g_equip m) Sh). rewrite <- equipment_list_of.
  generalize dependent (kept_flags (old_firmware d) (g_equip m)). intros fl MK.
  eapply doesf_of.
  - eapply does_forget; [unfold config_head, config_setpoint; cbn [dloop]; 
     cbv beta iota zeta; repeat (first [dstep | eapply db_minor; [left; reflexivity|] | eapply db_lift; [exact MK|] ]; cbv beta iota zeta) | ].
    incl_c.
  - generalize (equipment_list fl), (model_from_type (g_ctype m) (g_htype m)). intros ? ?. abstract_values. facts.
  - generalize (equipment_list fl), (model_from_type (g_ctype m) (g_htype m)). intros ? ?. abstract_values. vm_compute. reflexivity.
Qed.
Lemma does_app0 W K K' K'' {A B} (m : DM A) (f : A -> DM B) a l' b :
  does W K m [] a K' -> does W K' (f a) l' b K'' -> does W K (dbind m f) l' b K''.
Proof. intros D E. exact (does_bind W K K' K'' m f [] a l' b D E). Qed.
Definition config_tail (buff : bytes) (offset : Z) : DM Z :=
  (dbind (rd FI buff offset) (fun '(colorCount, offset) =>
  dbind (assign pCTLCONFIG VALUE_COLOR_COUNT (VInt colorCount)) (fun _ =>
  dbind (config_colors (Z.to_nat colorCount) buff offset []) (fun '(colors, offset) =>
  dbind (assign pCTLCONFIG GROUP_COLOR (VList colors)) (fun _ =>
  dbind (setdefault [] DEVICE_PUMP (VDict [])) (fun _ =>
  dbind (dloop 8 0 (config_pump buff) offset) (fun offset =>
  dbind (rd FI buff offset) (fun '(tab_flags, offset) =>
  dbind (assign pCTLCONFIG VALUE_INTERFACE_TAB_FLAGS (VInt tab_flags)) (fun _ =>
  dbind (rd FI buff offset) (fun '(show_alarms, offset) =>
  dbind (assign pCTLCONFIG VALUE_SHOW_ALARMS (VInt show_alarms)) (fun _ =>
  dret offset)))))))))))%dm.
Lemma cf_tail_does d buff m off rest old md : zlen (g_colors m) < 4294967296 -> Forall color_ok (g_colors m) ->
  is_u32 (g_tabs m) -> is_u32 (g_alarms m) -> at_ buff off (cf_wire_tail m ++ rest) ->
  doesf (Wcf d) K2 (config_tail buff off) (off + zlen (cf_wire_tail m)) K2 (cf_tail old md m) cf_tailU.
Proof.
  intros H1 H2 H3 H4 A.
  replace (off + zlen (cf_wire_tail m)) with
   (off + 4 + zlen (List.concat (map wire_color (g_colors m))) + 1 + 1 + 1 + 1 + 1 + 1 + 1 + 1 + 4 + 4)
   by (unfold cf_wire_tail, zlen; rewrite !app_length; cbn [List.length u32le u8]; lia).
  unfold cf_wire_tail in A. splitapp A.
  unfold cf_tail. cbn [skipn config_facts].
  assert (Zc : is_u32 (zlen (g_colors m))) by (unfold is_u32, zlen in *; lia).
  destruct (rd_u32 _ _ _ _ Zc A) as [G At]. clear A.
  assert (CC := fun W K => colors_ok W K buff (g_colors m) (off + 4) [] _ H2 At).
  eapply doesf_of.
  - eapply does_forget; [unfold config_tail, config_pump|].
    { eapply db_rd; [exact G|]. cbv beta iota zeta. eapply db_assign; [in_K|vm_compute; reflexivity|].
      unfold zlen at 1. rewrite Nat2Z.id. 
      assert (A := proj2 (CC [] [])).
      eapply does_app0; [exact (proj1 (CC _ _))|]. clear CC. cbn [dloop app]. dsteps. }
    incl_c.
  - generalize (map color_entry (g_colors m)), (zlen (g_colors m)). intros ? ?. facts.
  - generalize (map color_entry (g_colors m)), (zlen (g_colors m)). intros ? ?. vm_compute. reflexivity.
Qed.

Definition pCC : path := pCTLCONFIG ++ [VALUE_CIRCUIT_COUNT].
Definition configF (d : dict) (m : config_msg) : list (path * pv) :=
  let md := model_from_type (g_ctype m) (g_htype m) in
  cf_head (old_firmware d) md m ++ (pCC, VInt (zlen (g_circuits m))) :: loopF (fun _ => ccirc_facts) ccU 0 (g_circuits m)
  ++ cf_tail (old_firmware d) md m.
Definition configU (m : config_msg) : list path :=
  cf_headU ++ pCC :: circX :: loopU ccU 0 (g_circuits m) ++ cf_tailU.
Lemma wire_config_eq m : wire_config m = cf_wire_head m ++ u32le (zlen (g_circuits m)) ++ List.concat (map wire_ccirc (g_circuits m)) ++ cf_wire_tail m.
Proof. unfold wire_config, cf_wire_head, cf_wire_tail. rewrite <- !app_assoc. reflexivity. Qed.
Lemma ccU_top i b : topU DEVICE_CIRCUIT (ccU i b). Proof. tops. Qed.
Lemma ccf_top (i : Z) c : topF DEVICE_CIRCUIT (ccirc_facts c). Proof. tops. Qed.
Lemma cf_head_top o md m : topF DEVICE_CONTROLLER (cf_head o md m). Proof. unfold cf_head. cbn [firstn config_facts]. tops. Qed.

Lemma config_does m tail d : config_ok m -> Shape d ->
  doesf (Wcf d) startK (config_body_all (wire_config m ++ tail)) (zlen (wire_config m)) K2 (configF d m) (configU m).
Proof.
  intros OK Sh. unfold config_ok in OK. unand. pose proof (at_start (wire_config m ++ tail)) as A.
  rewrite wire_config_eq in A at 2. splitapp A. set (buff := wire_config m ++ tail) in *. clearbody buff.
  unfold configF, configU. cbv zeta. set (md := model_from_type (g_ctype m) (g_htype m)).
  destruct (cf_head_does d buff m _ Sh H H0 H1 A) as [D At]. clear A.
  assert (Zc : is_u32 (zlen (g_circuits m))) by (unfold is_u32, zlen in *; lia).
  destruct (rd_u32 _ _ _ _ Zc At) as [G At1]. clear At.
  destruct (doesf_loop (fun _ => ccirc_facts) ccU (Wcf d) ([DEVICE_CIRCUIT] :: K2) buff (config_circuit buff)
        wire_ccirc ccirc_ok
        (fun i x off rest Ox Ax => ccirc_does d ([DEVICE_CIRCUIT] :: K2) buff i x off rest (or_introl eq_refl) Ox Ax)
        (g_circuits m) 0 _ _ H3 At1) as [DC At2]. clear At1.
  pose proof (cf_tail_does d buff m _ _ (old_firmware d) md H4 H5 H6 H7 At2) as DT. clear At2.
  replace (zlen (wire_config m)) with
    (16 + zlen (wire_name (g_name m)) + 4 + zlen (List.concat (map wire_ccirc (g_circuits m))) + zlen (cf_wire_tail m))
    by (rewrite wire_config_eq; unfold cf_wire_head, zlen; rewrite !app_length; cbn [List.length u32le u8]; lia).
  unfold config_body_all.
  eapply doesf_bind; [exact D| |].
  { eapply df_rd; [exact G|]. cbv beta iota zeta.
    eapply (df_set _ _ pCTLCONFIG VALUE_CIRCUIT_COUNT); [left; reflexivity|vm_compute; reflexivity| |].
    { eapply (df_def _ _ [] DEVICE_CIRCUIT _ _ _ _ _ [KS ""]); [right; left; reflexivity|vm_compute; reflexivity|vm_compute; reflexivity|].
      unfold zlen at 1. rewrite Nat2Z.id.
      eapply doesf_bind; [eapply df_weakK; [exact DC|]|exact DT|].
      { intros x Hx. right. exact Hx. }
      apply (apart_app (firstn 2 cf_tailU) (skipn 2 cf_tailU)); [|apply (apart_app (firstn 8 (skipn 2 cf_tailU)) (skipn 10 cf_tailU))].
      - apply (top_apart DEVICE_CONTROLLER DEVICE_CIRCUIT); [tops|apply loopF_top, ccf_top|reflexivity].
      - apply (top_apart DEVICE_PUMP DEVICE_CIRCUIT); [tops|apply loopF_top, ccf_top|reflexivity].
      - apply (top_apart DEVICE_CONTROLLER DEVICE_CIRCUIT); [tops|apply loopF_top, ccf_top|reflexivity]. }
    apply (apart_cons circX); [|apply apart_app].
    - vm_compute. reflexivity.
    - apply (top_apart DEVICE_CIRCUIT DEVICE_CONTROLLER); [apply loopU_top, ccU_top|tops|reflexivity].
    - vm_compute. reflexivity. }
  apply (apart_cons pCC); [|apply (apart_cons circX); [|apply apart_app]].
  - unfold cf_head. cbn [firstn config_facts]. vm_compute. reflexivity.
  - apply (top_apart DEVICE_CIRCUIT DEVICE_CONTROLLER); [tops|apply cf_head_top|reflexivity].
  - apply (top_apart DEVICE_CIRCUIT DEVICE_CONTROLLER); [apply loopU_top, ccU_top|apply cf_head_top|reflexivity].
  - unfold cf_head. cbn [firstn config_facts]. vm_compute. reflexivity.
Qed.

Lemma views_Wcf d : views (Wcf d) d.
Proof. intros q w [E|[]]; injection E as <- <-; reflexivity. Qed.

Lemma config_vals m tail d : config_ok m -> Shape d ->
  exists d', decode_pool_config (wire_config m ++ tail) d = (d', Ok tt)
  /\ all_hold d' (config_facts (old_firmware d) (model_from_type (g_ctype m) (g_htype m)) m)
  /\ (forall a c rest, g_circuits m = a ++ c :: rest -> ~ In (cc_id c) (map cc_id rest) -> all_hold d' (ccirc_facts c))
  /\ (forall i, ~ In i (map cc_id (g_circuits m)) -> dpget [KS "circuit"; KI i] d' = dpget [KS "circuit"; KI i] d).
Proof.
  intros OK Sh. pose proof (config_does m tail d OK Sh) as D.
  destruct (doesf_run _ _ _ _ _ _ d D Sh (views_Wcf d)) as (d' & E & H & Fr). exists d'.
  split; [unfold decode_pool_config, dunit, dbind; rewrite E; reflexivity|].
  unfold configF in H. cbv zeta in H. set (md := model_from_type _ _) in *.
  apply all_hold_app in H. destruct H as (Hh & H). inversion H as [|? ? Hc H']; subst. apply all_hold_app in H'. destruct H' as (Hl & Ht).
  split; [|split].
  - rewrite <- (firstn_skipn 13 (config_facts _ _ m)). apply all_hold_app. split; [exact Hh|].
    rewrite <- (firstn_skipn 1 (skipn 13 _)). apply all_hold_app. split; [constructor; [exact Hc|constructor]|exact Ht].
  - intros a c rest Ec N. eapply all_hold_incl; [exact Hl|]. rewrite Ec. intros f I. apply loopF_in.
    + exact I.
    + apply loopU_off. intros j x Ix _. unfold ccU.
      assert (X : exists s, @fst path pv f = DEVICE_CIRCUIT :: KI (cc_id c) :: s).
      { clear - I. cbn [In ccirc_facts] in I. repeat (destruct I as [<-|I]; [cbn [fst]; eexists; reflexivity|]). destruct I. }
      destruct X as (s & Es). rewrite Es. apply off_key, key_KI. intros Q. apply N. rewrite <- Q. apply in_map. exact Ix.
  - intros i N. apply Fr. unfold configU. 
    change (cf_headU ++ pCC :: circX :: loopU ccU 0 (g_circuits m) ++ cf_tailU)
      with (cf_headU ++ [pCC] ++ [circX] ++ loopU ccU 0 (g_circuits m) ++ cf_tailU).
    rewrite !off_app, !andb_true_iff. repeat split; try reflexivity.
    apply loopU_off. intros j x Ix _. unfold ccU. apply off_key, key_KI. intros Q. apply N. rewrite <- Q. apply in_map. exact Ix.
Qed.
