(** Truncated messages (C37). *)
From Verif Require Import Py F64 Struct Utf Utility Const Enum Decode Spec Messages Meaning Shape P_Base P_Util P_Str P_Time P_Dict P_Idem P_Shape P_Trace P_Does P_Facts P_Vals1 P_Sym P_Vals3 P_Vals4 P_Frame.

Lemma dunit_err m d d' e : m d = (d', Err e) -> dunit m d = (d', Err e).
Proof. intros E. unfold dunit, dbind. rewrite E. reflexivity. Qed.
Lemma le_dunit m1 m2 : le m1 m2 -> le (dunit m1) (dunit m2).
Proof. intros L. unfold dunit. apply le_bind; [exact L|]. intros a. apply le_refl. Qed.

Lemma status_trunc m p e d : status_ok m -> Shape d -> limits_complete d -> wire_status m = p ++ e -> e <> [] ->
  exists d', decode_pool_status p d = (d', Err EStruct).
Proof.
  intros OK Sh L E N. destruct (status_does m [] d OK Sh L) as (K' & D).
  destruct (doesf_run _ _ _ _ _ _ d D Sh (views_Wst d)) as (d' & R & _). rewrite app_nil_r in R.
  destruct (prefix_fails status_body_all (wire_status m) d le_status end_status (ex_intro _ d' R) p e E N) as (d2 & F).
  exists d2. apply dunit_err. exact F.
Qed.
Lemma config_trunc m p e d : config_ok m -> Shape d -> wire_config m = p ++ e -> e <> [] ->
  exists d', decode_pool_config p d = (d', Err EStruct).
Proof.
  intros OK Sh E N. pose proof (config_does m [] d OK Sh) as D.
  destruct (doesf_run _ _ _ _ _ _ d D Sh (views_Wcf d)) as (d' & R & _). rewrite app_nil_r in R.
  destruct (prefix_fails config_body_all (wire_config m) d le_config end_config (ex_intro _ d' R) p e E N) as (d2 & F).
  exists d2. apply dunit_err. exact F.
Qed.
Lemma color_trunc m p e d : color_update_ok m -> Shape d -> wire_color_update m = p ++ e -> e <> [] ->
  exists d', decode_color_update p d = (d', Err EStruct).
Proof.
  intros OK Sh E N. 
  assert (R : exists d', color_body (wire_color_update m) d = (d', Ok (zlen (wire_color_update m)))).
  { replace (zlen (wire_color_update m)) with (0 + 4 + 4 + 4 + zlen (wire_name (cu_text m)))
      by (unfold wire_color_update; rewrite !zlen_app; change (zlen (u32le (cu_mode m))) with 4; change (zlen (u32le (cu_limit m))) with 4; change (zlen (u32le (cu_progress m))) with 4; lia).
    unfold color_update_ok in OK. unand. pose proof (at_start (wire_color_update m)) as A.
    rewrite <- (app_nil_r (wire_color_update m)) in A at 2.
    unfold wire_color_update in A at 2. splitapp A. set (buff := wire_color_update m) in *. clearbody buff. clear E.
    enough (X : exists d', color_body buff d = (d', Ok (0 + 4 + 4 + 4 + zlen (wire_name (cu_text m)))) /\ all_hold d' [])
      by (destruct X as (d' & X & _); exists d'; exact X).
    eapply (does_run []); [|exact Sh|intros ? ? []|constructor].
    unfold color_body. dsteps. }
  destruct (prefix_fails color_body (wire_color_update m) d le_color end_color R p e E N) as (d2 & F).
  exists d2. apply dunit_err. exact F.
Qed.

Lemma text_trunc n p e : name_ok n -> wire_name n = p ++ e -> zlen p < 4 + zlen (encoded n) ->
  decodeMessageString p = Err EStruct.
Proof.
  intros [_ L] E S. unfold wire_name, wire_string in E. pose proof (zlen_nonneg (encoded n)) as P.
  set (k := encoded n) in *. set (w := zlen k + (if fst n then 2147483648 else 0)) in *.
  assert (W : is_u32 w) by (unfold is_u32, w; destruct (fst n); lia).
  unfold decodeMessageString.
  destruct (rle_unpack p e FI 0) as [X|X]; rewrite X; [|reflexivity]. rewrite <- E.
  rewrite (unpack_FI_u32 _ 0 w _ (at_start _) W). cbn [rbind]. cbv zeta.
  set (sz := if negb (Z.land w 2147483648 =? 0) then _ else _).
  assert (Sz : sz = zlen k).
  { unfold sz. rewrite land_hi by exact W. unfold w. destruct (fst n).
    - replace (zlen k + 2147483648 <? 2147483648) with false by lia. cbn [negb]. rewrite land_lo. lia.
    - rewrite Z.add_0_r. replace (zlen k <? 2147483648) with true by lia. reflexivity. }
  rewrite Sz. unfold unpack_bytes_from.
  replace ((0 <=? 4) && (0 <=? zlen k) && (4 + zlen k <=? zlen p)) with false by lia. reflexivity.
Qed.
Lemma version_trunc fl n p e d : name_ok n -> Shape d -> wire_name n = p ++ e -> zlen p < 4 + zlen (encoded n) ->
  exists d', decode_version fl p d = (d', Err EStruct).
Proof.
  intros OK Sh E S. unfold decode_version. unfold dbind at 1.
  destruct (does_setdef [] startK [] DEVICE_ADAPTER [] (or_introl eq_refl) eq_refl eq_refl) as [_ M].
  destruct (M d Sh (fun _ _ (H : In _ []) => match H with end) (startK_knows d)) as (_ & R & _). rewrite R.
  unfold dbind at 1. rewrite (text_trunc n p e OK E S). eexists. reflexivity.
Qed.

Lemma bind_assoc {A B C} (m : DM A) (f : A -> DM B) (g : B -> DM C) d :
  dbind (dbind m f) g d = dbind m (fun x => dbind (f x) g) d.
Proof. unfold dbind. destruct (m d) as [d' [a|e]]; reflexivity. Qed.
Lemma bind_ext {A B} (m : DM A) (f g : A -> DM B) d : (forall a d, f a d = g a d) -> dbind m f d = dbind m g d.
Proof. intros H. unfold dbind. destruct (m d) as [d' [a|e]]; [apply H|reflexivity]. Qed.
Lemma equip_split b d : equipment_body b d = dbind (equip_pre b) (equip_array "spaFlowsDataArray" b) d.
Proof.
  unfold equipment_body, equip_pre. 
  repeat (cbv beta iota zeta; match goal with |- dbind ?m ?f ?d = dbind (dbind ?m ?g) ?h ?d => 
     rewrite (bind_assoc m g h d); apply bind_ext; let a := fresh "a" in let d' := fresh in intros a d'; 
     lazymatch type of a with prod _ _ => destruct a as [? ?] | _ => idtac end end).
  reflexivity.
Qed.
Lemma equip_trunc m p e d : equip_ok m -> Shape d -> wire_equip m = p ++ e ->
  zlen (snd (q_spaflows m)) < zlen e -> exists d', decode_equipment_config p d = (d', Err EStruct).
Proof.
  intros OK Sh E N. unfold decode_equipment_config.
  enough (X : exists d', equipment_body p d = (d', Err EStruct)) by (destruct X as (d' & X); exists d'; apply dunit_err; exact X).
  rewrite equip_split. 
  set (o := zlen (wire_equip m) - zlen (wire_arr (q_spaflows m))).
  assert (R : exists d', equip_pre (wire_equip m) d = (d', Ok o)).
  { assert (Ho : o = 0 + 1 + 1 + 1 + 1 + 4 + zlen (wire_arr (q_version m)) + zlen (wire_arr (q_speed m)) + zlen (wire_arr (q_valve m)) 
      + zlen (wire_arr (q_remote m)) + zlen (wire_arr (q_sensor m)) + zlen (wire_arr (q_delay m)) + zlen (wire_arr (q_macros m)) 
      + zlen (wire_arr (q_misc m)) + zlen (wire_arr (q_light m)) + zlen (wire_arr (q_flows m)) + zlen (wire_arr (q_sgs m))).
    { unfold o, wire_equip. rewrite !zlen_app. change (zlen (u32le (q_cdata m))) with 4. 
      change (zlen (u8 (q_ctype m))) with 1. change (zlen (u8 (q_htype m))) with 1. change (zlen (u8 (q_unk2 m))) with 1. change (zlen (u8 (q_unk3 m))) with 1. lia. }
    rewrite Ho. clear Ho o. unfold equip_ok in OK. unand. pose proof (at_start (wire_equip m)) as A.
    unfold wire_equip in A at 2. splitapp A. set (buff := wire_equip m) in *. clearbody buff. clear E N.
    match goal with |- exists d', _ = (d', Ok ?o) =>
      enough (X : exists d', equip_pre buff d = (d', Ok o) /\ all_hold d' [])
        by (destruct X as (d' & X & _); exists d'; exact X) end.
    eapply (does_run []); [|exact Sh|intros ? ? []|constructor].
    unfold equip_pre, equip_array. cbv beta iota zeta. repeat (first [dstep|rdarr]; cbv beta iota zeta). }
  destruct R as (d1 & R).
  pose proof (le_equip_pre p e) as Le.
  destruct (Le d) as [X|X].
  - rewrite <- E, R in X. unfold dbind. rewrite X. unfold equip_array, dbind.
    assert (G : getArray p o = Err EStruct).
    { unfold equip_ok in OK. unand. assert (Oa : arr_ok (q_spaflows m)) by assumption. destruct Oa as [A1 A2].
      assert (Lp : zlen p < o + 4 + zlen (fst (q_spaflows m))).
      { unfold o. rewrite E. rewrite zlen_app. unfold wire_arr, wire_array. rewrite !zlen_app. change (zlen (u32le (zlen (fst (q_spaflows m))))) with 4. lia. }
      destruct (Z_lt_ge_dec (zlen p) (o + 4)) as [Hs|Hs]; [apply getArray_nocount; exact Hs|].
      apply getArray_truncated with (n := zlen (fst (q_spaflows m))); [|lia|exact Lp].
      assert (At : at_ (p ++ e) o (wire_arr (q_spaflows m))).
      { rewrite <- E. unfold o. exists (firstn (Z.to_nat o) (wire_equip m)).
        assert (W : exists w1, wire_equip m = w1 ++ wire_arr (q_spaflows m)) by (unfold wire_equip; rewrite !app_assoc; eexists; reflexivity).
        destruct W as (w1 & W). unfold o. rewrite W, zlen_app. replace (zlen w1 + zlen (wire_arr (q_spaflows m)) - zlen (wire_arr (q_spaflows m))) with (zlen w1) by lia.
        rewrite firstn_zlen_app. auto. }
      destruct (rle_some p e FI o) as [Y|Y].
      - rewrite Y. unfold wire_arr, wire_array in At. rewrite (getSome_u32 _ _ _ _ At); [reflexivity|].
        unfold is_u32. pose proof (zlen_nonneg (fst (q_spaflows m))). lia.
      - exfalso. unfold getSome, unpack_from in Y. cbn [fsize] in Y.
        assert (0 <= o) by (destruct At as (pre0 & _ & <-); apply zlen_nonneg).
        replace ((0 <=? o) && (o + 4 <=? zlen p)) with true in Y by lia. discriminate. }
    unfold rda, dlift. rewrite G. eauto.
  - unfold dbind. destruct (equip_pre p d) as [d2 r]. cbn [snd] in X. subst. eauto.
Qed.

Lemma short_fails (body : bytes -> DM Z) n p d : (forall b, post (fun _ => n <= zlen b) (body b)) -> zlen p < n ->
  exists d' e, dunit (body p) d = (d', Err e).
Proof.
  intros P L. unfold dunit, dbind. destruct (body p d) as [d' [a|e]] eqn:E; [|eauto].
  pose proof (P p _ _ _ E) as Q. cbv beta in Q. lia.
Qed.
