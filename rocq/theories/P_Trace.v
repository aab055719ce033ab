(** Every decoder, on every buffer, is a traced execution (P_Shape). *)
From Verif Require Import Py F64 Struct Utf Utility Const Enum Decode Shape P_Base P_Util P_Dict P_Idem P_Shape.

(** the places decoders read data back from *)
Definition qTU : path := [DEVICE_CONTROLLER; GROUP_CONFIGURATION; VALUE_IS_CELSIUS; ATTR_VALUE].
Definition qSP : path := [DEVICE_CONTROLLER; GROUP_CONFIGURATION; ATTR_BODY_TYPE].
Definition qMINOR : path := [DEVICE_ADAPTER; VALUE_FIRMWARE; ATTR_MINOR].
Definition qCIRC : path := [DEVICE_CIRCUIT].

Definition tu_of (o : option pv) : pv :=
  VStr (match o with Some v => if truthy v then UNIT_CELSIUS else UNIT_FAHRENHEIT | None => UNIT_FAHRENHEIT end).
Definition or_none (o : option pv) : pv := match o with Some v => v | None => VNone end.

Lemma shape_dict q k d v : Shape d -> In (ksp q, k) table -> (k = KCont \/ k = KDict) ->
  dpget q d = Some v -> exists dd, v = VDict dd.
Proof.
  intros S I K G. assert (M : matchp (ksp q) q = true).
  { clear. induction q as [|a q IH]; [reflexivity|]. cbn [ksp map matchp]. rewrite key_eqb_refl. exact IH. }
  specialize (S _ _ _ _ I M G). destruct K as [->| ->]; destruct v; try discriminate; eauto.
Qed.
Ltac in_table := cbv [table]; repeat (first [left; reflexivity | right]).
Ltac sdict d q G := 
  let H := fresh in let dd := fresh "dd" in
  destruct (fun S I K => shape_dict q KCont d _ S I K G) as (dd & H); [assumption|in_table|auto|subst].

Lemma py_get_step d p k : 
  py_get (match dpget p d with Some v => v | None => VDict [] end) k (VDict [])
  = match dpget p d with
    | Some (VDict _) | None => Ok (match dpget (p ++ [k]) d with Some v => v | None => VDict [] end)
    | Some _ => Err EAttribute end.
Proof.
  unfold dpget. rewrite pget_app. destruct (pget p (VDict d)) as [v|]; [|reflexivity].
  destruct v; try reflexivity. cbn [py_get pget]. destruct (dget k d0); reflexivity.
Qed.
Lemma py_get_last d p k : 
  py_get (match dpget p d with Some v => v | None => VDict [] end) k VNone
  = match dpget p d with
    | Some (VDict _) | None => Ok (or_none (dpget (p ++ [k]) d))
    | Some _ => Err EAttribute end.
Proof.
  unfold dpget. rewrite pget_app. destruct (pget p (VDict d)) as [v|]; [|reflexivity].
  destruct v; try reflexivity. cbn [py_get pget]. destruct (dget k d0); reflexivity.
Qed.
Lemma shape_step q k d (X : res pv) : Shape d -> In (ksp q, k) table -> (k = KCont \/ k = KDict) ->
  match dpget q d with Some (VDict _) | None => X | Some _ => Err EAttribute end = X.
Proof.
  intros S I K. destruct (dpget q d) as [v|] eqn:E; [|reflexivity].
  destruct (shape_dict q k d v S I K E) as (dd & ->). reflexivity.
Qed.

Lemma getTU d : Shape d -> getTemperatureUnit d = Ok (tu_of (dpget qTU d)).
Proof.
  intros S. unfold getTemperatureUnit.
  change (VDict d) with (match dpget [] d with Some v => v | None => VDict [] end).
  rewrite py_get_step. rewrite (shape_step [] KCont) by (auto; in_table). cbn [app rbind].
  rewrite py_get_step. rewrite (shape_step _ KCont) by (auto; in_table). cbn [app rbind].
  rewrite py_get_step. rewrite (shape_step _ KCont) by (auto; in_table). cbn [app rbind].
  rewrite py_get_last. rewrite (shape_step _ KDict) by (auto; in_table). cbn [app rbind].
  fold qTU. unfold tu_of, or_none. destruct (dpget qTU d); reflexivity.
Qed.
Lemma readSP d : Shape d -> read_body_setpoints d = Ok (or_none (dpget qSP d)).
Proof.
  intros S. unfold read_body_setpoints.
  change (VDict d) with (match dpget [] d with Some v => v | None => VDict [] end).
  rewrite py_get_step. rewrite (shape_step [] KCont) by (auto; in_table). cbn [app rbind].
  rewrite py_get_step. rewrite (shape_step _ KCont) by (auto; in_table). cbn [app rbind].
  rewrite py_get_last. rewrite (shape_step _ KCont) by (auto; in_table). reflexivity.
Qed.
Lemma readMINOR d : Shape d -> getAdapterVersion d = Ok (or_none (dpget qMINOR d)).
Proof.
  intros S. unfold getAdapterVersion.
  change (VDict d) with (match dpget [] d with Some v => v | None => VDict [] end).
  rewrite py_get_step. rewrite (shape_step [] KCont) by (auto; in_table). cbn [app rbind].
  rewrite py_get_step. rewrite (shape_step _ KCont) by (auto; in_table). cbn [app rbind].
  rewrite py_get_last. rewrite (shape_step _ KDict) by (auto; in_table). reflexivity.
Qed.

Ltac in_K := solve [repeat (first [assumption | left; reflexivity | right])].
Ltac incl_K := solve [repeat (first [apply incl_refl | assumption | apply incl_tl]) | intros ? []].
Ltac tr_ext := fail.
Ltac tr1 :=
  lazymatch goal with
  | |- traced _ _ (dbind _ _) _ => eapply tr_bind; [|intros ?]
  | |- traced _ _ (assign _ _ _) _ => apply tr_assign; [in_K|vm_compute; reflexivity]
  | |- traced _ _ (setdefault _ _ (VDict _)) _ => eapply tr_setdef; [in_K|vm_compute; reflexivity|vm_compute; reflexivity]
  | |- traced _ _ (setdefault _ _ _) _ => eapply tr_setdef_leaf; [in_K|vm_compute; reflexivity]
  | |- traced _ _ (rd _ _ _) _ => apply tr_res; incl_K
  | |- traced _ _ (rds _ _) _ => apply tr_res; incl_K
  | |- traced _ _ (rda _ _) _ => apply tr_res; incl_K
  | |- traced _ _ (dlift _) _ => apply tr_res; incl_K
  | |- traced _ _ (dret _) _ => apply tr_ret; incl_K
  | |- traced _ _ (draise _) _ => apply tr_res; incl_K
  | |- traced _ _ (match ?x with pair _ _ => _ end) _ => destruct x
  | |- traced _ _ (if ?c then _ else _) _ => destruct c
  | |- traced _ _ (rdata getTemperatureUnit) _ =>
      apply tr_rdata; intros ? ? ? ? Sm; rewrite !getTU by assumption; rewrite (Sm qTU) by in_K; reflexivity
  | |- traced _ _ (rdata read_body_setpoints) _ =>
      apply tr_rdata; intros ? ? ? ? Sm; rewrite !readSP by assumption; rewrite (Sm qSP) by in_K; reflexivity
  | |- traced _ _ (rdata getAdapterVersion) _ =>
      apply tr_rdata; intros ? ? ? ? Sm; rewrite !readMINOR by assumption; rewrite (Sm qMINOR) by in_K; reflexivity
  | |- _ => tr_ext
  end.
Ltac tr := cbv zeta; repeat (tr1; cbv zeta).
Ltac trw := eapply tr_widen; [tr | incl_K].

(** ---- status ---- *)
Definition Qstatus : list path := [qTU; qSP].

Lemma tr_status_body tu sp buff K : In [DEVICE_BODY] K -> forall i off,
  traced Qstatus K (status_body tu sp buff i off) K.
Proof. intros I i off. unfold status_body, status_body_setpoints. trw. Qed.
Lemma tr_status_circuit buff K : In [DEVICE_CIRCUIT] K -> forall i off,
  traced Qstatus K (status_circuit buff i off) K.
Proof. intros I i off. unfold status_circuit, status_circuit_id. trw. Qed.
Ltac tr_ext ::= first
  [ apply tr_dloop, tr_status_body; in_K | apply tr_dloop, tr_status_circuit; in_K ].
Lemma tr_status buff : traced Qstatus startK (decode_pool_status buff) [].
Proof.
  unfold decode_pool_status, dunit, status_body_all, status_head, status_tail.
  eapply tr_bind; [tr | intros _; tr].
Qed.

(** ---- config ---- *)
Definition Qconfig : list path := [qMINOR].
Lemma tr_config_setpoint buff K : In qSP K -> forall i off, traced Qconfig K (config_setpoint buff i off) K.
Proof. intros I i off. unfold config_setpoint. trw. Qed.
Lemma tr_config_circuit buff K : In [DEVICE_CIRCUIT] K -> forall i off, traced Qconfig K (config_circuit buff i off) K.
Proof. intros I i off. unfold config_circuit. trw. Qed.
Lemma tr_config_pump buff K : In [DEVICE_PUMP] K -> forall i off, traced Qconfig K (config_pump buff i off) K.
Proof. intros I i off. unfold config_pump. trw. Qed.
Lemma tr_config_colors buff K n : forall off acc, traced Qconfig K (config_colors n buff off acc) K.
Proof. induction n as [|n IH]; intros off acc; cbn [config_colors]; [tr|]. tr. apply IH. Qed.
Ltac tr_ext ::= first
  [ apply tr_dloop, tr_config_setpoint; in_K | apply tr_dloop, tr_config_circuit; in_K
  | apply tr_dloop, tr_config_pump; in_K | apply tr_config_colors ].
Lemma tr_config buff : traced Qconfig startK (decode_pool_config buff) [].
Proof.
  unfold decode_pool_config, dunit, config_body_all, config_head.
  eapply tr_bind; [tr | intros _; tr].
Qed.

(** ---- chemistry ---- *)
Definition Qchem : list path := [qTU].
Lemma tr_chem buff : traced Qchem startK (decode_chemistry buff) [].
Proof.
  unfold decode_chemistry, dunit, chem_body_all, chem_part1, chem_part2, chem_part3, chem_part4.
  eapply tr_bind; [tr | intros _; tr].
Qed.

(** ---- pump ---- *)
Definition Qpump : list path := [qCIRC].
Lemma name_step_same did name d d' : same Qpump d d' -> pump_name_step did name d = pump_name_step did name d'.
Proof.
  intros S. specialize (S qCIRC). unfold qCIRC, dpget in S. cbn [pget] in S. unfold pump_name_step.
  assert (E : dget DEVICE_CIRCUIT d = dget DEVICE_CIRCUIT d').
  { assert (X := S (or_introl eq_refl)). destruct (dget DEVICE_CIRCUIT d), (dget DEVICE_CIRCUIT d'); congruence. }
  rewrite E. reflexivity.
Qed.
Lemma tr_name_step did name K : traced Qpump K (rdata (pump_name_step did name)) K.
Proof. apply tr_rdata. intros. apply name_step_same. assumption. Qed.
Lemma tr_pump_presets buff idx n : forall K, In [DEVICE_PUMP; KI idx; VALUE_PRESET] K -> forall i name off,
  traced Qpump K (pump_presets n i idx buff name off) K.
Proof.
  induction n as [|n IH]; intros K I i name off; cbn [pump_presets]; [tr|].
  eapply tr_widen.
  - tr1; [tr1|]. cbv zeta. tr1; [tr1|]. tr1. tr1; [tr1|]. tr1; [apply tr_name_step|]. tr; [].
    apply IH. in_K.
  - incl_K.
Qed.
Ltac tr_ext ::= apply tr_pump_presets; in_K.
Lemma tr_pump buff idx : traced Qpump startK (decode_pump_status buff idx) [].
Proof.
  unfold decode_pump_status, dunit, pump_body_all.
  eapply tr_bind; [tr | intros _; tr].
Qed.

(** ---- the others ---- *)
Lemma tr_scg buff : traced [] startK (decode_scg_config buff) [].
Proof. unfold decode_scg_config, dunit, scg_body_all. eapply tr_bind; [tr | intros _; tr]. Qed.
Lemma tr_version fl buff : traced [] startK (decode_version fl buff) [].
Proof. unfold decode_version. trw. Qed.
Lemma tr_datetime host buff : traced [] startK (decode_date_time host buff) [].
Proof. unfold decode_date_time, dunit, datetime_body. eapply tr_bind; [tr | intros _; tr]. Qed.
Lemma tr_color buff : traced [] startK (decode_color_update buff) [].
Proof. unfold decode_color_update, dunit, color_body. eapply tr_bind; [tr | intros _; tr]. Qed.
Lemma tr_equipment buff : traced [] startK (decode_equipment_config buff) [].
Proof. unfold decode_equipment_config, dunit, equipment_body, equip_array. eapply tr_bind; [tr | intros _; tr]. Qed.
