(** Assembling the decoder theorems. *)
From Verif Require Import Py F64 Struct Utf Utility Const Enum Decode Spec Messages Meaning Shape SpecEnum Calls P_Base P_Util P_Str P_Time P_Dict P_Idem P_Shape P_Trace P_Does P_Facts P_Vals1 P_Vals2 P_Sym P_Vals3 P_Vals4 P_Vals5 P_Frame P_Trunc P_Enum.

Lemma pump_vals m tail d t idx : pump_ok m -> Shape d -> circuit_table d = Some t ->
  exists d', decode_pump_status (wire_pump m ++ tail) idx d = (d', Ok tt)
  /\ all_hold d' (pump_facts idx (pump_title (pump_label t (p_presets m))) m)
  /\ (p_state m < 2147483648 -> holds d' [KS "pump"; KI idx; KS "state"; KS "value"] (VInt (p_state m)))
  /\ (forall j, j <> idx -> dpget [KS "pump"; KI j] d' = dpget [KS "pump"; KI j] d).
Proof.
  intros OK Sh T. destruct (pump_does m tail d t idx OK T) as (off & K' & D).
  destruct (doesf_run _ _ _ _ _ _ d D Sh (views_Wpu d)) as (d' & E & H & Fr). exists d'.
  split; [unfold decode_pump_status, dunit, dbind; rewrite E; reflexivity|].
  apply all_hold_app in H. destruct H as [Hf Hr]. split; [exact Hf|]. split.
  - intros L. unfold run_facts in Hr. replace (p_state m <? 2147483648) with true in Hr by lia.
    inversion Hr; subst. assumption.
  - intros j N. apply Fr. unfold off_all, pumpU. cbn [forallb]. unfold incomp. 
    cbn. destruct (Z.eqb_spec idx j); [congruence|]. destruct (Z.eqb_spec j idx); [congruence|]. reflexivity.
Qed.

Lemma config_vals_model m tail d : config_ok m -> Shape d ->
  exists d' model, decode_pool_config (wire_config m ++ tail) d = (d', Ok tt)
  /\ is_model (g_ctype m) (g_htype m) model
  /\ all_hold d' (config_facts (old_firmware d) model m)
  /\ (forall a c rest, g_circuits m = a ++ c :: rest -> ~ In (cc_id c) (map cc_id rest) -> all_hold d' (ccirc_facts c))
  /\ (forall i, ~ In i (map cc_id (g_circuits m)) -> dpget [KS "circuit"; KI i] d' = dpget [KS "circuit"; KI i] d).
Proof.
  intros OK Sh. destruct (config_vals m tail d OK Sh) as (d' & R & H). exists d', (model_from_type (g_ctype m) (g_htype m)).
  split; [exact R|]. split; [apply model_spec|]. exact H.
Qed.

Lemma not_in_keys k ks : ~ In k ks -> existsb (key_eqb k) ks = false.
Proof.
  intros N. destruct (existsb (key_eqb k) ks) eqn:E; [|reflexivity]. apply existsb_exists in E.
  destruct E as (x & I & E). apply key_eqb_eq in E. subst. contradiction.
Qed.
Lemma frame_all c d k : ~ In k (sections c) -> dget k (fst (run_decoder c d)) = dget k d.
Proof.
  intros N. apply not_in_keys in N. destruct c; cbn [run_decoder sections] in *; revert N.
  - apply ke_status. - apply ke_config. - apply ke_chem. - apply ke_pump. - apply ke_scg. - apply ke_version.
  - apply ke_datetime. - apply ke_color. - apply ke_equip.
Qed.
Lemma traced_all c : exists Q, traced Q startK (run_decoder c) [].
Proof.
  destruct c; eexists; cbn [run_decoder].
  - apply tr_status. - apply tr_config. - apply tr_chem. - apply tr_pump. - apply tr_scg. - apply tr_version.
  - apply tr_datetime. - apply tr_color. - apply tr_equipment.
Qed.
Lemma idem_all c d : Shape d -> run_decoder c (fst (run_decoder c d)) = run_decoder c d.
Proof. intros S. destruct (traced_all c) as (Q & T). eapply traced_idem; eauto. Qed.
Lemma shape_all c d : Shape d -> Shape (fst (run_decoder c d)).
Proof. intros S. destruct (traced_all c) as (Q & T). eapply traced_shape; eauto. Qed.
Lemma shape_nil : Shape [].
Proof.
  intros r k q v I M E. unfold dpget in E. destruct q as [|a q]; cbn in E.
  - injection E as <-. destruct r as [|[] r]; try discriminate M.
    repeat (destruct I as [I|I]; [first [discriminate I | (injection I as <-; reflexivity)]|]). destruct I.
  - discriminate.
Qed.
Lemma history_shape l : forall d, Shape d -> Shape (history l d).
Proof. induction l as [|c l IH]; intros d S; cbn [history]; [exact S|]. apply IH, shape_all, S. Qed.

(** the minimum length of the fixed-size messages *)
Definition min_len (c : call) : Z :=
  match c with DScg _ => 28 | DDate _ _ => 20 | DChem _ => 47 | DPump _ _ => 124 | _ => 0 end.
Definition buffer (c : call) : bytes :=
  match c with DStatus b | DConfig b | DChem b | DPump _ b | DScg b | DVersion _ b | DDate _ b | DColor b | DEquip b => b end.
Lemma short_all c d : zlen (buffer c) < min_len c -> exists e, snd (run_decoder c d) = Err e.
Proof.
  intros L. pose proof (zlen_nonneg (buffer c)) as P.
  assert (X : exists d' e, run_decoder c d = (d', Err e)).
  { destruct c; cbn [min_len buffer run_decoder] in *; try lia.
    - eapply short_fails; [apply len_chem|exact L].
    - eapply (short_fails (fun b => pump_body_all b idx)); [intros b; apply len_pump|exact L].
    - eapply short_fails; [apply len_scg|exact L].
    - eapply (short_fails (datetime_body host)); [intros b; apply len_datetime|exact L]. }
  destruct X as (d' & e & X). exists e. rewrite X. reflexivity.
Qed.
Definition with_buffer (c : call) (b : bytes) : call :=
  match c with
  | DStatus _ => DStatus b | DConfig _ => DConfig b | DChem _ => DChem b | DPump i _ => DPump i b
  | DScg _ => DScg b | DVersion f _ => DVersion f b | DDate h _ => DDate h b | DColor _ => DColor b | DEquip _ => DEquip b
  end.
Lemma prefix_all c p e d :
  run_decoder (with_buffer c p) d = run_decoder (with_buffer c (p ++ e)) d
  \/ snd (run_decoder (with_buffer c p) d) = Err EStruct.
Proof.
  destruct c; cbn [with_buffer run_decoder].
  - apply (le_dunit (status_body_all p)), le_status.
  - apply (le_dunit (config_body_all p)), le_config.
  - apply (le_dunit (chem_body_all p)), le_chem.
  - apply (le_dunit (pump_body_all p idx)), le_pump.
  - apply (le_dunit (scg_body_all p)), le_scg.
  - apply le_version.
  - apply (le_dunit (datetime_body host p)), le_datetime.
  - apply (le_dunit (color_body p)), le_color.
  - apply (le_dunit (equipment_body p)), le_equip.
Qed.

Lemma config_limits m tail d : config_ok m -> Shape d -> limits_complete (fst (decode_pool_config (wire_config m ++ tail) d)).
Proof.
  intros OK Sh. destruct (config_vals m tail d OK Sh) as (d' & R & H & _). rewrite R. cbn [fst].
  unfold config_facts in H. cbv zeta in H. unfold all_hold in H.
  repeat match goal with H : Forall _ (_ :: _) |- _ => inversion H; clear H; subst end.
  unfold holds in *. cbn [fst snd] in *. intros t dd [-> | ->] E; right.
  - exists (VInt (g_min0 m)), (VInt (g_max0 m)).
    change [KS "controller"; KS "configuration"; KS "body_type"; KI 0; KS "min_setpoint"] with ([KS "controller"; KS "configuration"; KS "body_type"; KI 0] ++ [KS "min_setpoint"]) in *.
    change [KS "controller"; KS "configuration"; KS "body_type"; KI 0; KS "max_setpoint"] with ([KS "controller"; KS "configuration"; KS "body_type"; KI 0] ++ [KS "max_setpoint"]) in *.
    unfold dpget in *. rewrite pget_app in *. rewrite E in *. cbn [pget] in *. 
    destruct (dget (KS "min_setpoint") dd), (dget (KS "max_setpoint") dd); try discriminate. split; congruence.
  - exists (VInt (g_min1 m)), (VInt (g_max1 m)).
    change [KS "controller"; KS "configuration"; KS "body_type"; KI 1; KS "min_setpoint"] with ([KS "controller"; KS "configuration"; KS "body_type"; KI 1] ++ [KS "min_setpoint"]) in *.
    change [KS "controller"; KS "configuration"; KS "body_type"; KI 1; KS "max_setpoint"] with ([KS "controller"; KS "configuration"; KS "body_type"; KI 1] ++ [KS "max_setpoint"]) in *.
    unfold dpget in *. rewrite pget_app in *. rewrite E in *. cbn [pget] in *. 
    destruct (dget (KS "min_setpoint") dd), (dget (KS "max_setpoint") dd); try discriminate. split; congruence.
Qed.
