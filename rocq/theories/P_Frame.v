(** Framing (C36) and truncation (C37) of the decoders. *)
From Verif Require Import Py F64 Struct Utf Utility Const Enum Decode Spec Messages Meaning Shape P_Base P_Util P_Str P_Time P_Dict P_Idem P_Shape P_Trace P_Does P_Facts.

(** ---- C36: only the named top-level sections change, on every path ---- *)
Definition keeps (ks : list key) {A} (m : DM A) : Prop :=
  forall d k, existsb (key_eqb k) ks = false -> dget k (fst (m d)) = dget k d.

Lemma keeps_bind ks {A B} (m : DM A) (f : A -> DM B) : keeps ks m -> (forall a, keeps ks (f a)) -> keeps ks (dbind m f).
Proof.
  intros M F d k N. specialize (M d k N). unfold dbind. destruct (m d) as [d' [a|e]]; cbn [fst] in *; [|exact M].
  rewrite (F a d' k N). exact M.
Qed.
Lemma keeps_lift ks {A} (r : res A) : keeps ks (dlift r). Proof. intros d k _. reflexivity. Qed.
Lemma keeps_ret ks {A} (a : A) : keeps ks (dret a). Proof. intros d k _. reflexivity. Qed.
Lemma keeps_rdata ks {A} (f : dict -> res A) : keeps ks (rdata f). Proof. intros d k _. reflexivity. Qed.
Lemma keeps_upd ks k0 p (f : dict -> option dict) (d d' : dict) k : existsb (key_eqb k0) ks = true ->
  existsb (key_eqb k) ks = false -> upd_at (k0 :: p) f d = Some d' -> dget k d' = dget k d.
Proof.
  intros I N. cbn [upd_at]. destruct (dget k0 d) as [[]|]; try discriminate.
  destruct (upd_at p f d0); [|discriminate]. intros E; injection E as <-. rewrite dget_dset.
  destruct (key_eqb k k0) eqn:X; [|reflexivity]. apply key_eqb_eq in X. subst. congruence.
Qed.
Lemma keeps_assign ks p k0 v : existsb (key_eqb (hd k0 p)) ks = true -> keeps ks (assign p k0 v).
Proof.
  intros I d k N. unfold assign. destruct p as [|a p].
  - cbn [upd_at hd fst] in *. rewrite dget_dset. destruct (key_eqb k k0) eqn:X; [|reflexivity].
    apply key_eqb_eq in X. subst. congruence.
  - destruct (upd_at (a :: p) _ d) eqn:E; [|reflexivity]. cbn [fst hd] in *. eapply keeps_upd; eassumption.
Qed.
Lemma keeps_setdef ks p k0 v : existsb (key_eqb (hd k0 p)) ks = true -> keeps ks (setdefault p k0 v).
Proof.
  intros I d k N. unfold setdefault. destruct p as [|a p].
  - cbn [upd_at hd fst] in *. destruct (din k0 d); [reflexivity|]. rewrite dget_dset. destruct (key_eqb k k0) eqn:X; [|reflexivity].
    apply key_eqb_eq in X. subst. congruence.
  - destruct (upd_at (a :: p) _ d) eqn:E; [|reflexivity]. cbn [fst hd] in *. eapply keeps_upd; eassumption.
Qed.
Lemma keeps_loop ks n body : (forall i off, keeps ks (body i off)) -> forall i off, keeps ks (dloop n i body off).
Proof.
  intros B. induction n as [|n IH]; intros i off; cbn [dloop]; [apply keeps_ret|]. apply keeps_bind; [apply B|]. intros a. apply IH.
Qed.
Ltac ke_ext := fail.
Ltac ke1 := lazymatch goal with
  | |- keeps _ (dbind _ _) => apply keeps_bind; [|intros ?]
  | |- keeps _ (assign _ _ _) => apply keeps_assign; vm_compute; reflexivity
  | |- keeps _ (setdefault _ _ _) => apply keeps_setdef; vm_compute; reflexivity
  | |- keeps _ (dlift _) => apply keeps_lift
  | |- keeps _ (rd _ _ _) => apply keeps_lift
  | |- keeps _ (rds _ _) => apply keeps_lift
  | |- keeps _ (rda _ _) => apply keeps_lift
  | |- keeps _ (dret _) => apply keeps_ret
  | |- keeps _ (rdata _) => apply keeps_rdata
  | |- keeps _ (match ?x with pair _ _ => _ end) => destruct x
  | |- keeps _ (if ?c then _ else _) => destruct c
  | |- keeps _ (dloop _ _ _ _) => apply keeps_loop; intros ? ?
  | |- _ => ke_ext
  end.
Ltac ke := cbv zeta; repeat (ke1; cbv zeta).

Lemma ke_status b : keeps [DEVICE_CONTROLLER; DEVICE_BODY; DEVICE_CIRCUIT] (decode_pool_status b).
Proof.
  unfold decode_pool_status, dunit, status_body_all, status_head, status_tail, status_body, status_body_setpoints, status_circuit, status_circuit_id. ke.
Qed.
Lemma ke_colors ks n b : forall off acc, keeps ks (config_colors n b off acc).
Proof. induction n as [|n IH]; intros off acc; cbn [config_colors]; ke. apply IH. Qed.
Ltac ke_ext ::= apply ke_colors.
Lemma ke_config b : keeps [DEVICE_CONTROLLER; DEVICE_CIRCUIT; DEVICE_PUMP] (decode_pool_config b).
Proof. unfold decode_pool_config, dunit, config_body_all, config_head, config_setpoint, config_circuit, config_pump. ke. Qed.
Lemma ke_chem b : keeps [DEVICE_INTELLICHEM] (decode_chemistry b).
Proof. unfold decode_chemistry, dunit, chem_body_all, chem_part1, chem_part2, chem_part3, chem_part4. ke. Qed.
Lemma ke_presets n b idx : forall i name off, keeps [DEVICE_PUMP] (pump_presets n i idx b name off).
Proof. induction n as [|n IH]; intros i name off; cbn [pump_presets]; ke. apply IH. Qed.
Ltac ke_ext ::= apply ke_presets.
Lemma ke_pump b idx : keeps [DEVICE_PUMP] (decode_pump_status b idx).
Proof. unfold decode_pump_status, dunit, pump_body_all. ke. Qed.
Lemma ke_scg b : keeps [DEVICE_SCG] (decode_scg_config b).
Proof. unfold decode_scg_config, dunit, scg_body_all. ke. Qed.
Lemma ke_version fl b : keeps [DEVICE_ADAPTER] (decode_version fl b).
Proof. unfold decode_version. ke. Qed.
Lemma ke_datetime h b : keeps [DEVICE_CONTROLLER] (decode_date_time h b).
Proof. unfold decode_date_time, dunit, datetime_body. ke. Qed.
Lemma ke_color b : keeps [DEVICE_CONTROLLER] (decode_color_update b).
Proof. unfold decode_color_update, dunit, color_body. ke. Qed.
Lemma ke_equip b : keeps [KS "equipment"] (decode_equipment_config b).
Proof. unfold decode_equipment_config, dunit, equipment_body, equip_array. ke. Qed.

(** equipment: everything up to the last array *)
Definition equip_pre (buff : bytes) : DM Z :=
  (setdefault [] (KS "equipment") (VDict []) ;;;
  '(ct, offset) <- rd FB buff 0 ;;
  assign pEQUIP (KS "controllerType") (VInt ct) ;;;
  '(ht, offset) <- rd FB buff offset ;;
  assign pEQUIP (KS "hardwareType") (VInt ht) ;;;
  '(x2, offset1) <- rd FB buff offset ;;
  assign pEQUIP (UNKNOWN offset) (VInt x2) ;;;
  '(x3, offset2) <- rd FB buff offset1 ;;
  assign pEQUIP (UNKNOWN offset1) (VInt x3) ;;;
  '(cd, offset) <- rd FI buff offset2 ;;
  assign pEQUIP (KS "controllerData") (VInt cd) ;;;
  offset <- equip_array "versionDataArray" buff offset ;;
  offset <- equip_array "speedDataArray" buff offset ;;
  offset <- equip_array "valveDataArray" buff offset ;;
  offset <- equip_array "remoteDataArray" buff offset ;;
  offset <- equip_array "sensorDataArray" buff offset ;;
  offset <- equip_array "delayDataArray" buff offset ;;
  offset <- equip_array "macrosDataArray" buff offset ;;
  offset <- equip_array "miscDataArray" buff offset ;;
  offset <- equip_array "lightDataArray" buff offset ;;
  offset <- equip_array "flowsDataArray" buff offset ;;
  equip_array "sgsDataArray" buff offset)%dm.

(** ---- C37: reading a prefix gives the same result or struct.error ---- *)
Definition rle {A} (r1 r2 : res A) : Prop := r1 = r2 \/ r1 = Err EStruct.
Definition le {A} (m1 m2 : DM A) : Prop := forall d, m1 d = m2 d \/ snd (m1 d) = Err EStruct.
Lemma le_bind {A B} (m1 m2 : DM A) (f1 f2 : A -> DM B) : le m1 m2 -> (forall a, le (f1 a) (f2 a)) -> le (dbind m1 f1) (dbind m2 f2).
Proof.
  intros M F d. unfold dbind. destruct (M d) as [->|E].
  - destruct (m2 d) as [d' [a|e]]; [apply F|left; reflexivity].
  - destruct (m1 d) as [d' [a|e]]; cbn [snd] in E; [discriminate|]. injection E as ->. right. reflexivity.
Qed.
Lemma le_refl {A} (m : DM A) : le m m. Proof. intros d. left. reflexivity. Qed.
Lemma le_lift {A} (r1 r2 : res A) : rle r1 r2 -> le (dlift r1) (dlift r2).
Proof. intros [->| ->] d; [left|right]; reflexivity. Qed.
Lemma rle_bind {A B} (r1 r2 : res A) (f1 f2 : A -> res B) : rle r1 r2 -> (forall a, rle (f1 a) (f2 a)) -> rle (rbind r1 f1) (rbind r2 f2).
Proof. intros [->| ->] F; [destruct r2; [apply F|left; reflexivity]|right; reflexivity]. Qed.
Lemma rle_refl {A} (r : res A) : rle r r. Proof. left. reflexivity. Qed.
Lemma le_loop n b1 b2 : (forall i off, le (b1 i off) (b2 i off)) -> forall i off, le (dloop n i b1 off) (dloop n i b2 off).
Proof.
  intros B. induction n as [|n IH]; intros i off; cbn [dloop]; [apply le_refl|]. apply le_bind; [apply B|]. intros a. apply IH.
Qed.

Section Prefix.
Context (p e : bytes).
Lemma slice_pre off n : 0 <= off -> 0 <= n -> off + n <= zlen p -> slice off n (p ++ e) = slice off n p.
Proof.
  intros H1 H2 H3. unfold slice, zlen in *. rewrite skipn_app, firstn_app.
  replace (Z.to_nat n - List.length (skipn (Z.to_nat off) p))%nat with O by (rewrite skipn_length; lia).
  cbn [firstn]. apply app_nil_r.
Qed.
Lemma rle_unpack f off : rle (unpack_from f p off) (unpack_from f (p ++ e) off).
Proof.
  unfold unpack_from. destruct ((0 <=? off) && (off + fsize f <=? zlen p)) eqn:E; [|right; reflexivity]. left.
  pose proof (fsize_pos f). pose proof (zlen_nonneg e).
  replace ((0 <=? off) && (off + fsize f <=? zlen (p ++ e))) with true by (rewrite zlen_app; lia).
  rewrite slice_pre by lia. reflexivity.
Qed.
Lemma rle_unpackb n off : rle (unpack_bytes_from n p off) (unpack_bytes_from n (p ++ e) off).
Proof.
  unfold unpack_bytes_from. destruct ((0 <=? off) && (0 <=? n) && (off + n <=? zlen p)) eqn:E; [|right; reflexivity]. left.
  pose proof (zlen_nonneg e).
  replace ((0 <=? off) && (0 <=? n) && (off + n <=? zlen (p ++ e))) with true by (rewrite zlen_app; lia).
  rewrite slice_pre by lia. reflexivity.
Qed.
Lemma rle_some f off : rle (getSome f p off) (getSome f (p ++ e) off).
Proof. unfold getSome. apply rle_bind; [apply rle_unpack|]. intros a. apply rle_refl. Qed.
Lemma rle_string off : rle (getString p off) (getString (p ++ e) off).
Proof.
  unfold getString. apply rle_bind; [apply rle_unpack|]. intros a. cbv zeta. apply rle_bind; [apply rle_unpackb|]. intros. apply rle_refl.
Qed.
Lemma rle_items n : forall off, rle (getArray_items n p off) (getArray_items n (p ++ e) off).
Proof.
  induction n as [|n IH]; intros off; cbn [getArray_items]; [apply rle_refl|].
  apply rle_bind; [apply rle_some|]. intros a. apply rle_bind; [apply IH|]. intros. apply rle_refl.
Qed.
Lemma rle_array off : rle (getArray p off) (getArray (p ++ e) off).
Proof.
  unfold getArray. apply rle_bind; [apply rle_some|]. intros [c s]. apply rle_bind; [apply rle_items|]. intros. apply rle_refl.
Qed.
Lemma rle_time off : rle (getTime p off) (getTime (p ++ e) off).
Proof. unfold getTime. apply rle_bind; [apply rle_unpackb|]. intros. apply rle_refl. Qed.
Lemma rle_text : rle (decodeMessageString p) (decodeMessageString (p ++ e)).
Proof.
  unfold decodeMessageString. apply rle_bind; [apply rle_unpack|]. intros a. cbv zeta. apply rle_bind; [apply rle_unpackb|]. intros. apply rle_refl.
Qed.
Ltac le_ext := fail.
Ltac le1 := lazymatch goal with
  | |- le ?m ?m => apply le_refl
  | |- le (dbind _ _) (dbind _ _) => apply le_bind; [|intros ?]
  | |- le (rd _ _ _) _ => apply le_lift, rle_some
  | |- le (rds _ _) _ => apply le_lift, rle_string
  | |- le (rda _ _) _ => apply le_lift, rle_array
  | |- le (dlift (getTime _ _)) _ => apply le_lift, rle_time
  | |- le (dlift (decodeMessageString _)) _ => apply le_lift, rle_text
  | |- le (match ?x with pair _ _ => _ end) _ => destruct x
  | |- le (dloop _ _ _ _) _ => apply le_loop; intros ? ?
  | |- _ => le_ext
  end.
Ltac les := cbv zeta; repeat (le1; cbv zeta).
Lemma le_status : le (status_body_all p) (status_body_all (p ++ e)).
Proof. unfold status_body_all, status_head, status_tail, status_body, status_circuit. les. Qed.
Lemma le_colors n : forall off acc, le (config_colors n p off acc) (config_colors n (p ++ e) off acc).
Proof. induction n as [|n IH]; intros off acc; cbn [config_colors]; les. apply IH. Qed.
Ltac le_ext ::= apply le_colors.
Lemma le_config : le (config_body_all p) (config_body_all (p ++ e)).
Proof. unfold config_body_all, config_head, config_setpoint, config_circuit, config_pump. les. Qed.
Lemma le_chem : le (chem_body_all p) (chem_body_all (p ++ e)).
Proof. unfold chem_body_all, chem_part1, chem_part2, chem_part3, chem_part4. les. Qed.
Lemma le_presets n idx : forall i name off, le (pump_presets n i idx p name off) (pump_presets n i idx (p ++ e) name off).
Proof. induction n as [|n IH]; intros i name off; cbn [pump_presets]; les. apply IH. Qed.
Ltac le_ext ::= apply le_presets.
Lemma le_pump idx : le (pump_body_all p idx) (pump_body_all (p ++ e) idx).
Proof. unfold pump_body_all. les. Qed.
Lemma le_scg : le (scg_body_all p) (scg_body_all (p ++ e)).
Proof. unfold scg_body_all. les. Qed.
Lemma le_version fl : le (decode_version fl p) (decode_version fl (p ++ e)).
Proof. unfold decode_version. les. Qed.
Lemma le_datetime h : le (datetime_body h p) (datetime_body h (p ++ e)).
Proof. unfold datetime_body. les. Qed.
Lemma le_color : le (color_body p) (color_body (p ++ e)).
Proof. unfold color_body. les. Qed.
Lemma le_equip : le (equipment_body p) (equipment_body (p ++ e)).
Proof. unfold equipment_body, equip_array. les. Qed.
Lemma le_equip_pre : le (equip_pre p) (equip_pre (p ++ e)).
Proof. unfold equip_pre, equip_array. les. Qed.
End Prefix.

(** ---- what a successful run says about the length of the buffer ---- *)
Definition post {A} (P : A -> Prop) (m : DM A) : Prop := forall d d' a, m d = (d', Ok a) -> P a.
Lemma post_bind {A B} (Q : A -> Prop) (P : B -> Prop) (m : DM A) (f : A -> DM B) :
  post Q m -> (forall a, Q a -> post P (f a)) -> post P (dbind m f).
Proof.
  intros M F d d' b E. unfold dbind in E. destruct (m d) as [d1 [a|e]] eqn:E1; [|discriminate].
  eapply (F a (M _ _ _ E1)). exact E.
Qed.
Lemma post_ret {A} (P : A -> Prop) (a : A) : P a -> post P (dret a).
Proof. intros H d d' x E. injection E as <- <-. exact H. Qed.
Lemma post_true {A} (m : DM A) : post (fun _ => True) m. Proof. intros d d' a _. exact I. Qed.
Definition adv (b : bytes) (off n : Z) {A} (x : A * Z) : Prop := snd x = off + n /\ off + n <= zlen b.
Lemma post_rd f b off : post (adv b off (fsize f)) (rd f b off).
Proof.
  intros d d' [v o] E. unfold rd, dlift, getSome, unpack_from in E.
  destruct ((0 <=? off) && (off + fsize f <=? zlen b)) eqn:X; cbn [rbind] in E; injection E; [|discriminate].
  intros. unfold adv. cbn [snd]. split; [congruence|lia].
Qed.
Lemma post_rds b off : post (fun x => snd x <= zlen b) (rds b off).
Proof.
  intros d d' [v o] E. unfold rds, dlift, getString in E. injection E as _ E. revert E.
  destruct (unpack_from FI b off) as [n|]; cbn [rbind]; [|discriminate]. cbv zeta.
  set (n' := if negb (_ mod 4 =? 0) then _ else _). unfold unpack_bytes_from.
  destruct ((0 <=? off + 4) && (0 <=? n') && (off + 4 + n' <=? zlen b)) eqn:X; cbn [rbind]; [|discriminate].
  destruct (decode _ _); cbn [rbind]; [|discriminate]. intros E. injection E as _ <-. cbn [snd]. lia.
Qed.
Lemma post_time b off : post (adv b off 16) (dlift (getTime b off)).
Proof.
  intros d d' [v o] E. unfold dlift, getTime, unpack_bytes_from in E. injection E as _ E. revert E.
  destruct ((0 <=? off) && (0 <=? 16) && (off + 16 <=? zlen b)) eqn:X; cbn [rbind]; [|discriminate].
  destruct (time_of_words _); cbn [rbind]; [|discriminate]. intros E. injection E as _ <-. unfold adv. cbn [snd]. lia.
Qed.
Ltac po_ext := fail.
Ltac po1 := lazymatch goal with
  | |- post _ (dbind (dbind _ _) _) => fail
  | |- post _ (dbind (rd ?f ?b ?o) _) => eapply post_bind; [apply post_rd|intros [? ?] [? ?]; cbn [snd fsize] in *; subst]
  | |- post _ (dbind (rds ?b ?o) _) => eapply post_bind; [apply post_rds|intros [? ?] ?; cbn [snd] in *]
  | |- post _ (dbind (dlift (getTime ?b ?o)) _) => eapply post_bind; [apply post_time|intros [? ?] [? ?]; cbn [snd] in *; subst]
  | |- post _ (dbind (assign _ _ _) _) => eapply post_bind; [apply post_true|intros ? _]
  | |- post _ (dbind (setdefault _ _ _) _) => eapply post_bind; [apply post_true|intros ? _]
  | |- post _ (dbind (rdata _) _) => eapply post_bind; [apply post_true|intros ? _]
  | |- post _ (dret _) => apply post_ret; cbn [fst snd] in *; subst; try lia
  | |- _ => po_ext
  end.
Ltac po := cbv zeta beta iota; repeat (po1; cbv zeta beta iota).
Ltac po_end := cbv zeta beta iota; repeat (first [po1 | eapply post_bind; [apply post_true|intros ? _]]; cbv zeta beta iota).

Lemma end_status b : post (fun off => off <= zlen b) (status_body_all b).
Proof.
  unfold status_body_all.
  eapply post_bind; [apply post_true|intros [] _]. po1. cbv zeta. po1. po1. eapply post_bind; [apply post_true|intros ? _].
  po1. po1. eapply post_bind; [apply post_true|intros ? _]. unfold status_tail. po.
Qed.
Lemma end_config b : post (fun off => off <= zlen b) (config_body_all b).
Proof.
  unfold config_body_all.
  eapply post_bind; [apply post_true|intros ? _]. do 3 po1. eapply post_bind; [apply post_true|intros ? _].
  do 2 po1. eapply post_bind; [apply post_true|intros [? ?] _]. do 2 po1. eapply post_bind; [apply post_true|intros ? _]. po.
Qed.
Lemma end_color b : post (fun off => off <= zlen b) (color_body b).
Proof. unfold color_body. po. Qed.
Lemma len_scg b : post (fun _ => 28 <= zlen b) (scg_body_all b).
Proof. unfold scg_body_all. po. Qed.
Lemma len_datetime h b : post (fun _ => 20 <= zlen b) (datetime_body h b).
Proof. unfold datetime_body. po. Qed.
Lemma len_chem b : post (fun _ => 47 <= zlen b) (chem_body_all b).
Proof.
  unfold chem_body_all.
  eapply (post_bind (fun off => off = 28)); [|intros ? ->].
  { unfold chem_part1. po. }
  eapply (post_bind (fun off => off = 37)); [|intros ? ->].
  { unfold chem_part2. po. }
  eapply (post_bind (fun off => off = 38)); [|intros ? ->].
  { unfold chem_part3. po. }
  unfold chem_part4. po.
Qed.
Lemma adv_presets b idx n : forall i name off, post (fun x => snd x = off + 12 * Z.of_nat n /\ (n = O \/ snd x <= zlen b))
  (pump_presets n i idx b name off).
Proof.
  induction n as [|n IH]; intros i name off; cbn [pump_presets].
  - apply post_ret. cbn [snd]. split; [lia|left; reflexivity].
  - po1. cbv zeta. po1. po1. po1. po1. po1. po1. po1. intros d d' xx E. destruct (IH _ _ _ _ _ _ E) as [H1' H2'].
    split; [lia|]. right. destruct H2' as [->|H2']; lia.
Qed.
Lemma len_pump b idx : post (fun _ => 124 <= zlen b) (pump_body_all b idx).
Proof.
  unfold pump_body_all. cbv zeta. do 5 po1. po1.
  eapply post_bind; [apply post_true|intros ? _]. do 11 po1. eapply post_bind; [apply adv_presets|]. intros [nm o] [E1 E2]. cbn [snd] in *.
  eapply post_bind; [apply post_true|intros ? _]. do 4 po1. apply post_ret. lia.
Qed.

(** a decoder on a strict prefix of a message that would end at its last byte *)
Lemma prefix_fails (body : bytes -> DM Z) (w : bytes) d : 
  (forall p e, le (body p) (body (p ++ e))) -> (forall b, post (fun off => off <= zlen b) (body b)) ->
  (exists d', body w d = (d', Ok (zlen w))) -> forall p e, w = p ++ e -> e <> [] ->
  exists d', body p d = (d', Err EStruct).
Proof.
  intros L E (d1 & R) p e -> N. destruct (L p e d) as [X|X].
  - rewrite R in X. pose proof (E _ _ _ _ X) as B. rewrite zlen_app in B.
    assert (0 < zlen e) by (destruct e; [congruence|unfold zlen; cbn; lia]). lia.
  - destruct (body p d) as [d2 r]. cbn [snd] in X. subst. eauto.
Qed.
