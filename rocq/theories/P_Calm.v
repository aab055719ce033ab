(** Decoding never raises one of ScreenLogic's own exceptions, nor a cancellation. *)
From Verif Require Import Py F64 Struct Utf Utility Const Enum Decode.

Definition foreign (e : exn) : bool :=
  match e with ESLError | ESLRequest | ESLConnection | ESLResponse | ESLLogin | ECancelled => false | _ => true end.
Lemma foreign_comm e : foreign e = true -> is_comm_error e = false.
Proof. destruct e; cbn; congruence. Qed.
Definition rcalm {A} (r : res A) : Prop := match r with Err e => foreign e = true | Ok _ => True end.
Definition calm {A} (m : DM A) : Prop := forall d, rcalm (snd (m d)).

Lemma rc_bind {A B} (r : res A) (f : A -> res B) : rcalm r -> (forall a, rcalm (f a)) -> rcalm (rbind r f).
Proof. destruct r as [a|e]; cbn [rbind rcalm]; intros H K; [apply K|exact H]. Qed.
Lemma rc_cons {A} (a : A) r : rcalm r -> rcalm (rcons a r).
Proof. destruct r; exact (fun x => x). Qed.
Lemma rc_unpack f b o : rcalm (unpack_from f b o).
Proof. unfold unpack_from. destruct (_ && _); reflexivity. Qed.
Lemma rc_unpack_bytes n b o : rcalm (unpack_bytes_from n b o).
Proof. unfold unpack_bytes_from. destruct (_ && _); reflexivity. Qed.
Lemma rc_getSome f b o : rcalm (getSome f b o).
Proof. unfold getSome. apply rc_bind; [apply rc_unpack|]. reflexivity. Qed.
Lemma rc_le b : rcalm (le_to_units b).
Proof.
  assert (G : forall n b, (List.length b <= n)%nat -> rcalm (le_to_units b)); [|eauto].
  intros n. induction n as [|n IH]; intros [|x [|y r]] L; cbn [List.length] in L; try lia; try reflexivity.
  cbn [le_to_units]. apply rc_cons, IH. lia.
Qed.
Lemma rc_be b : rcalm (be_to_units b).
Proof.
  assert (G : forall n b, (List.length b <= n)%nat -> rcalm (be_to_units b)); [|eauto].
  intros n. induction n as [|n IH]; intros [|x [|y r]] L; cbn [List.length] in L; try lia; try reflexivity.
  cbn [be_to_units]. apply rc_cons, IH. lia.
Qed.
Lemma rc_units b : rcalm (units_decode b).
Proof.
  assert (G : forall n b, (List.length b <= n)%nat -> rcalm (units_decode b)); [|eauto].
  intros n. induction n as [|n IH]; intros [|x r] L; cbn [List.length] in L; try lia; try exact Logic.I.
  cbn [units_decode]. destruct (is_high x).
  - destruct r as [|y r']; [reflexivity|]. destruct (is_low y); [|reflexivity]. apply rc_cons, IH. cbn [List.length] in L. lia.
  - destruct (is_low x); [reflexivity|]. apply rc_cons, IH. lia.
Qed.
Lemma rc_utf8 b : rcalm (utf8_decode b).
Proof.
  assert (G : forall n b, (List.length b <= n)%nat -> rcalm (utf8_decode b)); [|eauto].
  intros n. induction n as [|n IH]; intros [|x r] L; cbn [List.length] in L; try lia; try exact Logic.I.
  cbn [utf8_decode].
  repeat first [reflexivity | apply rc_cons, IH; cbn [List.length] in L; lia
    | match goal with
      | |- rcalm (if ?c then _ else _) => destruct c
      | |- rcalm (match ?l with [] => _ | _ :: _ => _ end) => destruct l
      end | progress cbv zeta].
Qed.
Lemma rc_decode u b : rcalm (decode u b).
Proof.
  unfold decode. destruct u; [|apply rc_utf8]. unfold utf16_decode.
  assert (A : forall b, rcalm (rbind (le_to_units b) units_decode)) by (intros; apply rc_bind; [apply rc_le|apply rc_units]).
  assert (B : forall b, rcalm (rbind (be_to_units b) units_decode)) by (intros; apply rc_bind; [apply rc_be|apply rc_units]).
  repeat match goal with |- rcalm (match ?x with _ => _ end) => destruct x end; first [apply A|apply B].
Qed.
Lemma rc_string b : rcalm (decodeMessageString b).
Proof.
  unfold decodeMessageString. apply rc_bind; [apply rc_unpack|]. intros z. cbv zeta.
  apply rc_bind; [apply rc_unpack_bytes|]. intros. apply rc_decode.
Qed.
Lemma rc_getString b o : rcalm (getString b o).
Proof.
  unfold getString. cbv zeta. apply rc_bind; [apply rc_unpack|]. intros z.
  apply rc_bind; [apply rc_unpack_bytes|]. intros. apply rc_bind; [apply rc_decode|]. reflexivity.
Qed.
Lemma rc_items n b : forall o, rcalm (getArray_items n b o).
Proof.
  induction n as [|n IH]; intros o; cbn [getArray_items]; [exact Logic.I|]. apply rc_bind; [apply rc_getSome|].
  intros [x at_]. apply rc_bind; [apply IH|]. reflexivity.
Qed.
Lemma rc_getArray b o : rcalm (getArray b o).
Proof.
  unfold getArray. apply rc_bind; [apply rc_getSome|]. intros [x at_]. cbv zeta. apply rc_bind; [apply rc_items|]. reflexivity.
Qed.
Lemma rc_getTime b o : rcalm (getTime b o).
Proof.
  unfold getTime. apply rc_bind; [apply rc_unpack_bytes|]. intros. apply rc_bind; [|reflexivity].
  unfold time_of_words. cbv zeta. unfold make_dt. destruct (valid_dt _); reflexivity.
Qed.
Lemma rc_pyget v k x : rcalm (py_get v k x).
Proof. destruct v; reflexivity. Qed.
Lemma rc_pyitem v k : rcalm (py_item v k).
Proof. destruct v; try reflexivity. cbn [py_item]. destruct (dget k d); reflexivity. Qed.
Lemma rc_temp d : rcalm (getTemperatureUnit d).
Proof. unfold getTemperatureUnit. repeat (apply rc_bind; [apply rc_pyget|intros]). exact Logic.I. Qed.
Lemma rc_adapter d : rcalm (getAdapterVersion d).
Proof. unfold getAdapterVersion. repeat (apply rc_bind; [apply rc_pyget|intros]). apply rc_pyget. Qed.
Lemma rc_setpoints d : rcalm (read_body_setpoints d).
Proof. unfold read_body_setpoints. repeat (apply rc_bind; [apply rc_pyget|intros]). apply rc_pyget. Qed.
Lemma rc_cmp a b : rcalm (num_cmp a b).
Proof. destruct a, b; reflexivity. Qed.
Lemma rc_leb a b : rcalm (num_leb a b).
Proof. unfold num_leb. pose proof (rc_cmp a b). destruct (num_cmp a b) as [[[]|]|]; try exact H; reflexivity. Qed.
Lemma rc_mask m f : rcalm (mask_flags m f).
Proof. destruct m; try exact Logic.I; apply rc_bind; auto using rc_leb; reflexivity. Qed.
Lemma rc_find did cs : forall name, rcalm (pump_find did name cs).
Proof.
  induction cs as [|c cs IH]; intros name; cbn [pump_find]; [exact Logic.I|]. apply rc_bind; [apply rc_pyitem|].
  intros x. destruct (_ && _); [apply rc_pyitem|apply IH].
Qed.
Lemma rc_name_step did name d : rcalm (pump_name_step did name d).
Proof. unfold pump_name_step. destruct (dget _ d) as [[]|]; try reflexivity. apply rc_find. Qed.
Lemma rc_pump_name v : rcalm (pump_name v).
Proof. destruct v; reflexivity. Qed.

Lemma calm_bind {A B} (m : DM A) (f : A -> DM B) : calm m -> (forall a, calm (f a)) -> calm (dbind m f).
Proof.
  intros M F d. specialize (M d). unfold dbind. destruct (m d) as [d' [a|e]]; cbn [snd] in *; [apply F|exact M].
Qed.
Lemma calm_lift {A} (r : res A) : rcalm r -> calm (dlift r). Proof. intros H d. exact H. Qed.
Lemma calm_ret {A} (a : A) : calm (dret a). Proof. intros d. exact Logic.I. Qed.
Lemma calm_rdata {A} (f : dict -> res A) : (forall d, rcalm (f d)) -> calm (rdata f). Proof. intros H d. exact (H d). Qed.
Lemma calm_assign p k v : calm (assign p k v).
Proof. intros d. unfold assign. destruct (upd_at _ _ d); reflexivity. Qed.
Lemma calm_setdef p k v : calm (setdefault p k v).
Proof. intros d. unfold setdefault. destruct (upd_at _ _ d); reflexivity. Qed.
Lemma calm_loop n body : (forall i off, calm (body i off)) -> forall i off, calm (dloop n i body off).
Proof.
  intros B. induction n as [|n IH]; intros i off; cbn [dloop]; [apply calm_ret|]. apply calm_bind; [apply B|]. intros a. apply IH.
Qed.
Ltac ca_ext := fail.
Ltac ca1 := lazymatch goal with
  | |- calm (dbind _ _) => apply calm_bind; [|intros ?]
  | |- calm (assign _ _ _) => apply calm_assign
  | |- calm (setdefault _ _ _) => apply calm_setdef
  | |- calm (dlift (py_get _ _ _)) => apply calm_lift, rc_pyget
  | |- calm (dlift (py_item _ _)) => apply calm_lift, rc_pyitem
  | |- calm (dlift (mask_flags _ _)) => apply calm_lift, rc_mask
  | |- calm (dlift (pump_name _)) => apply calm_lift, rc_pump_name
  | |- calm (dlift (getTime _ _)) => apply calm_lift, rc_getTime
  | |- calm (dlift (decodeMessageString _)) => apply calm_lift, rc_string
  | |- calm (rd _ _ _) => apply calm_lift, rc_getSome
  | |- calm (rds _ _) => apply calm_lift, rc_getString
  | |- calm (rda _ _) => apply calm_lift, rc_getArray
  | |- calm (dret _) => apply calm_ret
  | |- calm (rdata getTemperatureUnit) => apply calm_rdata, rc_temp
  | |- calm (rdata getAdapterVersion) => apply calm_rdata, rc_adapter
  | |- calm (rdata read_body_setpoints) => apply calm_rdata, rc_setpoints
  | |- calm (rdata (pump_name_step _ _)) => apply calm_rdata; intros; apply rc_name_step
  | |- calm (match ?x with pair _ _ => _ end) => destruct x
  | |- calm (if ?c then _ else _) => destruct c
  | |- calm (dloop _ _ _ _) => apply calm_loop; intros ? ?
  | |- _ => ca_ext
  end.
Ltac ca := cbv zeta; repeat (ca1; cbv zeta).

Lemma ca_status b : calm (decode_pool_status b).
Proof.
  unfold decode_pool_status, dunit, status_body_all, status_head, status_tail, status_body, status_body_setpoints, status_circuit, status_circuit_id. ca.
Qed.
Lemma ca_colors n b : forall off acc, calm (config_colors n b off acc).
Proof. induction n as [|n IH]; intros off acc; cbn [config_colors]; ca. apply IH. Qed.
Ltac ca_ext ::= apply ca_colors.
Lemma ca_config b : calm (decode_pool_config b).
Proof. unfold decode_pool_config, dunit, config_body_all, config_head, config_setpoint, config_circuit, config_pump. ca. Qed.
Lemma ca_chem b : calm (decode_chemistry b).
Proof. unfold decode_chemistry, dunit, chem_body_all, chem_part1, chem_part2, chem_part3, chem_part4. ca. Qed.
Lemma ca_presets n b idx : forall i name off, calm (pump_presets n i idx b name off).
Proof. induction n as [|n IH]; intros i name off; cbn [pump_presets]; ca. apply IH. Qed.
Ltac ca_ext ::= apply ca_presets.
Lemma ca_pump b idx : calm (decode_pump_status b idx).
Proof. unfold decode_pump_status, dunit, pump_body_all. ca. Qed.
Lemma ca_scg b : calm (decode_scg_config b).
Proof. unfold decode_scg_config, dunit, scg_body_all. ca. Qed.
Lemma ca_version fl b : calm (decode_version fl b).
Proof.
  unfold decode_version. ca; apply calm_lift, rc_bind;
    try (unfold py_index; destruct (nth_error _ _); reflexivity); intros; unfold py_float_of; destruct (fl _); reflexivity.
Qed.
Lemma ca_datetime h b : calm (decode_date_time h b).
Proof. unfold decode_date_time, dunit, datetime_body. ca. Qed.
