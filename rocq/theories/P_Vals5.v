(** Pump decoding. *)
From Verif Require Import Py F64 Struct Utf Utility Const Enum Decode Spec Messages Meaning Shape P_Base P_Util P_Str P_Time P_Dict P_Idem P_Shape P_Trace P_Does P_Facts P_Vals1 P_Sym P_Vals3.

Lemma pystr_eqb_refl s : pystr_eqb s s = true.
Proof. induction s as [|c s IH]; [reflexivity|]. cbn [pystr_eqb]. rewrite Z.eqb_refl. exact IH. Qed.
Definition Wpu (d : dict) : list (path * option pv) := [(qCIRC, dpget qCIRC d)].
Definition isdef (s : pystr) : bool := pystr_eqb s (u "Default").
Definition step_name (t : list (Z * pystr)) (did : Z) (s : pystr) : pystr :=
  if isdef s then match circuit_name t did with Some n => n | None => s end else s.
Lemma find_name did s l : forall t, circuit_pairs l = Some t -> pump_find did (VStr s) l = Ok (VStr (step_name t did s)).
Proof.
  induction l as [|v l IH]; intros t E; cbn [circuit_pairs pump_find] in *.
  - injection E as <-. unfold step_name. cbn [circuit_name]. destruct (isdef s); reflexivity.
  - destruct (circuit_pair v) as [[i n]|] eqn:P; [|discriminate]. destruct (circuit_pairs l) as [t'|]; [|discriminate].
    injection E as <-. unfold circuit_pair in P. destruct v; try discriminate. cbn [py_item].
    change ATTR_DEVICE_ID with (KS "device_id"). change ATTR_NAME with (KS "name").
    destruct (dget (KS "device_id") d) as [[]|] eqn:E1; try discriminate.
    destruct (dget (KS "name") d) as [[]|] eqn:E2; try discriminate. injection P as -> ->. cbn [rbind].
    unfold step_name. cbn [circuit_name num_eqb]. fold (isdef s). specialize (IH t' eq_refl).
    destruct (i =? did) eqn:Ei; cbn [andb].
    + destruct (isdef s) eqn:Es; [reflexivity|]. rewrite IH. unfold step_name. rewrite Es. reflexivity.
    + rewrite IH. reflexivity.
Qed.
Lemma name_step W d t did s : In (qCIRC, dpget qCIRC d) W -> circuit_table d = Some t ->
  forall d', views W d' -> pump_name_step did (VStr s) d' = Ok (VStr (step_name t did s)).
Proof.
  intros I T d' V. specialize (V _ _ I). unfold qCIRC, dpget in V. cbn [pget] in V. unfold pump_name_step.
  assert (E : dget DEVICE_CIRCUIT d' = dget DEVICE_CIRCUIT d).
  { destruct (dget DEVICE_CIRCUIT d), (dget DEVICE_CIRCUIT d'); congruence. }
  rewrite E. unfold circuit_table in T. change (KS "circuit") with DEVICE_CIRCUIT in T.
  destruct (dget DEVICE_CIRCUIT d) as [v|].
  - destruct v; try discriminate. apply find_name. exact T.
  - injection T as <-. unfold step_name. cbn [circuit_name]. destruct (isdef s); reflexivity.
Qed.
Fixpoint names (t : list (Z * pystr)) (l : list preset_msg) (s : pystr) : pystr :=
  match l with [] => s | p :: r => names t r (step_name t (r_device p) s) end.
Lemma isdef_eq s : isdef s = true -> s = u "Default".
Proof.
  unfold isdef. generalize (u "Default"). revert s. induction s as [|c s IH]; intros [|e r]; cbn [pystr_eqb]; try discriminate; [reflexivity|].
  intros H. apply andb_true_iff in H. destruct H as [H1 H2]. apply Z.eqb_eq in H1. subst. f_equal. apply IH. exact H2.
Qed.
Lemma names_stay t l s : isdef s = false -> names t l s = s.
Proof. intros H. induction l as [|p l IH]; [reflexivity|]. cbn [names]. unfold step_name. rewrite H. exact IH. Qed.
Lemma names_label t l : names t l (u "Default") = pump_label t l.
Proof.
  induction l as [|p l IH]; [reflexivity|]. cbn [names pump_label]. unfold step_name.
  replace (isdef (u "Default")) with true by reflexivity.
  destruct (circuit_name t (r_device p)) as [n|]; [|exact IH].
  fold (isdef n). destruct (isdef n) eqn:E; [apply isdef_eq in E; subst; exact IH|]. apply names_stay. exact E.
Qed.

Definition pP (idx : Z) : path := [DEVICE_PUMP; KI idx; VALUE_PRESET].
Fixpoint preset_ops (idx i : Z) (l : list preset_msg) : list op :=
  match l with
  | [] => []
  | p :: r => ODef (pP idx) (KI i) (VDict []) :: OSet (pP idx ++ [KI i]) ATTR_DEVICE_ID (VInt (r_device p))
      :: OSet (pP idx ++ [KI i]) ATTR_SETPOINT (VInt (r_setpoint p)) :: OSet (pP idx ++ [KI i]) ATTR_IS_RPM (VInt (r_is_rpm p))
      :: preset_ops idx (i + 1) r
  end.
Lemma presets_does d t idx buff l : circuit_table d = Some t -> forall K i s off rest, In (pP idx) K -> Forall preset_ok l ->
  at_ buff off (List.concat (map wire_preset l) ++ rest) ->
  does (Wpu d) K (pump_presets (List.length l) i idx buff (VStr s) off) (preset_ops idx i l)
    (VStr (names t l s), off + zlen (List.concat (map wire_preset l))) K.
Proof.
  intros T. induction l as [|p l IH]; intros K i s off rest I OK A; cbn [List.length pump_presets map List.concat preset_ops names] in *.
  - replace (off + zlen (@nil Z)) with off by (unfold zlen; cbn; lia). apply does_ret.
  - inversion OK as [|? ? Op Ol]; subst. rewrite <- app_assoc in A.
    pose proof (at_step _ _ _ _ A) as A2.
    replace (off + zlen (wire_preset p ++ List.concat (map wire_preset l)))
      with (off + 4 + 4 + 4 + zlen (List.concat (map wire_preset l))) by (unfold zlen; rewrite app_length; cbn; lia).
    replace (off + zlen (wire_preset p)) with (off + 4 + 4 + 4) in A2 by (unfold zlen; cbn; lia).
    unfold preset_ok in Op. unand. unfold wire_preset in A. splitapp A.
    eapply does_forget; [|].
    { cbv beta iota zeta. do 3 (dstep; cbv beta iota zeta).
      eapply db_rdata; [intros d' _ V; exact (name_step (Wpu d) d t (r_device p) s (or_introl eq_refl) T d' V)|].
      do 4 (dstep; cbv beta iota zeta).
      apply IH with (rest := rest); [right; exact I|assumption|]. exact A2. }
    incl_K.
Qed.

Lemma trim_of_strip p s : trim_of p s = strip p s.
Proof.
  assert (E : forall t, drop_while p t = lstrip p t).
  { induction t as [|c t IH]; [reflexivity|]. cbn [drop_while lstrip]. destruct (p c); [exact IH|reflexivity]. }
  unfold trim_of, strip, rstrip. rewrite !E. reflexivity.
Qed.
Lemma title_ok s : pump_name (VStr s) = Ok (pump_title s).
Proof. unfold pump_name, pump_title. do 2 f_equal. Qed.

Lemma land_top x : is_u32 x -> (Z.land x 2147483648 =? 0) = (x <? 2147483648).
Proof.
  intros [H1 H2]. pose proof (on_off_bit x 31 ltac:(lia)) as B. change (2 ^ 31) with 2147483648 in B.
  pose proof (Z.testbit_spec' x 31 ltac:(lia)) as T. change (2 ^ 31) with 2147483648 in T.
  unfold on_off, bit in B. destruct (Z.testbit x 31); cbn [Z.b2z] in T;
    destruct (Z.land x 2147483648 =? 0); try discriminate; symmetry; [apply Z.ltb_ge|apply Z.ltb_lt]; lia.
Qed.

Definition pumpU (idx : Z) : list path := [[DEVICE_PUMP; KI idx]].
Definition run_facts (idx : Z) (m : pump_msg) : list (path * pv) :=
  if p_state m <? 2147483648 then [([DEVICE_PUMP; KI idx; VALUE_STATE; ATTR_VALUE], VInt (p_state m))] else [].

Lemma pump_does m tail d t idx : pump_ok m -> circuit_table d = Some t ->
  exists off K', doesf (Wpu d) startK (pump_body_all (wire_pump m ++ tail) idx) off K'
    (pump_facts idx (pump_title (pump_label t (p_presets m))) m ++ run_facts idx m) (pumpU idx).
Proof.
  intros OK T. unfold pump_ok in OK. unand. pose proof (at_start (wire_pump m ++ tail)) as A.
  unfold wire_pump in A at 2. splitapp A. set (buff := wire_pump m ++ tail) in *. clearbody buff.
  rewrite <- names_label. assert (TI := title_ok (names t (p_presets m) (u "Default"))).
  generalize dependent (pump_title (names t (p_presets m) (u "Default"))). intros title TI.
  assert (PD := fun K => presets_does d t idx buff (p_presets m) T K 0 (u "Default")).
  unfold run_facts. rewrite <- land_top by assumption.
  assert (L8 : List.length (p_presets m) = 8%nat) by (unfold zlen in *; lia). rewrite L8 in PD.
  unfold pump_facts. destruct (p_presets m) as [|r0 [|r1 [|r2 [|r3 [|r4 [|r5 [|r6 [|r7 [|]]]]]]]]]; try discriminate.
  cbn [presets_facts preset_facts app preset_ops Z.add Pos.add Pos.succ] in *.
  destruct (Z.land (p_state m) 2147483648 =? 0) eqn:EQ.
  all: do 2 eexists; eapply doesf_of;
    [ unfold pump_body_all; dsteps; rewrite EQ; dsteps;
      eapply does_bind; [eapply PD; [in_K|assumption|eassumption]|];
      cbv beta iota zeta; eapply db_lift; [exact TI|]; dsteps
    | clear PD; cbn [map app List.concat]; sfacts
    | clear PD; swithin ].
Qed.
Lemma views_Wpu d : views (Wpu d) d.
Proof. intros q w [E|[]]; injection E as <- <-; reflexivity. Qed.

(** C40: the value of the state when the pump reports a state with the top bit set *)
Definition leaves' (q : path) (o : op) : bool :=
  let c := opath o ++ [okey o] in
  match o with ODef _ _ (VDict []) => negb (pre' q c) | _ => false end
  || (negb (pre' c q) && negb (pre' q c)).
Lemma leaves'_leaves q o : leaves' q o = true -> leaves q o = true.
Proof.
  unfold leaves', leaves, cell, incomp. cbv zeta. rewrite !pre'_pre. intros H. apply orb_true_iff in H. apply orb_true_iff.
  destruct H as [H|H]; [|left; exact H].
  destruct o as [p k v|p k v]; [discriminate|]. destruct v; try discriminate. destruct d; [|discriminate].
  cbn [opath okey] in *. rewrite H. destruct (pre (p ++ [k]) q); [right|left]; reflexivity.
Qed.
Lemma leaves'_all q l : forallb (leaves' q) l = true -> forallb (leaves q) l = true.
Proof. rewrite !forallb_forall. intros H o I. apply leaves'_leaves, H, I. Qed.
Definition qRUN (idx : Z) : path := [DEVICE_PUMP; KI idx; VALUE_STATE; ATTR_VALUE].
Lemma pump_wild m tail d t idx : pump_ok m -> circuit_table d = Some t -> 2147483648 <= p_state m -> Shape d ->
  dpget (qRUN idx) (fst (decode_pump_status (wire_pump m ++ tail) idx d))
  = match dpget [DEVICE_PUMP; KI idx; VALUE_STATE] d with Some w => pget [ATTR_VALUE] w | None => Some (VInt 0) end.
Proof.
  intros OK T Hi Sh.
  assert (D : exists l2 off K', does (Wpu d) startK (pump_body_all (wire_pump m ++ tail) idx)
    ([ODef [] DEVICE_PUMP (VDict []); ODef [DEVICE_PUMP] (KI idx) (VDict []); OSet [DEVICE_PUMP; KI idx] VALUE_TYPE (VInt (p_type m))]
     ++ ODef [DEVICE_PUMP; KI idx] VALUE_STATE (VDict [(ATTR_NAME, VStr []); (ATTR_VALUE, VInt 0)]) :: l2) off K'
    /\ forallb (leaves' (qRUN idx)) l2 = true).
  { unfold pump_ok in OK. unand. pose proof (at_start (wire_pump m ++ tail)) as A.
    unfold wire_pump in A at 2. splitapp A. set (buff := wire_pump m ++ tail) in *. clearbody buff.
    assert (TI := title_ok (names t (p_presets m) (u "Default"))).
    generalize dependent (pump_title (names t (p_presets m) (u "Default"))). intros title TI.
    assert (PD := fun K => presets_does d t idx buff (p_presets m) T K 0 (u "Default")).
    assert (EQ : (Z.land (p_state m) 2147483648 =? 0) = false) by (rewrite land_top by assumption; apply Z.ltb_ge; exact Hi).
    assert (L8 : List.length (p_presets m) = 8%nat) by (unfold zlen in *; lia). rewrite L8 in PD.
    destruct (p_presets m) as [|r0 [|r1 [|r2 [|r3 [|r4 [|r5 [|r6 [|r7 [|]]]]]]]]]; try discriminate.
    cbn [preset_ops Z.add Pos.add Pos.succ] in *.
    do 3 eexists. split.
    - unfold pump_body_all; dsteps; rewrite EQ; dsteps;
      eapply does_bind; [eapply PD; [in_K|assumption|eassumption]|];
      cbv beta iota zeta; eapply db_lift; [exact TI|]; dsteps.
    - clear PD. vm_compute. reflexivity. }
  destruct D as (l2 & off & K' & [O M] & L2). destruct (M d Sh (views_Wpu d) (startK_knows d)) as (V & E & _).
  unfold decode_pump_status, dunit, dbind. rewrite E. cbn [fst dret]. clear E M.
  apply valid_app in V. destruct V as [V1 V2]. rewrite aps_app.
  remember [ODef [] DEVICE_PUMP (VDict []); ODef [DEVICE_PUMP] (KI idx) (VDict []); OSet [DEVICE_PUMP; KI idx] VALUE_TYPE (VInt (p_type m))] as l1 eqn:El1.
  cbn [valid aps] in V2 |- *. destruct V2 as [Vp V2].
  unfold qRUN in *. cbn [fst]. unfold dret. cbn [fst].
  rewrite (aps_leaves l2); [|exact V2|apply leaves'_all; exact L2].
  change [DEVICE_PUMP; KI idx; VALUE_STATE; ATTR_VALUE] with ([DEVICE_PUMP; KI idx] ++ VALUE_STATE :: [ATTR_VALUE]).
  rewrite dpget_def_below by exact Vp.
  rewrite (aps_leaves l1 d ([DEVICE_PUMP; KI idx] ++ [VALUE_STATE])).
  - reflexivity.
  - exact V1.
  - subst l1. apply leaves'_all. vm_compute. reflexivity.
Qed.
