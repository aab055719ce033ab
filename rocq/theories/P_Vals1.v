(** Values stored by the loop-free decoders. *)
From Verif Require Import Py F64 Struct Utf Utility Const Enum Decode Spec Messages Meaning Shape P_Base P_Util P_Str P_Time P_Dict P_Idem P_Shape P_Trace P_Does P_Facts.

Lemma db_tu W K w {B} (F : pv -> DM B) l a K' : In (qTU, w) W ->
  does W K (F (tu_of w)) l a K' -> does W K (dbind (rdata getTemperatureUnit) F) l a K'.
Proof.
  intros I D. eapply db_rdata; [|exact D]. intros d S V. rewrite getTU by exact S. rewrite (V _ _ I). reflexivity.
Qed.
Lemma temp_unit_tu d : temp_unit d = tu_of (dpget qTU d).
Proof.
  unfold temp_unit, tu_of. change (dpget qTU d) with (dpget [KS "controller"; KS "configuration"; KS "is_celsius"; KS "value"] d).
  destruct (dpget _ d) as [v|]; [destruct (truthy v)|]; reflexivity.
Qed.
Lemma trim_strip s : trim s = strip is_nul s.
Proof.
  assert (E : forall t, drop_nuls t = lstrip is_nul t).
  { induction t as [|c t IH]; [reflexivity|]. cbn [drop_nuls lstrip]. unfold is_nul.
    destruct (Z.eqb_spec c 0) as [->|N]; [exact IH|]. destruct c; [contradiction|reflexivity|reflexivity]. }
  unfold trim, strip, rstrip. rewrite !E. reflexivity.
Qed.
Lemma text_strip n : text n = VStr (strip is_nul (snd n)).
Proof. unfold text. rewrite trim_strip. reflexivity. Qed.

Ltac abstract_values :=
  repeat match goal with
  | |- context [zdivf ?a ?b] => generalize (zdivf a b); intros ?
  | |- context [string_of_Z ?a] => generalize (string_of_Z a); intros ?
  | |- context [strip is_nul ?a] => generalize (strip is_nul a); intros ?
  end.

Lemma scg_vals m tail d : scg_ok m -> Shape d ->
  exists d', decode_scg_config (wire_scg m ++ tail) d = (d', Ok tt) /\ all_hold d' (scg_facts m).
Proof.
  intros OK Sh. unfold scg_ok in OK. unand. pose proof (at_start (wire_scg m ++ tail)) as A.
  unfold wire_scg in A at 2. splitapp A. set (buff := wire_scg m ++ tail) in *. clearbody buff.
  unfold scg_facts. rewrite <- !(on_off_bit _ 0) by lia.
  eapply (does_run []); [|exact Sh|intros ? ? []|].
  - unfold decode_scg_config, dunit, scg_body_all. dsteps.
  - facts.
Qed.

Lemma color_vals m tail d : color_update_ok m -> Shape d ->
  exists d', decode_color_update (wire_color_update m ++ tail) d = (d', Ok tt) /\ all_hold d' (color_facts m).
Proof.
  intros OK Sh. unfold color_update_ok in OK. unand. pose proof (at_start (wire_color_update m ++ tail)) as A.
  unfold wire_color_update in A at 2. splitapp A. set (buff := wire_color_update m ++ tail) in *. clearbody buff.
  unfold color_facts. rewrite text_strip.
  eapply (does_run []); [|exact Sh|intros ? ? []|].
  - unfold decode_color_update, dunit, color_body. dsteps.
  - facts.
Qed.

Lemma rd_arr b off a rest : arr_ok a -> at_ b off (wire_arr a ++ rest) ->
  getArray b off = Ok (fst a, off + zlen (wire_arr a)) /\ at_ b (off + zlen (wire_arr a)) rest.
Proof. intros [H1 H2] A. apply rd_array; assumption. Qed.
Lemma db_rda W K {B} b off x (F : list Z * Z -> DM B) l a K' : getArray b off = Ok x ->
  does W K (F x) l a K' -> does W K (dbind (rda b off) F) l a K'.
Proof. intros G D. apply (does_bind W K K K' _ _ [] x l a); [apply does_lift; exact G | exact D]. Qed.
Ltac rdarr :=
  lazymatch goal with
  | A : at_ ?b ?off (wire_arr ?n ++ ?r) |- does _ _ (dbind (rda ?b ?off) _) _ _ _ =>
      let R := constr:(ltac:(eassumption) : arr_ok n) in
      let G := fresh "G" in let A' := fresh "A" in
      destruct (rd_arr b off n r R A) as [G A']; clear A; eapply db_rda; [exact G|]; clear G
  end.

Lemma equip_vals m tail d : equip_ok m -> Shape d ->
  exists d', decode_equipment_config (wire_equip m ++ tail) d = (d', Ok tt) /\ all_hold d' (equip_facts m).
Proof.
  intros OK Sh. unfold equip_ok in OK. unand. pose proof (at_start (wire_equip m ++ tail)) as A.
  unfold wire_equip in A at 2. splitapp A. set (buff := wire_equip m ++ tail) in *. clearbody buff.
  eapply (does_run []); [|exact Sh|intros ? ? []|].
  - unfold decode_equipment_config, dunit, equipment_body, equip_array.
    cbv beta iota zeta. repeat (first [dstep|rdarr]; cbv beta iota zeta).
  - unfold equip_facts, ints. facts.
Qed.

Lemma all_u8 (P : Z -> bool) : forallb P (map Z.of_nat (seq 0 256)) = true -> forall x, is_u8 x -> P x = true.
Proof.
  intros H x [A B]. rewrite forallb_forall in H. apply H. apply in_map_iff. exists (Z.to_nat x).
  split; [apply Z2Nat.id; exact A|]. apply in_seq. lia.
Qed.
Lemma sat_signed s : is_u8 s -> chem_saturation s = hundredths (signed8 s).
Proof.
  intros H. unfold chem_saturation, hundredths, signed8.
  assert (E : (Z.land s 128 =? 0) = (s <? 128)).
  { apply eqb_prop. revert s H. apply (all_u8 (fun s => Bool.eqb (Z.land s 128 =? 0) (s <? 128))). vm_compute. reflexivity. }
  rewrite E. destruct (s <? 128); reflexivity.
Qed.
Lemma dose_ph x : is_u8 x -> Z.shiftr (Z.land x DOSE_MASK_PH_STATE) 4 = x / 16 mod 4.
Proof. intros H. apply Z.eqb_eq. revert x H. apply (all_u8 (fun x => Z.shiftr (Z.land x DOSE_MASK_PH_STATE) 4 =? x / 16 mod 4)). vm_compute. reflexivity. Qed.
Lemma dose_orp x : is_u8 x -> Z.shiftr (Z.land x DOSE_MASK_ORP_STATE) 6 = x / 64 mod 4.
Proof. intros H. apply Z.eqb_eq. revert x H. apply (all_u8 (fun x => Z.shiftr (Z.land x DOSE_MASK_ORP_STATE) 6 =? x / 64 mod 4)). vm_compute. reflexivity. Qed.

Lemma chem_vals m tail d : chem_ok m -> Shape d ->
  exists d', decode_chemistry (wire_chem m ++ tail) d = (d', Ok tt) /\ all_hold d' (chem_facts (temp_unit d) m).
Proof.
  intros OK Sh. unfold chem_ok in OK. unand. pose proof (at_start (wire_chem m ++ tail)) as A.
  unfold wire_chem in A at 2. splitapp A. set (buff := wire_chem m ++ tail) in *. clearbody buff.
  unfold chem_facts. rewrite temp_unit_tu.
  rewrite <- !on_off_bit by lia. rewrite <- (sat_signed (h_sat m)) by assumption.
  rewrite <- dose_ph, <- dose_orp by assumption.
  eapply (does_run [(qTU, dpget qTU d)]); [|exact Sh|intros ? ? [E|[]]; injection E as <- <-; reflexivity|].
  - unfold decode_chemistry, dunit, chem_body_all, chem_part1, chem_part2, chem_part3, chem_part4.
    cbv beta iota zeta. repeat (first [dstep | eapply db_tu; [left; reflexivity|]]; cbv beta iota zeta).
  - unfold hundredths. generalize (tu_of (dpget qTU d)), (chem_saturation (h_sat m)). intros ? ?. abstract_values. facts.
Qed.
