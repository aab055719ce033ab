(** C75, C76, C77: response collections and their JSON form.  Vocabulary: SpecData.v (values, equality
    of Python values, what JSON can carry), Calls.v (histories of messages). *)
From Coq Require Import Permutation.
From Verif Require Import Py F64 Struct Utf Utility Const Enum Decode Spec Messages Calls Data SpecData
  P_Base P_Dict P_Data P_Data2 P_Data3 P_Data4 Prop_Decode.

(** C75, in full: deconstructing what was built gives, for every request, its raw response and the
    data.  Proved: it never fails, the data are the same object, the keys are the eight request names;
    a response of at least one byte is given back, *)
Theorem C75_responses_partial fl h raw data c : build_response_collection fl h raw data = Ok c ->
  exists raw', deconstruct_response_collection c = Ok (raw', inj (VDict data)) /\ map fst raw' = map KS requests /\
  forall n b, In n requests -> dget (KS n) raw = Some (VBytes b) -> b <> [] -> oget (KS n) raw' = Some (OBytes b).
Proof.
  intros B. rewrite (deconstruct_build _ _ _ _ _ B). eexists. split; [reflexivity|]. split; [rewrite map_map; reflexivity|].
  intros n b I G N. assert (E : comes_back (dget (KS n) raw) = OBytes b) by (rewrite G; destruct b; [contradiction|reflexivity]).
  unfold requests in *. repeat (destruct I as [<-|I]; [cbn [map oget]; rewrite <- E; reflexivity|]). contradiction.
Qed.
Print Assumptions C75_responses_partial.

(** and the responses of the pumps come back, in order, numbered from 0 *)
Theorem C75_pumps_partial fl h raw data c pumps : build_response_collection fl h raw data = Ok c ->
  dget (KS "pumps") raw = Some (VDict pumps) -> pumps <> [] ->
  exists raw', deconstruct_response_collection c = Ok (raw', inj (VDict data)) /\
  oget (KS "pumps") raw' = Some (ODict (numbered 0 (map (fun x => inj (snd x)) pumps))) /\
  (map fst pumps = map fst (numbered 0 (map (fun x => inj (snd x)) pumps)) -> oget (KS "pumps") raw' = Some (inj (VDict pumps))).
Proof.
  intros B G N. rewrite (deconstruct_build _ _ _ _ _ B). eexists. split; [reflexivity|].
  assert (E : oget (KS "pumps") (map (fun n => (KS n, comes_back (dget (KS n) raw))) requests)
              = Some (ODict (numbered 0 (map (fun x => inj (snd x)) pumps)))).
  { unfold requests. cbn [map oget]. change (Some (comes_back (dget (KS "pumps") raw)) = Some (ODict (numbered 0 (map (fun x => inj (snd x)) pumps)))).
    rewrite G. destruct pumps; [contradiction|reflexivity]. }
  split; [exact E|]. intros M. rewrite E. clear -M. do 2 f_equal. change (ODict (numbered 0 (map (fun x => inj (snd x)) pumps)) = ODict (map (fun x => (fst x, inj (snd x))) pumps)).
  f_equal. revert M. generalize 0 as i. induction pumps as [|[k v] p IH]; intros i M; [reflexivity|].
  cbn [map numbered fst snd] in *. injection M as -> M. rewrite <- (IH _ M). reflexivity.
Qed.
Print Assumptions C75_pumps_partial.

Definition no_float (s : pystr) : option spec_float := None.
Definition midnight : spec_float := S754_zero false.
Definition collect (raw data : dict) : res collection := build_response_collection no_float midnight raw data.

(** raw responses as get_debug gives them for a controller whose pumps have the indices 1 and 3 (C64) *)
Definition pump_raw : pv := VBytes (wire_pump (some_pump 1)).
Definition raw13 : dict := [(KS "config", VBytes (wire_config some_config)); (KS "pumps", VDict [(KI 1, pump_raw); (KI 3, pump_raw)])].
Definition raw01 : dict := [(KS "config", VBytes (wire_config some_config)); (KS "pumps", VDict [(KI 0, pump_raw); (KI 1, pump_raw)])].
Example C75_nonvacuous : (exists c, collect raw01 [] = Ok c) /\ (exists c, collect raw13 [] = Ok c) /\
  map fst [(KI 0, pump_raw); (KI 1, pump_raw)] = map fst (numbered 0 (map (fun x => inj (snd x)) [(KI 0, pump_raw); (KI 1, pump_raw)])).
Proof. repeat split; try (eexists; vm_compute; reflexivity). Qed.

(** The full property fails: the responses of pumps 1 and 3 come back as those of pumps 0 and 1. *)
Theorem C75_pump_index_refuted : exists c raw', collect raw13 [] = Ok c /\
  deconstruct_response_collection c = Ok (raw', ODict []) /\
  oget (KS "pumps") raw' = Some (ODict [(KI 0, inj pump_raw); (KI 1, inj pump_raw)]) /\
  inj (VDict raw13) <> ODict raw'.
Proof.
  destruct (collect raw13 []) as [c|] eqn:B; [|vm_compute in B; discriminate].
  exists c. eexists. split; [reflexivity|]. split; [exact (deconstruct_build _ _ _ _ _ B)|]. split; [reflexivity|]. discriminate.
Qed.
Print Assumptions C75_pump_index_refuted.

(** C76: a collection whose values JSON can carry is imported equal to what was exported. *)
Theorem C76_round_trip c : exportable_collection c ->
  exists j c', export_response_collection c = Ok j /\ import_response_collection j = Ok c' /\ equal_collection c c'.
Proof. apply collection_rt. Qed.
Print Assumptions C76_round_trip.

(** In full: every collection the decoders can produce.  Proved for data that come from any history of
    messages whatever (decoded or not), and any raw responses, as long as no dictionary in the
    collection has a negative key. *)
Theorem C76_decoded_partial fl h raw l c : build_response_collection fl h raw (history l []) = Ok c ->
  real_bytes (inj (VDict raw)) -> no_negative_keys (decoded_complete c) ->
  (forall n v, In (n, v) (fields c) -> no_negative_keys v) ->
  exists j c', export_response_collection c = Ok j /\ import_response_collection j = Ok c' /\ equal_collection c c'.
Proof. intros B W N1 N2. apply collection_rt. exact (built_exportable fl h raw l c B W N1 N2). Qed.
Print Assumptions C76_decoded_partial.

(** the collection of the example: configuration and pump, after a history with a status message *)
Definition some_history : list call := [DConfig (wire_config some_config); DStatus (wire_status some_status); DStatus [1; 2; 3]; DPump 0 (wire_pump (some_pump 1))].

Example C76_nonvacuous : exists c,
  collect raw01 (history some_history []) = Ok c /\
  real_bytes (inj (VDict raw01)) /\ no_negative_keys (decoded_complete c) /\ (forall n v, In (n, v) (fields c) -> no_negative_keys v) /\
  (exists d, dpget [KS "circuit"; KI 500; KS "name"] (history some_history []) = Some d).
Proof.
  destruct (collect raw01 (history some_history [])) as [c|] eqn:B; [|vm_compute in B; discriminate].
  exists c. split; [reflexivity|]. pose proof (build_spec _ _ _ _ _ B) as [D F]. split; [|split; [|split]].
  - assert (W : forall x, In x [wire_config some_config; wire_pump (some_pump 1)] -> wf_bytes x).
    { assert (G : forall l, forallb (fun z => (0 <=? z) && (z <? 256)) l = true -> wf_bytes l).
      { intros l H. apply Forall_forall. intros z I. rewrite forallb_forall in H. specialize (H z I). unfold is_byte. Lia.lia. }
      intros x [<-|[<-|[]]]; apply G; vm_compute; reflexivity. }
    unfold raw01, pump_raw. cbn [inj map fst snd]. revert W. generalize (wire_config some_config) as b1, (wire_pump (some_pump 1)) as b2.
    intros b1 b2 W b I. apply W. clear -I.
    inversion I as [| | |k v d I1 I2| |]; subst. destruct I1 as [[= <- <-]|[[= <- <-]|[]]].
    + inversion I2; subst. left; reflexivity.
    + inversion I2 as [| | |k v d I1 I3| |]; subst. destruct I1 as [[= <- <-]|[[= <- <-]|[]]]; inversion I3; subst; right; left; reflexivity.
  - clear F D. vm_compute in B. injection B as <-. apply onneg_keys. vm_compute. reflexivity.
  - clear F D. vm_compute in B. injection B as <-. unfold fields.
    cbn [c_version c_config c_status c_pumps c_chemistry c_scg c_color c_date_time].
    intros n v I. apply onneg_keys. cbn [In] in I. repeat (destruct I as [I|I]; [injection I as _ <-; vm_compute; reflexivity|]). contradiction.
  - eexists. vm_compute. reflexivity.
Qed.

(** The full property fails: a configuration message may name a circuit -1, and -1 becomes the text
    "-1", which is not turned back into an integer. *)
Definition odd_config := {|
  g_id := 100; g_min0 := 40; g_max0 := 104; g_min1 := 40; g_max1 := 104; g_celsius := 0; g_ctype := 13; g_htype := 0;
  g_cdata := 0; g_equip := 0; g_name := (false, u "Water");
  g_circuits := [ {| cc_id := -1; cc_name := (false, u "Spa"); cc_name_index := 71; cc_function := 1; cc_interface := 1;
                     cc_flags := 1; cc_set := 0; cc_pos := 0; cc_stag := 0; cc_device := 1; cc_runtime := 720; cc_unk1 := 0; cc_unk2 := 0 |} ];
  g_colors := []; g_p0 := 0; g_p1 := 0; g_p2 := 0; g_p3 := 0; g_p4 := 0; g_p5 := 0; g_p6 := 0; g_p7 := 0; g_tabs := 0; g_alarms := 0 |}.
Theorem C76_negative_circuit_refuted : config_ok odd_config /\
  exists c j c', collect [] (history [DConfig (wire_config odd_config)] []) = Ok c /\
  export_response_collection c = Ok j /\ import_response_collection j = Ok c' /\ ~ equal_collection c c'.
Proof.
  split; [unfold config_ok; cbn [odd_config g_id g_equip g_name g_circuits g_colors g_tabs g_alarms]; in_range; cbn [snd u cc_name co_name cc_id cc_runtime]; in_range|].
  destruct (collect [] (history [DConfig (wire_config odd_config)] [])) as [c|] eqn:B; [|vm_compute in B; discriminate].
  vm_compute in B. injection B as <-. eexists. eexists. eexists. split; [reflexivity|]. split; [vm_compute; reflexivity|]. split; [vm_compute; reflexivity|].
  intros [E _]. cbn [decoded_complete] in E.
  lazymatch type of E with equal (ODict ?d) (ODict ?d') =>
    destruct (equal_entry d d' (KS "circuit") (match oget (KS "circuit") d with Some v => v | None => ONone end) E) as (v & I & E2); [vm_compute; tauto|] end.
  clear E. cbn [In] in I. repeat (destruct I as [I|I]; [try discriminate I; injection I as <-|]); try contradiction.
  vm_compute in E2. lazymatch type of E2 with equal (ODict ?d) (ODict ?d') =>
    destruct (equal_entry d d' (KI (-1)) (match oget (KI (-1)) d with Some v => v | None => ONone end) E2) as (v & I & _); [vm_compute; tauto|] end.
  cbn [In] in I. repeat (destruct I as [I|I]; [try discriminate I|]); contradiction.
Qed.
Print Assumptions C76_negative_circuit_refuted.

(** C77: any bytes, alone or inside any list, survive. *)
Theorem C77_bytes b : wf_bytes b -> exists j, dump (OBytes b) = Ok j /\ load j = Ok (OBytes b).
Proof. intros W. destruct (exportable_round _ (ex_bytes b W)) as (j & v & D & L & E). inversion E; subst. exists j. auto. Qed.
Print Assumptions C77_bytes.
(** the two functions themselves *)
Theorem C77_encoder b : wf_bytes b -> load (bytes_json_encoder b) = Ok (OBytes b).
Proof. intros W. destruct (C77_bytes b W) as (j & D & L). injection D as <-. exact L. Qed.
Print Assumptions C77_encoder.
(** the text is pure ASCII and does not depend on quoting: both quotes, backslashes, control bytes *)
Theorem C77_ascii b : wf_bytes b -> Forall (fun c => 32 <= c < 127) (bytes_repr b).
Proof. apply repr_ascii. Qed.
Print Assumptions C77_ascii.
Example C77_nonvacuous : wf_bytes [0; 39; 34; 92; 10; 200; 255; 120] /\
  load (bytes_json_encoder [0; 39; 34; 92; 10; 200; 255; 120]) = Ok (OBytes [0; 39; 34; 92; 10; 200; 255; 120]).
Proof. split; [repeat constructor; unfold is_byte; Lia.lia|vm_compute; reflexivity]. Qed.
