(** C80-C83: enumerations, value ranges, model names and the water balance.
    Vocabulary: SpecParse.v (spelling of members, value of a Python number) and SpecEnum.v
    (known controller models). *)
From Coq Require Import QArith.
From Verif Require Import Py F64 Const Enum Decode SpecEnum SpecParse P_Enum P_Num P_Parse.
Open Scope Z_scope.

(** The SLIntEnum classes of the package (const/common.py:185, device_const/*.py). *)
Definition enumerations : list enum :=
  [ON_OFF; BODY_TYPE; CONTROLLER_STATE; COLOR_MODE; FUNCTION; INTERFACE; HEAT_MODE; HEAT_STATE;
   PUMP_TYPE; STATUS_FLAG; STATE_FLAG; DOSE_STATE; DOSE_TYPE_ORP; DOSE_TYPE_PH].

Lemma enumerations_ok e : In e enumerations -> enum_ok e = true.
Proof.
  assert (H : forallb enum_ok enumerations = true) by (vm_compute; reflexivity).
  rewrite forallb_forall in H. auto.
Qed.
Lemma enumerations_wf e : In e enumerations -> well_formed e.
Proof. intros H. apply enum_ok_wf, enumerations_ok, H. Qed.

(** C80: a text that names a member (its number in decimal, or its name in any letter case,
    with spaces for underscores and apostrophes ignored) is parsed to that member. *)
Theorem C80_named e s n v d : In e enumerations -> names_member e s n v ->
  parse e (VStr s) d = Ok (Some (n, v)).
Proof. intros H. apply parse_named, enumerations_wf, H. Qed.
Print Assumptions C80_named.
(** and so is the number itself *)
Theorem C80_number e n v d : In e enumerations -> In (n, v) e -> parse e (VInt v) d = Ok (Some (n, v)).
Proof. intros H I. exact (parse_int e v d (enumerations_wf e H) n I). Qed.
Print Assumptions C80_number.
(** every advertised value names a member ... *)
Theorem C80_advertised e s : In e enumerations -> In s (parsable_values e) ->
  exists n v, names_member e s n v /\ forall d, parse e (VStr s) d = Ok (Some (n, v)).
Proof.
  intros H I. unfold parsable_values in I. apply in_flat_map in I. destruct I as ([n v] & I1 & I2).
  pose proof (enumerations_ok e H) as K. unfold enum_ok in K. rewrite !andb_true_iff in K.
  destruct (member_ok_named e n v (proj2 K) I1) as [A B].
  exists n, v. destruct I2 as [<-|[<-|[]]]; (split; [assumption|]); intros d; apply C80_named; assumption.
Qed.
Print Assumptions C80_advertised.
(** ... and every member is advertised by number and by name *)
Theorem C80_all_advertised e n v : In e enumerations -> In (n, v) e ->
  exists a b, In a (parsable_values e) /\ In b (parsable_values e) /\ numeral a v /\ spells b (u n)
    /\ Forall (fun c => ~ 65 <= c <= 90) b.
Proof.
  intros H I. pose proof (enumerations_ok e H) as K. unfold enum_ok in K. rewrite !andb_true_iff in K.
  destruct K as [_ K]. destruct (member_ok_named e n v K I) as [(_ & A) (_ & B)].
  exists (str_of_Z v), (str_lower (u n)).
  assert (forall x, x = str_of_Z v \/ x = str_lower (u n) -> In x (parsable_values e)) as M.
  { intros x Hx. apply in_flat_map. exists (n, v). split; [exact I|]. cbn. intuition. }
  rewrite forallb_forall in K. specialize (K _ I). unfold member_ok in K. cbn [fst snd] in K.
  rewrite !andb_true_iff, negb_true_iff in K. destruct K as [[[K1 _] K3] _].
  split; [auto|]. split; [auto|]. split.
  - destruct A as [A|[A _]]; [exact A|]. exfalso. apply A. apply isdigit_numeral. exact K1.
  - split.
    + destruct B as [B|[_ B]]; [|exact B]. assert (X : exists z, numeral (str_lower (u n)) z) by eauto.
      apply isdigit_numeral in X. congruence.
    + apply Forall_forall. intros c Hc. unfold str_lower in Hc. apply in_map_iff in Hc. destruct Hc as (x & <- & _).
      unfold lower1, is_upper. destruct (Z.leb_spec 65 x), (Z.leb_spec x 90); cbn [andb]; lia.
Qed.
Print Assumptions C80_all_advertised.
(** a text or number that names no member gives the default: None, or the member with the
    default value (0 unless given) *)
Theorem C80_unnamed e s : In e enumerations -> (~ exists n v, names_member e s n v) ->
  parse e (VStr s) None = Ok None
  /\ forall n d, In (n, d) e -> parse e (VStr s) (Some d) = Ok (Some (n, d)).
Proof.
  intros H N. split; [rewrite parse_unnamed by exact N; reflexivity|].
  intros n d I. rewrite parse_unnamed by exact N. apply default_some; [apply enumerations_wf, H|exact I].
Qed.
Print Assumptions C80_unnamed.
Theorem C80_unknown_number e z : In e enumerations -> (~ exists n, In (n, z) e) ->
  parse e (VInt z) None = Ok None
  /\ forall n d, In (n, d) e -> parse e (VInt z) (Some d) = Ok (Some (n, d)).
Proof.
  intros H N. split; [rewrite parse_int_unknown by exact N; reflexivity|].
  intros n d I. rewrite parse_int_unknown by exact N. apply default_some; [apply enumerations_wf, H|exact I].
Qed.
Print Assumptions C80_unknown_number.
Example C80_nonvacuous :
  In HEAT_MODE enumerations
  /\ names_member HEAT_MODE (u "dOn't change") "DONT_CHANGE" 4
  /\ names_member HEAT_MODE (u "03") "HEATER" 3
  /\ parse HEAT_MODE (VStr (u "dOn't change")) (Some 0) = Ok (Some ("DONT_CHANGE"%string, 4))
  /\ parse HEAT_MODE (VStr (u "03")) (Some 0) = Ok (Some ("HEATER"%string, 3))
  /\ parse HEAT_MODE (VStr (u "turbo")) (Some 0) = Ok (Some ("OFF"%string, 0))
  /\ parse HEAT_MODE (VStr (u "turbo")) None = Ok None
  /\ parsable_values ON_OFF = [u "0"; u "off"; u "1"; u "on"].
Proof.
  split; [cbn; auto 10|]. split; [|split; [|repeat split; vm_compute; reflexivity]].
  - split; [vm_compute; auto 10|]. right. split.
    + intros [z (_ & F & _)]. inversion F as [|? ? A _]; subst. vm_compute in A. destruct A as [_ A]. apply A. reflexivity.
    + assert (u "DONT_CHANGE" = norm (u "dOn't change")) as -> by (vm_compute; reflexivity). apply spells_norm.
  - split; [vm_compute; auto 10|]. left. split; [discriminate|]. split; [|vm_compute; reflexivity].
    repeat constructor; vm_compute; congruence.
Qed.

(** ------------------------------------------------------------------ *)
(** C81.  [range_check] is SLValueRange.check: Ok () when it returns, Err EValue for
    ValueError. *)
Theorem C81_check lo hi v : python_value lo -> python_value v -> python_value hi ->
  value_of lo <> None -> value_of hi <> None -> value_of v <> None ->
  (range_check (mkRange lo hi) v = Ok tt /\ lies_between lo v hi)
  \/ (range_check (mkRange lo hi) v = Err EValue /\ ~ lies_between lo v hi).
Proof.
  intros Hl Hv Hh Nl Nh Nv.
  destruct (value_of lo) as [l|] eqn:El; [|congruence]. destruct (value_of hi) as [h|] eqn:Eh; [|congruence].
  destruct (value_of v) as [x|] eqn:Ex; [|congruence].
  assert (B : lies_between lo v hi <-> at_most l x /\ at_most x h).
  { unfold lies_between. rewrite El, Eh, Ex. split.
    - intros (a & b & c & E1 & E2 & E3 & H1 & H2). injection E1 as <-. injection E2 as <-. injection E3 as <-. auto.
    - intros [H1 H2]. exists l, x, h. auto. }
  rewrite B. unfold range_check, in_range. cbn [r_min r_max].
  destruct (num_leb_value lo v l x Hl Hv El Ex) as [[-> A]|[-> A]]; cbn [rbind]; [|right; split; [reflexivity|tauto]].
  destruct (num_leb_value v hi x h Hv Hh Ex Eh) as [[-> A2]|[-> A2]]; cbn [rbind]; [left|right]; split; try reflexivity; tauto.
Qed.
Print Assumptions C81_check.
(** NaN is never in range; text, None and containers are a TypeError *)
Theorem C81_nan lo hi : python_value lo -> python_value hi -> value_of lo <> None -> value_of hi <> None ->
  range_check (mkRange lo hi) (VFloat S754_nan) = Err EValue.
Proof.
  intros Hl Hh Nl Nh. destruct (C81_check lo hi (VFloat S754_nan)) as [[_ B]|[E _]]; auto; try discriminate; [reflexivity|].
  exfalso. destruct B as (a & b & c & E1 & E2 & E3 & H1 & H2). injection E2 as <-. destruct a; exact H1.
Qed.
Print Assumptions C81_nan.
Theorem C81_not_a_number lo hi v : value_of v = None -> range_check (mkRange lo hi) v = Err EType.
Proof. intros E. unfold range_check, in_range. cbn [r_min r_max]. rewrite num_leb_other by (right; exact E). reflexivity. Qed.
Print Assumptions C81_not_a_number.
(** parse_check: [conv_int] and [conv_float] stand for int(text) and float(text), None for
    their ValueError.  A float lower bound selects float. *)
Theorem C81_parse_check conv_int conv_float lo hi s :
  (forall v, conv_int s = Some v -> exists z, v = VInt z) ->
  (forall v, conv_float s = Some v -> exists f, v = VFloat f /\ python_float f) ->
  python_value lo -> python_value hi -> value_of lo <> None -> value_of hi <> None ->
  let conv := match lo with VFloat _ => conv_float s | _ => conv_int s end in
  match conv with
  | Some v => (parse_check conv_int conv_float (mkRange lo hi) s = Ok v /\ lies_between lo v hi)
              \/ (parse_check conv_int conv_float (mkRange lo hi) s = Err EValue /\ ~ lies_between lo v hi)
  | None => parse_check conv_int conv_float (mkRange lo hi) s = Err EValue
  end.
Proof.
  intros Hi Hf Pl Ph Nl Nh conv.
  assert (K : parse_check conv_int conv_float (mkRange lo hi) s
    = match conv with None => Err EValue | Some v => rbind (range_check (mkRange lo hi) v) (fun _ => Ok v) end).
  { unfold parse_check, range_check. cbn [r_min]. fold conv. destruct conv as [v|]; [|reflexivity].
    destruct (in_range _ v) as [[]|]; reflexivity. }
  assert (V : forall v, conv = Some v -> value_of v <> None /\ python_value v).
  { intros v E. unfold conv in E. destruct lo; try (destruct (Hi _ E) as [zz ->]; split; [discriminate|exact Logic.I]).
    destruct (Hf _ E) as (ff & -> & P). split; [discriminate|exact P]. }
  rewrite K. destruct conv as [v|]; [|reflexivity]. destruct (V v eq_refl) as [V1 V2].
  destruct (C81_check lo hi v) as [[-> B]|[-> B]]; auto.
Qed.
Print Assumptions C81_parse_check.
Example C81_nonvacuous :
  python_value (VFloat f7_2) /\ python_value (VFloat f7_6)
  /\ range_check CHEM_RANGE_PH_SETPOINT (VFloat f7_2) = Ok tt
  /\ range_check CHEM_RANGE_PH_SETPOINT (VFloat f7_6) = Ok tt
  /\ range_check CHEM_RANGE_PH_SETPOINT (VInt 7) = Err EValue
  /\ range_check CHEM_RANGE_PH_SETPOINT (VFloat (S754_infinity false)) = Err EValue
  /\ range_check CHEM_RANGE_ORP_SETPOINT (VFloat (zdivf 8001 10)) = Err EValue
  /\ range_check CHEM_RANGE_ORP_SETPOINT (VStr (u "700")) = Err EType
  /\ parse_check (fun _ => Some (VInt 700)) (fun _ => None) CHEM_RANGE_ORP_SETPOINT (u "700") = Ok (VInt 700).
Proof. repeat split; vm_compute; reflexivity. Qed.

(** ------------------------------------------------------------------ *)
(** C82 *)
Theorem C82_model c h : is_model c h (model_from_type c h).
Proof. exact (model_spec c h). Qed.
Print Assumptions C82_model.
(** the table has one entry per pair, so the name of a known pair is determined *)
Theorem C82_known c h n : In (c, h, n) known_models -> model_from_type c h = u n.
Proof.
  intros H. destruct (model_spec c h) as [(m & Hm & ->)|[N _]]; [|exfalso; apply N; apply in_map_iff; exists (c, h, n); auto].
  assert (D : NoDup (map fst known_models)).
  { repeat constructor; cbn; intuition discriminate. }
  clear -H Hm D. induction known_models as [|[p x] l IH]; [destruct H|].
  cbn [map fst] in D. inversion D as [|? ? D1 D2]; subst.
  destruct H as [H|H], Hm as [Hm|Hm].
  - congruence.
  - injection H as -> ->. exfalso. apply D1. apply in_map_iff. exists ((c, h), m). auto.
  - injection Hm as -> ->. exfalso. apply D1. apply in_map_iff. exists ((c, h), n). auto.
  - auto.
Qed.
Print Assumptions C82_known.
Example C82_nonvacuous :
  model_from_type 13 2 = u "EasyTouch2 4" /\ model_from_type 5 1 = u "IntelliTouch i10X"
  /\ model_from_type 252 2 = u "Unknown Model C:252 H:2" /\ model_from_type (-1) 0 = u "Unknown Model C:-1 H:0".
Proof. repeat split; vm_compute; reflexivity. Qed.

(** ------------------------------------------------------------------ *)
(** C83.  The literal 0.1 is the binary64 number nearest to 1/10. *)
Definition point_one : Q := 3602879701896397 # 36028797018963968.
Definition point_five : Q := 1 # 2.
Inductive class_of : extended -> pystr -> Prop :=
| cl_ideal x : at_most (Finite (- point_one)) x -> at_most x (Finite point_one) -> class_of x (u "Ideal")
| cl_normal_low x : at_most (Finite (- point_five)) x -> below x (Finite (- point_one)) -> class_of x (u "Normal")
| cl_normal_high x : below (Finite point_one) x -> at_most x (Finite point_five) -> class_of x (u "Normal")
| cl_corrosive x : below x (Finite (- point_five)) -> class_of x (u "Corrosive")
| cl_scaling x : below (Finite point_five) x -> class_of x (u "Scaling").

Lemma at_most_total x y : x <> NaN -> y <> NaN -> at_most x y \/ below y x.
Proof.
  intros Nx Ny. unfold below. destruct x as [p| | |], y as [q| | |]; cbn; try congruence; try tauto.
  destruct (Qlt_le_dec q p) as [H|H]; [right|left; exact H]. split; [apply Qlt_le_weak; exact H|apply Qlt_not_le; exact H].
Qed.
Lemma at_most_trans x y z : at_most x y -> at_most y z -> at_most x z.
Proof. destruct x, y, z; cbn; try tauto. apply Qle_trans. Qed.
Lemma at_most_eq_r p q x : (p == q)%Q -> (at_most x (Finite p) <-> at_most x (Finite q)).
Proof. intros E. destruct x; cbn; try tauto. rewrite E. tauto. Qed.
Lemma at_most_eq_l p q x : (p == q)%Q -> (at_most (Finite p) x <-> at_most (Finite q) x).
Proof. intros E. destruct x; cbn; try tauto. rewrite E. tauto. Qed.

Theorem C83_classified v x : python_value v -> value_of v = Some x -> x <> NaN ->
  exists s, from_saturation v = Ok s /\ class_of x s.
Proof.
  intros P E N.
  assert (Q1 : exists q, float_value (fneg f0_1) = Finite q /\ (q == - point_one)%Q) by (eexists; split; vm_compute; reflexivity).
  assert (Q2 : exists q, float_value f0_1 = Finite q /\ (q == point_one)%Q) by (eexists; split; vm_compute; reflexivity).
  assert (Q3 : exists q, float_value (fneg f0_5) = Finite q /\ (q == - point_five)%Q) by (eexists; split; vm_compute; reflexivity).
  assert (Q4 : exists q, float_value f0_5 = Finite q /\ (q == point_five)%Q) by (eexists; split; vm_compute; reflexivity).
  destruct Q3 as (q3 & E3 & Q3). destruct Q4 as (q4 & E4 & Q4). destruct Q1 as (q1 & E1 & Q1). destruct Q2 as (q2 & E2 & Q2).
  assert (V1 : python_value (VFloat (fneg f0_1))) by (vm_compute; reflexivity).
  assert (V2 : python_value (VFloat f0_1)) by (vm_compute; reflexivity).
  assert (V3 : python_value (VFloat (fneg f0_5))) by (vm_compute; reflexivity).
  assert (V4 : python_value (VFloat f0_5)) by (vm_compute; reflexivity).
  assert (L1 : value_of (VFloat (fneg f0_1)) = Some (Finite q1)) by (cbn [value_of]; rewrite E1; reflexivity).
  assert (L2 : value_of (VFloat f0_1) = Some (Finite q2)) by (cbn [value_of]; rewrite E2; reflexivity).
  assert (L3 : value_of (VFloat (fneg f0_5)) = Some (Finite q3)) by (cbn [value_of]; rewrite E3; reflexivity).
  assert (L4 : value_of (VFloat f0_5) = Some (Finite q4)) by (cbn [value_of]; rewrite E4; reflexivity).
  assert (A1 := num_leb_value _ v _ x V1 P L1 E). assert (A2 := num_leb_value v _ x _ P V2 E L2).
  assert (A3 := num_leb_value _ v _ x V3 P L3 E). assert (A4 := num_leb_value v _ x _ P V4 E L4).
  assert (A5 := num_ltb_value v _ x _ P V3 E L3).
  rewrite (at_most_eq_l _ _ x Q1) in A1. rewrite (at_most_eq_r _ _ x Q2) in A2.
  rewrite (at_most_eq_l _ _ x Q3) in A3. rewrite (at_most_eq_r _ _ x Q4) in A4.
  assert (W : below x (Finite q3) <-> below x (Finite (- point_five))).
  { unfold below. rewrite (at_most_eq_r _ _ x Q3), (at_most_eq_l _ _ x Q3). tauto. }
  rewrite W in A5. clear W E1 E2 E3 E4 Q1 Q2 Q3 Q4 L1 L2 L3 L4 V1 V2 V3 V4.
  assert (T1 := at_most_total (Finite (- point_one)) x ltac:(discriminate) N).
  assert (T2 := at_most_total x (Finite point_one) N ltac:(discriminate)).
  assert (T3 := at_most_total (Finite (- point_five)) x ltac:(discriminate) N).
  assert (T4 := at_most_total x (Finite point_five) N ltac:(discriminate)).
  unfold from_saturation, in_range. cbn [r_min r_max].
  destruct A1 as [[-> A1]|[-> A1]]; cbn [rbind]; [destruct A2 as [[-> A2]|[-> A2]]; cbn [rbind]|].
  1: { exists (u "Ideal"). split; [reflexivity|]. apply cl_ideal; assumption. }
  all: destruct A3 as [[-> A3]|[-> A3]]; cbn [rbind]; [destruct A4 as [[-> A4]|[-> A4]]; cbn [rbind]|];
       try (destruct A5 as [[-> A5]|[-> A5]]; cbn [rbind]);
       eexists; (split; [reflexivity|]).
  - apply cl_normal_high; [destruct T2; [contradiction|assumption]|assumption].
  - apply cl_corrosive; assumption.
  - apply cl_scaling. destruct T4; [contradiction|assumption].
  - apply cl_corrosive; assumption.
  - exfalso. destruct T3; contradiction.
  - apply cl_normal_low; [assumption|destruct T1; [contradiction|assumption]].
  - apply cl_corrosive; assumption.
  - apply cl_scaling. destruct T4; [contradiction|assumption].
  - apply cl_corrosive; assumption.
  - exfalso. destruct T3; contradiction.
Qed.
Print Assumptions C83_classified.
(** the classes exclude each other *)
Theorem C83_unique x s s' : class_of x s -> class_of x s' -> s = s'.
Proof.
  assert (O1 : at_most (Finite (- point_five)) (Finite (- point_one))) by (cbn; discriminate).
  assert (O2 : at_most (Finite (- point_one)) (Finite point_one)) by (cbn; discriminate).
  assert (O3 : at_most (Finite point_one) (Finite point_five)) by (cbn; discriminate).
  assert (O4 := at_most_trans _ _ _ (at_most_trans _ _ _ O1 O2) O3).
  assert (O5 := at_most_trans _ _ _ O1 O2). assert (O6 := at_most_trans _ _ _ O2 O3).
  intros H H'. inversion H; inversion H'; subst;
    try reflexivity; clear H H'; exfalso; unfold below in *;
    repeat match goal with H : _ /\ _ |- _ => destruct H end;
    match goal with
    | [ N : ~ at_most ?p ?q, A : at_most ?p ?q |- _ ] => exact (N A)
    | [ N : ~ at_most ?p ?q, A : at_most ?p ?r, B : at_most ?r ?q |- _ ] => exact (N (at_most_trans _ _ _ A B))
    | [ N : ~ at_most ?p ?q, A : at_most ?p ?r, B : at_most ?r ?t, C : at_most ?t ?q |- _ ] =>
        exact (N (at_most_trans _ _ _ A (at_most_trans _ _ _ B C)))
    end.
Qed.
Print Assumptions C83_unique.
(** a NaN is called scaling *)
Theorem C83_nan : from_saturation (VFloat S754_nan) = Ok (u "Scaling").
Proof. reflexivity. Qed.
Print Assumptions C83_nan.
(** in hundredths, for every saturation index the chemistry message can hold (a signed byte) *)
Definition class_of_hundredths (n : Z) : pystr :=
  if (-10 <=? n) && (n <=? 10) then u "Ideal"
  else if (-50 <=? n) && (n <=? 50) then u "Normal"
  else if n <? -50 then u "Corrosive" else u "Scaling".
Theorem C83_hundredths n : -128 <= n <= 127 ->
  from_saturation (VFloat (zdivf n 100)) = Ok (class_of_hundredths n).
Proof.
  intros H.
  assert (K : forallb (fun k => let n := Z.of_nat k - 128 in
    match from_saturation (VFloat (zdivf n 100)) with Ok s => pystr_eqb s (class_of_hundredths n) | Err _ => false end) (seq 0 256) = true)
    by (vm_compute; reflexivity).
  rewrite forallb_forall in K. specialize (K (Z.to_nat (n + 128))). cbv zeta in K.
  rewrite Z2Nat.id in K by lia. replace (n + 128 - 128) with n in K by lia.
  destruct (from_saturation (VFloat (zdivf n 100))) as [s|e].
  - rewrite (pystr_eqb_eq _ _ (K ltac:(apply in_seq; lia))). reflexivity.
  - specialize (K ltac:(apply in_seq; lia)). discriminate.
Qed.
Print Assumptions C83_hundredths.
Example C83_nonvacuous :
  from_saturation (VFloat (zdivf (-51) 100)) = Ok (u "Corrosive") /\ from_saturation (VFloat (zdivf 50 100)) = Ok (u "Normal")
  /\ from_saturation (VFloat (zdivf 11 100)) = Ok (u "Normal") /\ from_saturation (VInt 0) = Ok (u "Ideal")
  /\ from_saturation (VFloat (S754_infinity false)) = Ok (u "Scaling").
Proof. repeat split; vm_compute; reflexivity. Qed.
