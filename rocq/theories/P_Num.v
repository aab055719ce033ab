(** Comparisons of Python numbers are comparisons of their values (C81, C83). *)
From Coq Require Import QArith Qpower Lqa.
From Verif Require Import Py F64 SpecParse P_Base P_Float.
Open Scope Z_scope.

Lemma two_pos e : (0 < 2 ^ e)%Q.
Proof. apply Qpower_0_lt. reflexivity. Qed.
Lemma two_int e : 0 <= e -> (2 ^ e == inject_Z (2 ^ e))%Q.
Proof. intros H. rewrite Zpower_Qpower by exact H. reflexivity. Qed.
Lemma two_split e f : (2 ^ (e + f) == 2 ^ e * 2 ^ f)%Q.
Proof. apply Qpower_plus. discriminate. Qed.
Lemma scale_cmp a b c : (0 < c)%Q -> (a * c ?= b * c)%Q = (a ?= b)%Q.
Proof.
  intros H. destruct (a ?= b)%Q eqn:E.
  - apply Qeq_alt in E. apply Qeq_alt. rewrite E. reflexivity.
  - apply Qlt_alt in E. apply Qlt_alt. apply Qmult_lt_r; assumption.
  - apply Qgt_alt in E. apply Qgt_alt. apply Qmult_lt_r; assumption.
Qed.
Lemma inject_cmp a b : (inject_Z a ?= inject_Z b)%Q = (a ?= b).
Proof. unfold Qcompare, inject_Z. cbn. rewrite !Z.mul_1_r. reflexivity. Qed.
Lemma cmp_proper a a' b b' : (a == a')%Q -> (b == b')%Q -> (a ?= b)%Q = (a' ?= b')%Q.
Proof. intros H1 H2. apply Qcompare_comp; assumption. Qed.

Definition fin (n e : Z) : Q := (inject_Z n * 2 ^ e)%Q.
Lemma fin_same a b e : (fin a e ?= fin b e)%Q = (a ?= b).
Proof. unfold fin. rewrite scale_cmp by apply two_pos. apply inject_cmp. Qed.
Lemma fin_int a : (fin a 0 == inject_Z a)%Q.
Proof. unfold fin. cbn. ring. Qed.
Lemma fin_up n e k : 0 <= k -> (fin n (e + k) == fin (n * 2 ^ k) e)%Q.
Proof.
  intros H. unfold fin. rewrite two_split, (two_int k) by exact H. rewrite inject_Z_mult. ring.
Qed.
(** int against float *)
Lemma int_fin z n e : (inject_Z z ?= fin n e)%Q
  = (if 0 <=? e then Z.compare z (n * 2 ^ e) else Z.compare (z * 2 ^ (- e)) n).
Proof.
  rewrite (cmp_proper _ (fin z 0) _ (fin n e)) by (try rewrite fin_int; reflexivity).
  destruct (Z.leb_spec 0 e) as [H|H].
  - rewrite (cmp_proper _ (fin z 0) _ (fin (n * 2 ^ e) 0)); [apply fin_same|reflexivity|].
    rewrite <- fin_up by exact H. reflexivity.
  - rewrite (cmp_proper _ (fin (z * 2 ^ (- e)) e) _ (fin n e)); [apply fin_same| |reflexivity].
    rewrite <- fin_up by lia. replace (e + - e) with 0 by lia. reflexivity.
Qed.
(** canonical mantissas *)
Lemma canonical m e : SpecFloat.bounded 53 1024 m e = true ->
  Z.pos m < 2 ^ 53 /\ -1074 <= e /\ (-1074 < e -> 2 ^ 52 <= Z.pos m).
Proof.
  unfold SpecFloat.bounded, canonical_mantissa. rewrite andb_true_iff. intros [H _].
  apply Zeq_bool_eq in H. unfold fexp, SpecFloat.emin in H.
  pose proof (digits2_pos_bounds m) as [B1 B2]. remember (Z.pos (digits2_pos m)) as d.
  assert (Hd : d <= 53) by lia.
  split; [eapply Z.lt_le_trans; [exact B2|apply Z.pow_le_mono_r; lia]|]. split; [lia|].
  intros He. replace d with 53 in B1 by lia. exact B1.
Qed.
Lemma pos_lt m1 e1 m2 e2 : SpecFloat.bounded 53 1024 m1 e1 = true -> SpecFloat.bounded 53 1024 m2 e2 = true ->
  e1 < e2 -> (fin (Z.pos m1) e1 < fin (Z.pos m2) e2)%Q.
Proof.
  intros H1 H2 He. destruct (canonical _ _ H1) as (A1 & B1 & C1). destruct (canonical _ _ H2) as (A2 & B2 & C2).
  replace e2 with (e1 + (e2 - e1)) by lia. rewrite fin_up by lia. apply Qlt_alt. rewrite fin_same.
  apply Z.compare_lt_iff. specialize (C2 ltac:(lia)).
  assert (2 ^ 1 <= 2 ^ (e2 - e1)) by (apply Z.pow_le_mono_r; lia).
  change (2 ^ 53) with (2 ^ 52 * 2) in A1. change (2 ^ 1) with 2 in H. nia.
Qed.
Lemma fin_opp n e : (fin (- n) e == - fin n e)%Q.
Proof. unfold fin. rewrite inject_Z_opp. ring. Qed.
Lemma opp_cmp a b : (- a ?= - b)%Q = (b ?= a)%Q.
Proof. unfold Qcompare, Qopp. cbn [Qnum Qden]. rewrite !Z.mul_opp_l, <- Z.compare_opp, !Z.opp_involutive. reflexivity. Qed.
Lemma pos_cmp m1 e1 m2 e2 : SpecFloat.bounded 53 1024 m1 e1 = true -> SpecFloat.bounded 53 1024 m2 e2 = true ->
  (fin (Z.pos m1) e1 ?= fin (Z.pos m2) e2)%Q
  = match e1 ?= e2 with Lt => Lt | Gt => Gt | Eq => Pos.compare_cont Eq m1 m2 end.
Proof.
  intros H1 H2. destruct (Z.compare_spec e1 e2) as [->|H|H].
  - rewrite fin_same. reflexivity.
  - apply Qlt_alt. apply pos_lt; assumption.
  - apply Qgt_alt. apply pos_lt; assumption.
Qed.
Lemma fin_pos m e : (0 < fin (Z.pos m) e)%Q.
Proof. unfold fin. apply Qmult_lt_0_compat; [reflexivity|apply two_pos]. Qed.
Lemma fin_neg m e : (fin (Z.neg m) e < 0)%Q.
Proof. pose proof (fin_pos m e). change (Z.neg m) with (- Z.pos m). rewrite fin_opp. Lqa.lra. Qed.

(** the comparison of values *)
Definition ext_cmp (a b : extended) : option comparison :=
  match a, b with
  | NaN, _ | _, NaN => None
  | Finite p, Finite q => Some (p ?= q)%Q
  | MinusInf, MinusInf | PlusInf, PlusInf => Some Eq
  | MinusInf, _ | _, PlusInf => Some Lt
  | PlusInf, _ | _, MinusInf => Some Gt
  end.
Lemma float_value_fin s m e : float_value (S754_finite s m e) = Finite (fin (if s then Z.neg m else Z.pos m) e).
Proof. destruct s; reflexivity. Qed.
Lemma zero_pos m e : (0 ?= fin (Z.pos m) e)%Q = Lt.
Proof. apply Qlt_alt. apply fin_pos. Qed.
Lemma zero_neg m e : (0 ?= fin (Z.neg m) e)%Q = Gt.
Proof. apply Qgt_alt. apply fin_neg. Qed.
Lemma pos_zero m e : (fin (Z.pos m) e ?= 0)%Q = Gt.
Proof. apply Qgt_alt. apply fin_pos. Qed.
Lemma neg_zero m e : (fin (Z.neg m) e ?= 0)%Q = Lt.
Proof. apply Qlt_alt. apply fin_neg. Qed.
Lemma neg_pos m e m' e' : (fin (Z.neg m) e ?= fin (Z.pos m') e')%Q = Lt.
Proof. apply Qlt_alt. eapply Qlt_trans; [apply fin_neg|apply fin_pos]. Qed.
Lemma pos_neg m e m' e' : (fin (Z.pos m) e ?= fin (Z.neg m') e')%Q = Gt.
Proof. apply Qgt_alt. eapply Qlt_trans; [apply fin_neg|apply fin_pos]. Qed.
Lemma float_cmp f g : python_float f -> python_float g -> SFcompare f g = ext_cmp (float_value f) (float_value g).
Proof.
  unfold python_float. intros Hf Hg.
  destruct f as [s1|s1| |s1 m1 e1], g as [s2|s2| |s2 m2 e2]; rewrite ?float_value_fin;
    try destruct s1; try destruct s2; cbn [SFcompare float_value ext_cmp];
    rewrite ?zero_pos, ?zero_neg, ?pos_zero, ?neg_zero, ?neg_pos, ?pos_neg; try reflexivity.
  - (* both negative *)
    cbn in Hf, Hg. f_equal. change (Z.neg m1) with (- Z.pos m1). change (Z.neg m2) with (- Z.pos m2).
    rewrite (cmp_proper _ _ _ _ (fin_opp (Z.pos m1) e1) (fin_opp (Z.pos m2) e2)), opp_cmp.
    rewrite pos_cmp by assumption. rewrite (Z.compare_antisym e1 e2). destruct (e1 ?= e2); cbn; try reflexivity.
    change (Pos.compare_cont Eq m2 m1) with (m2 ?= m1)%positive. change (Pos.compare_cont Eq m1 m2) with (m1 ?= m2)%positive.
    symmetry. apply Pos.compare_antisym.
  - cbn in Hf, Hg. f_equal. symmetry. apply pos_cmp; assumption.
Qed.
Lemma int_float_cmp z f : cmp_Zf z f = ext_cmp (Finite (inject_Z z)) (float_value f).
Proof.
  destruct f as [s|s| |s m e]; try destruct s; cbn [cmp_Zf float_value ext_cmp]; try reflexivity;
    try (f_equal; rewrite <- (inject_cmp z 0); reflexivity); cbv zeta.
  - f_equal. symmetry. apply int_fin.
  - f_equal. symmetry. apply int_fin.
Qed.
Lemma ext_cmp_opp a b : ext_cmp b a = match ext_cmp a b with Some c => Some (CompOpp c) | None => None end.
Proof. destruct a, b; cbn; try reflexivity. rewrite Qcompare_antisym. reflexivity. Qed.

Lemma num_cmp_value a b x y : python_value a -> python_value b -> value_of a = Some x -> value_of b = Some y ->
  num_cmp a b = Ok (ext_cmp x y).
Proof.
  destruct a as [|za|fa| | | | |], b as [|zb|fb| | | | |]; cbn [value_of]; try discriminate;
    intros Ha Hb Ex Ey; injection Ex as <-; injection Ey as <-; cbn [num_cmp].
  - cbn [ext_cmp]. rewrite inject_cmp. reflexivity.
  - rewrite int_float_cmp. reflexivity.
  - rewrite (ext_cmp_opp (Finite (inject_Z zb))), <- int_float_cmp. reflexivity.
  - rewrite float_cmp by assumption. reflexivity.
Qed.
Lemma at_most_cmp x y : at_most x y <-> (ext_cmp x y = Some Lt \/ ext_cmp x y = Some Eq).
Proof.
  destruct x, y; cbn; try (intuition congruence).
  rewrite Qle_lteq, Qlt_alt, Qeq_alt. intuition congruence.
Qed.
Lemma num_leb_value a b x y : python_value a -> python_value b -> value_of a = Some x -> value_of b = Some y ->
  (num_leb a b = Ok true /\ at_most x y) \/ (num_leb a b = Ok false /\ ~ at_most x y).
Proof.
  intros Ha Hb Ex Ey. unfold num_leb. rewrite (num_cmp_value a b x y) by assumption. rewrite at_most_cmp.
  destruct (ext_cmp x y) as [[]|]; intuition congruence.
Qed.
Lemma num_ltb_value a b x y : python_value a -> python_value b -> value_of a = Some x -> value_of b = Some y ->
  (num_ltb a b = Ok true /\ below x y) \/ (num_ltb a b = Ok false /\ ~ below x y).
Proof.
  intros Ha Hb Ex Ey. unfold num_ltb, below. rewrite (num_cmp_value a b x y) by assumption. rewrite !at_most_cmp.
  rewrite (ext_cmp_opp x y). destruct (ext_cmp x y) as [[]|]; cbn; intuition congruence.
Qed.
Lemma num_leb_other a b : value_of a = None \/ value_of b = None -> num_leb a b = Err EType.
Proof. destruct a, b; cbn; intros [H|H]; try discriminate; reflexivity. Qed.
