(** int(a / b) in binary64 arithmetic is the floor of the quotient for moderate operands. *)
From Verif Require Import Py F64.
From Coq Require Import ZifyBool ZifyNat.

Lemma digits2_pos_bounds p : 2 ^ (Z.pos (digits2_pos p) - 1) <= Z.pos p < 2 ^ Z.pos (digits2_pos p).
Proof.
  induction p as [p IH|p IH|]; cbn [digits2_pos]; [| |cbn; lia].
  all: rewrite Pos2Z.inj_succ; replace (Z.succ (Z.pos (digits2_pos p)) - 1) with (Z.succ (Z.pos (digits2_pos p) - 1)) by lia;
    rewrite !Z.pow_succ_r by lia; lia.
Qed.

Lemma Zdigits2_bounds m : 0 < m -> 2 ^ (Zdigits2 m - 1) <= m < 2 ^ Zdigits2 m.
Proof. destruct m as [|p|p]; intros H; try lia. apply digits2_pos_bounds. Qed.

Lemma Zdigits2_pos m : 0 < m -> 0 < Zdigits2 m.
Proof. destruct m as [|p|p]; intros H; cbn; lia. Qed.

Lemma Zdigits2_le m n : 0 < m -> m < 2 ^ n -> Zdigits2 m <= n.
Proof.
  intros H L. destruct (Z_le_gt_dec (Zdigits2 m) n) as [|G]; [assumption|].
  pose proof (Zdigits2_bounds m H). assert (2 ^ n <= 2 ^ (Zdigits2 m - 1)) by (apply Z.pow_le_mono_r; lia). lia.
Qed.
Lemma Zdigits2_ge m n : 0 < m -> 2 ^ n <= m -> n < Zdigits2 m.
Proof.
  intros H L. destruct (Z_lt_ge_dec n (Zdigits2 m)) as [|G]; [assumption|].
  pose proof (Zdigits2_bounds m H). pose proof (Zdigits2_pos m H).
  assert (2 ^ Zdigits2 m <= 2 ^ n) by (apply Z.pow_le_mono_r; lia). lia.
Qed.

Lemma shr_m_of_loc m l : shr_m (shr_record_of_loc m l) = m.
Proof. destruct l as [|[]]; reflexivity. Qed.

Lemma shr_1_m r : 0 <= shr_m r -> shr_m (shr_1 r) = shr_m r / 2.
Proof.
  destruct r as [m rr s]; cbn [shr_m]; intros H.
  destruct m as [|[p|p|]|p]; cbn [shr_1 shr_m]; try lia;
  first [ reflexivity
        | rewrite <- (Z.div_unique (Z.pos (xI p)) 2 (Z.pos p) 1) by lia; reflexivity
        | rewrite <- (Z.div_unique (Z.pos (xO p)) 2 (Z.pos p) 0) by lia; reflexivity ].
Qed.

Lemma shr_fexp_small m e l : 0 < m -> Zdigits2 m <= 54 -> -1000 <= e ->
  exists j, 0 <= j <= 1 /\ (53 <= Zdigits2 m -> j = Zdigits2 m - 53)
  /\ shr_m (fst (shr_fexp fprec femax m e l)) = m / 2 ^ j
  /\ snd (shr_fexp fprec femax m e l) = e + j.
Proof.
  intros H D E. unfold shr_fexp, fexp, emin, fprec, femax.
  pose proof (Zdigits2_pos m H) as P. set (dg := Zdigits2 m) in *.
  destruct (Z_le_gt_dec dg 53) as [L|G].
  - exists 0. split; [lia|]. split; [lia|].
    destruct (Z.max (dg + e - 53) (3 - 1024 - 53) - e) as [|p|p] eqn:N; [| |].
    + cbn [shr fst snd]. rewrite shr_m_of_loc, Z.div_1_r. lia.
    + lia.
    + cbn [shr fst snd]. rewrite shr_m_of_loc, Z.div_1_r. lia.
  - exists 1. split; [lia|]. split; [lia|].
    replace (Z.max (dg + e - 53) (3 - 1024 - 53) - e) with 1 by lia.
    cbn [shr fst snd iter_pos]. rewrite shr_1_m by (rewrite shr_m_of_loc; lia). rewrite shr_m_of_loc.
    split; [reflexivity|lia].
Qed.

Lemma rne_cases m l : round_nearest_even m l = m \/ round_nearest_even m l = m + 1.
Proof. destruct l as [|[]]; cbn; auto. destruct (Z.even m); auto. Qed.

Lemma floor_round a b s k j m1 : 0 <= a -> 0 < b -> 0 <= k -> 0 <= j -> s = k + j -> b < 2 ^ k ->
  (m1 = a * 2 ^ s / b / 2 ^ j \/ m1 = a * 2 ^ s / b / 2 ^ j + 1) -> m1 / 2 ^ k = a / b.
Proof.
  intros Ha Hb Hk Hj -> HK Hm.
  assert (Pj : 0 < 2 ^ j) by (apply Z.pow_pos_nonneg; lia).
  assert (HQ : a * 2 ^ (k + j) / b / 2 ^ j = a * 2 ^ k / b).
  { rewrite Z.pow_add_r by assumption. rewrite Z.div_div by lia.
    rewrite Z.mul_assoc. apply Z.div_mul_cancel_r; lia. }
  rewrite HQ in Hm. clear HQ. revert HK Hm. generalize (2 ^ k) as K. intros K HK Hm.
  assert (D0 : a = b * (a / b) + a mod b) by (apply Z.div_mod; lia).
  assert (R0 : 0 <= a mod b < b) by (apply Z.mod_pos_bound; lia).
  revert D0 R0. generalize (a / b) as T. generalize (a mod b) as R. intros R T D0 R0.
  assert (QL : T * K <= a * K / b).
  { apply Z.div_le_lower_bound; [lia|]. rewrite D0.
    assert (0 <= R * K) by (apply Z.mul_nonneg_nonneg; lia). lia. }
  assert (QU : a * K / b < (T + 1) * K - 1).
  { apply Z.div_lt_upper_bound; [lia|]. rewrite D0.
    assert (R * K <= (b - 1) * K) by (apply Z.mul_le_mono_nonneg_r; lia). lia. }
  revert QL QU Hm. generalize (a * K / b) as Q. intros Q QL QU Hm.
  destruct Hm as [->| ->]; symmetry.
  - apply Z.div_unique with (r := Q - T * K); lia.
  - apply Z.div_unique with (r := Q + 1 - T * K); lia.
Qed.

Lemma zdivf_trunc a b : 0 <= a < 2 ^ 50 -> 0 < b < 2 ^ 52 -> f_trunc (zdivf a b) = Ok (a / b).
Proof.
  intros Ha Hb. unfold zdivf.
  destruct b as [|pb|pb]; [lia| |lia].
  destruct a as [|pa|pa]; [reflexivity| |lia].
  unfold f_exact, fdiv, SFdiv. set (a := Z.pos pa) in *. set (b := Z.pos pb) in *.
  unfold SFdiv_core_binary.
  pose proof (Zdigits2_bounds a ltac:(lia)) as Ba. pose proof (Zdigits2_bounds b ltac:(lia)) as Bb.
  pose proof (Zdigits2_pos a ltac:(lia)) as Pa. pose proof (Zdigits2_pos b ltac:(lia)) as Pb.
  pose proof (Zdigits2_le a 50 ltac:(lia) ltac:(lia)) as La.
  pose proof (Zdigits2_le b 52 ltac:(lia) ltac:(lia)) as Lb.
  set (d1 := Zdigits2 a) in *. set (d2 := Zdigits2 b) in *.
  assert (Ee : Z.min (fexp fprec femax (d1 + 0 - (d2 + 0))) (0 - 0) = d1 - d2 - 53).
  { unfold fexp, emin, fprec, femax. lia. }
  rewrite Ee. set (s := 53 + d2 - d1). replace (0 - 0 - (d1 - d2 - 53)) with s by (unfold s; lia).
  assert (Sp : 1 <= s) by (unfold s; lia).
  assert (Em : match s with 0 => a | Z.pos _ => Z.shiftl a s | Z.neg _ => 0 end = a * 2 ^ s).
  { destruct s eqn:Es; [lia| |lia]. rewrite Z.shiftl_mul_pow2 by lia. reflexivity. }
  rewrite Em. clear Em.
  assert (Eq : fst (Z.div_eucl (a * 2 ^ s) b) = a * 2 ^ s / b) by (unfold Z.div; destruct (Z.div_eucl _ _); reflexivity).
  destruct (Z.div_eucl (a * 2 ^ s) b) as [q r] eqn:Ed. cbn [fst] in Eq.
  assert (Q52 : 2 ^ 52 <= q < 2 ^ 54).
  { rewrite Eq. split.
    - apply Z.div_le_lower_bound; [lia|].
      assert (2 ^ (d1 - 1) * 2 ^ s = 2 ^ 52 * 2 ^ d2) by (rewrite <- !Z.pow_add_r by lia; f_equal; unfold s; lia).
      assert (2 ^ (d1 - 1) * 2 ^ s <= a * 2 ^ s) by (apply Z.mul_le_mono_nonneg_r; lia).
      assert (b * 2 ^ 52 <= 2 ^ d2 * 2 ^ 52) by (apply Z.mul_le_mono_nonneg_r; lia).
      lia.
    - apply Z.div_lt_upper_bound; [lia|].
      assert (2 ^ d1 * 2 ^ s = 2 ^ 54 * 2 ^ (d2 - 1)) by (rewrite <- !Z.pow_add_r by lia; f_equal; unfold s; lia).
      assert (a * 2 ^ s < 2 ^ d1 * 2 ^ s) by (apply Z.mul_lt_mono_pos_r; lia).
      assert (2 ^ (d2 - 1) * 2 ^ 54 <= b * 2 ^ 54) by (apply Z.mul_le_mono_nonneg_r; lia).
      lia. }
  pose proof (Zdigits2_le q 54 ltac:(lia) ltac:(lia)) as Dq.
  pose proof (Zdigits2_ge q 52 ltac:(lia) ltac:(lia)) as Dq'.
  unfold binary_round_aux.
  destruct (shr_fexp_small q (d1 - d2 - 53) (new_location b r)) as (j & Hj & Hjd & Hm & He); [lia..|].
  destruct (shr_fexp fprec femax q (d1 - d2 - 53) (new_location b r)) as [mrs' e'].
  cbn [fst snd] in Hm, He.
  set (Q := shr_m mrs') in *.
  set (m1 := round_nearest_even Q (loc_of_shr_record mrs')).
  assert (Hm1 : m1 = Q \/ m1 = Q + 1) by apply rne_cases.
  assert (Qb : 2 ^ 52 <= Q < 2 ^ 53).
  { rewrite Hm. destruct (Z_le_gt_dec j 0) as [|].
    - assert (j = 0) as -> by lia. rewrite Z.div_1_r. split; [lia|].
      pose proof (Zdigits2_bounds q ltac:(lia)) as Bq. replace (Zdigits2 q) with 53 in Bq by lia. lia.
    - assert (j = 1) as -> by lia. change (2 ^ 1) with 2.
      pose proof (Zdigits2_bounds q ltac:(lia)) as Bq. replace (Zdigits2 q) with 54 in Bq by lia.
      change (2 ^ (54 - 1)) with (2 ^ 52 * 2) in Bq. change (2 ^ 54) with (2 ^ 53 * 2) in Bq.
      split; [apply Z.div_le_lower_bound; lia | apply Z.div_lt_upper_bound; lia]. }
  pose proof (Zdigits2_le m1 54 ltac:(lia) ltac:(change (2 ^ 54) with (2 ^ 53 * 2); lia)) as D1.
  destruct (shr_fexp_small m1 e' loc_Exact) as (j1 & Hj1 & _ & Hm2 & He2); [lia..|].
  destruct (shr_fexp fprec femax m1 e' loc_Exact) as [mrs2 e2]. cbn [fst snd] in Hm2, He2.
  rewrite Hm2.
  assert (M2 : 2 ^ 51 <= m1 / 2 ^ j1).
  { apply Z.div_le_lower_bound; [apply Z.pow_pos_nonneg; lia|].
    assert (2 ^ j1 <= 2 ^ 1) by (apply Z.pow_le_mono_r; lia). change (2 ^ 1) with 2 in *.
    change (2 ^ 52) with (2 * 2 ^ 51) in Qb.
    assert (2 ^ j1 * 2 ^ 51 <= 2 * 2 ^ 51) by (apply Z.mul_le_mono_nonneg_r; lia). lia. }
  destruct (m1 / 2 ^ j1) as [|m2|m2] eqn:E2; [lia| |lia].
  replace (e2 <=? femax - fprec) with true by (unfold femax, fprec; lia).
  cbn [xorb f_trunc]. pose (k := s - j). assert (Ek : k = s - j) by reflexivity.
  assert (Kp : d2 <= k) by (unfold k, s; lia).
  assert (e' = - k) as -> by (unfold k, s; lia).
  assert (K1 : 0 < k - j1) by (unfold k, s in *; lia).
  clearbody k.
  assert (e2 = - (k - j1)) as -> by lia.
  replace (0 <=? - (k - j1)) with false by lia.
  rewrite Z.opp_involutive.
  assert (Tr : Z.pos m2 / 2 ^ (k - j1) = m1 / 2 ^ k).
  { rewrite <- E2, Z.div_div by (try (pose proof (Z.pow_pos_nonneg 2 j1)); try (pose proof (Z.pow_pos_nonneg 2 (k - j1))); lia).
    rewrite <- Z.pow_add_r by lia. do 2 f_equal. lia. }
  rewrite Tr. f_equal.
  assert (Hd : b < 2 ^ d2) by (exact (proj2 Bb)).
  assert (Hs : s = k + j) by (clearbody s; clear - Ek; lia).
  assert (Hk0 : 0 <= k) by (clear - K1 Hj1; lia).
  assert (Hj0 : 0 <= j) by (exact (proj1 Hj)).
  assert (H0a : 0 <= a) by (exact (proj1 Ha)).
  assert (H0b : 0 < b) by (exact (proj1 Hb)).
  assert (Hd0 : 0 <= d2) by (clearbody d2; clear - Pb; lia).
  rewrite Hm, Eq in Hm1.
  clearbody m1 Q s a b. clearbody d2. clear - Hm1 Hd Hs Hk0 Hj0 H0a H0b Kp Hd0.
  assert (b < 2 ^ k).
  { apply (Z.lt_le_trans _ (2 ^ d2)); [exact Hd|]. apply Z.pow_le_mono_r; [reflexivity|exact Kp]. }
  exact (floor_round a b s k j m1 H0a H0b Hk0 Hj0 Hs H Hm1).
Qed.
