(** The quotient of two integers as a float, and back: datetime.timestamp() and
    datetime.fromtimestamp(). *)
From Verif Require Import Py F64 Utility Decode Gateway P_Base P_Float.
From Coq Require Import ZifyBool ZifyNat.

Lemma zdivf_form a b : 0 < a < 2 ^ 52 -> 0 < b < 2 ^ 52 ->
  exists m e k m1, zdivf a b = S754_finite false m (- e) /\ 0 <= e <= k /\ Z.pos m * 2 ^ (k - e) = m1 /\
    (m1 = a * 2 ^ k / b \/ m1 = a * 2 ^ k / b + 1) /\ 2 ^ 52 <= a * 2 ^ k / b.
Proof.
  intros Ha Hb. unfold zdivf.
  destruct b as [|pb|pb]; [lia| |lia].
  destruct a as [|pa|pa]; [lia| |lia].
  unfold f_exact, fdiv, SFdiv. set (a := Z.pos pa) in *. set (b := Z.pos pb) in *.
  unfold SFdiv_core_binary.
  pose proof (Zdigits2_bounds a ltac:(lia)) as Ba. pose proof (Zdigits2_bounds b ltac:(lia)) as Bb.
  pose proof (Zdigits2_pos a ltac:(lia)) as Pa. pose proof (Zdigits2_pos b ltac:(lia)) as Pb.
  pose proof (Zdigits2_le a 52 ltac:(lia) ltac:(lia)) as La.
  pose proof (Zdigits2_le b 52 ltac:(lia) ltac:(lia)) as Lb.
  set (d1 := Zdigits2 a) in *. set (d2 := Zdigits2 b) in *.
  assert (Ee : Z.min (fexp fprec femax (d1 + 0 - (d2 + 0))) (0 - 0) = d1 - d2 - 53).
  { unfold fexp, emin, fprec, femax. lia. }
  rewrite Ee. set (s := 53 + d2 - d1). replace (0 - 0 - (d1 - d2 - 53)) with s by (unfold s; lia).
  assert (Sp : 1 <= s) by (unfold s; lia).
  assert (Em : match s with 0 => a | Z.pos _ => Z.shiftl a s | Z.neg _ => 0 end = a * 2 ^ s).
  { destruct s eqn:Es; [lia| |lia]. rewrite Z.shiftl_mul_pow2 by lia. reflexivity. }
  rewrite Em. clear Em.
  assert (Eq : fst (Z.div_eucl (a * 2 ^ s) b) = a * 2 ^ s / b) by (unfold Z.div; destruct (Z.div_eucl _ _); reflexivity).
  destruct (Z.div_eucl (a * 2 ^ s) b) as [q r] eqn:Ed. cbn [fst] in Eq.
  assert (Q52 : 2 ^ 52 <= q < 2 ^ 54).
  { rewrite Eq. split.
    - apply Z.div_le_lower_bound; [lia|].
      assert (2 ^ (d1 - 1) * 2 ^ s = 2 ^ 52 * 2 ^ d2) by (rewrite <- !Z.pow_add_r by lia; f_equal; unfold s; lia).
      assert (2 ^ (d1 - 1) * 2 ^ s <= a * 2 ^ s) by (apply Z.mul_le_mono_nonneg_r; lia).
      assert (b * 2 ^ 52 <= 2 ^ d2 * 2 ^ 52) by (apply Z.mul_le_mono_nonneg_r; lia).
      lia.
    - apply Z.div_lt_upper_bound; [lia|].
      assert (2 ^ d1 * 2 ^ s = 2 ^ 54 * 2 ^ (d2 - 1)) by (rewrite <- !Z.pow_add_r by lia; f_equal; unfold s; lia).
      assert (a * 2 ^ s < 2 ^ d1 * 2 ^ s) by (apply Z.mul_lt_mono_pos_r; lia).
      assert (2 ^ (d2 - 1) * 2 ^ 54 <= b * 2 ^ 54) by (apply Z.mul_le_mono_nonneg_r; lia).
      lia. }
  pose proof (Zdigits2_le q 54 ltac:(lia) ltac:(lia)) as Dq.
  pose proof (Zdigits2_ge q 52 ltac:(lia) ltac:(lia)) as Dq'.
  unfold binary_round_aux.
  destruct (shr_fexp_small q (d1 - d2 - 53) (new_location b r)) as (j & Hj & Hjd & Hm & He); [lia..|].
  destruct (shr_fexp fprec femax q (d1 - d2 - 53) (new_location b r)) as [mrs' e'].
  cbn [fst snd] in Hm, He.
  set (Q := shr_m mrs') in *.
  set (m1 := round_nearest_even Q (loc_of_shr_record mrs')).
  assert (Hm1 : m1 = Q \/ m1 = Q + 1) by apply rne_cases.
  assert (Qb : 2 ^ 52 <= Q < 2 ^ 53).
  { rewrite Hm. destruct (Z_le_gt_dec j 0) as [|].
    - assert (j = 0) as -> by lia. rewrite Z.div_1_r. split; [lia|].
      pose proof (Zdigits2_bounds q ltac:(lia)) as Bq. replace (Zdigits2 q) with 53 in Bq by lia. lia.
    - assert (j = 1) as -> by lia. change (2 ^ 1) with 2.
      pose proof (Zdigits2_bounds q ltac:(lia)) as Bq. replace (Zdigits2 q) with 54 in Bq by lia.
      change (2 ^ (54 - 1)) with (2 ^ 52 * 2) in Bq. change (2 ^ 54) with (2 ^ 53 * 2) in Bq.
      split; [apply Z.div_le_lower_bound; lia | apply Z.div_lt_upper_bound; lia]. }
  pose proof (Zdigits2_le m1 54 ltac:(lia) ltac:(change (2 ^ 54) with (2 ^ 53 * 2); lia)) as D1.
  pose proof (Zdigits2_ge m1 52 ltac:(lia) ltac:(lia)) as D1'.
  destruct (shr_fexp_small m1 e' loc_Exact) as (j1 & Hj1 & Hj1d & Hm2 & He2); [lia..|].
  specialize (Hj1d ltac:(lia)).
  destruct (shr_fexp fprec femax m1 e' loc_Exact) as [mrs2 e2]. cbn [fst snd] in Hm2, He2.
  rewrite Hm2.
  assert (X : m1 / 2 ^ j1 * 2 ^ j1 = m1).
  { assert (j1 = 0 \/ j1 = 1) as [-> | ->] by lia.
    - rewrite Z.div_1_r. change (2 ^ 0) with 1. lia.
    - pose proof (Zdigits2_bounds m1 ltac:(lia)) as Bm. replace (Zdigits2 m1) with 54 in Bm by lia.
      change (2 ^ (54 - 1)) with (2 ^ 53) in Bm. assert (m1 = 2 ^ 53) as -> by lia. reflexivity. }
  assert (M2 : 2 ^ 51 <= m1 / 2 ^ j1).
  { apply Z.div_le_lower_bound; [apply Z.pow_pos_nonneg; lia|].
    assert (2 ^ j1 <= 2 ^ 1) by (apply Z.pow_le_mono_r; lia). change (2 ^ 1) with 2 in *.
    change (2 ^ 52) with (2 * 2 ^ 51) in Qb.
    assert (2 ^ j1 * 2 ^ 51 <= 2 * 2 ^ 51) by (apply Z.mul_le_mono_nonneg_r; lia). lia. }
  destruct (m1 / 2 ^ j1) as [|m2|m2] eqn:E2; [lia| |lia].
  replace (e2 <=? femax - fprec) with true by (unfold femax, fprec; lia).
  cbn [xorb].
  assert (HQ : a * 2 ^ (s - j) / b = Q).
  { rewrite Hm, Eq. assert (Pj : 0 < 2 ^ j) by (apply Z.pow_pos_nonneg; lia).
    replace s with (s - j + j) at 2 by lia. rewrite Z.pow_add_r by (unfold s; lia).
    rewrite Z.div_div by lia. rewrite Z.mul_assoc. symmetry. apply Z.div_mul_cancel_r; lia. }
  assert (Es : s = 53 + d2 - d1) by reflexivity.
  exists m2, (s - j - j1), (s - j), m1. repeat split.
  - f_equal. rewrite He2, He. clear - Es. lia.
  - clear - Es La Pb Hj Hj1. lia.
  - clear - Hj1. lia.
  - replace (s - j - (s - j - j1)) with j1 by lia. exact X.
  - rewrite HQ. exact Hm1.
  - rewrite HQ. lia.
Qed.

Lemma round_half_even_near n d q : 0 < d -> 2 * Z.abs (n - q * d) < d -> round_half_even_div n d = q.
Proof.
  intros D A. unfold round_half_even_div.
  pose proof (Z.div_mod n d ltac:(lia)) as E. pose proof (Z.mod_pos_bound n d D) as B.
  revert E B. generalize (n / d) as x. generalize (n mod d) as r. intros r x E B.
  assert (C : x = q \/ x = q - 1).
  { assert (x <= q) by (apply Z.nlt_ge; intros G; assert (d * (q + 1) <= d * x) by (apply Z.mul_le_mono_nonneg_l; lia); lia).
    assert (q - 1 <= x) by (apply Z.nlt_ge; intros G; assert (d * x <= d * (q - 2)) by (apply Z.mul_le_mono_nonneg_l; lia); lia). lia. }
  destruct C as [-> | ->].
  - replace (2 * r <? d) with true by lia. reflexivity.
  - replace (2 * r <? d) with false by lia. replace (d <? 2 * r) with true by lia. lia.
Qed.

Lemma micros_back us : 0 <= us < 4294967296 * 1000000 -> micros_of (VFloat (zdivf us 1000000)) = Ok us.
Proof.
  intros B. destruct (Z.eq_dec us 0) as [->|N]; [reflexivity|].
  destruct (zdivf_form us 1000000) as (m & e & k & m1 & E & Ke & X & H & L).
  { split; [lia|]. change (2 ^ 52) with 4503599627370496. lia. }
  { split; [lia|]. vm_compute. reflexivity. }
  rewrite E. cbn [micros_of].
  assert (K21 : 21 <= k).
  { apply Z.nlt_ge. intros G. assert (P : 2 ^ k <= 2 ^ 20) by (apply Z.pow_le_mono_r; lia).
    assert (us * 2 ^ k <= us * 2 ^ 20) by (apply Z.mul_le_mono_nonneg_l; lia).
    assert (us * 2 ^ k / 1000000 < 2 ^ 52); [|lia].
    apply Z.div_lt_upper_bound; [lia|]. change (2 ^ 20) with 1048576 in *. change (2 ^ 52) with 4503599627370496. lia. }
  assert (P : 2 ^ 21 <= 2 ^ k) by (apply Z.pow_le_mono_r; lia). change (2 ^ 21) with 2097152 in P.
  pose proof (Z.div_mod (us * 2 ^ k) 1000000 ltac:(lia)) as D.
  pose proof (Z.mod_pos_bound (us * 2 ^ k) 1000000 ltac:(lia)) as R.
  assert (A : - 1000000 < m1 * 1000000 - us * 2 ^ k <= 1000000).
  { revert H D R. generalize (us * 2 ^ k / 1000000), (us * 2 ^ k mod 1000000), (us * 2 ^ k). intros; lia. }
  assert (S : 2 ^ k = 2 ^ e * 2 ^ (k - e)) by (rewrite <- Z.pow_add_r by lia; f_equal; lia).
  assert (Pe : 0 < 2 ^ e) by (apply Z.pow_pos_nonneg; lia).
  assert (Pk : 0 < 2 ^ (k - e)) by (apply Z.pow_pos_nonneg; lia).
  assert (Q : 2 * Z.abs (Z.pos m * 1000000 - us * 2 ^ e) < 2 ^ e).
  { apply (Z.mul_lt_mono_pos_r (2 ^ (k - e))); [exact Pk|]. rewrite <- S.
    replace (2 * Z.abs (Z.pos m * 1000000 - us * 2 ^ e) * 2 ^ (k - e)) with (2 * Z.abs ((Z.pos m * 1000000 - us * 2 ^ e) * 2 ^ (k - e))).
    2:{ rewrite Z.abs_mul, (Z.abs_eq (2 ^ (k - e))) by lia. ring. }
    replace ((Z.pos m * 1000000 - us * 2 ^ e) * 2 ^ (k - e)) with (m1 * 1000000 - us * 2 ^ k) by (rewrite <- X, S; ring).
    clear - A P. lia. }
  f_equal. destruct (Z.leb_spec 0 (- e)) as [G|G].
  - assert (e = 0) as -> by lia. change (- 0) with 0. change (2 ^ 0) with 1 in *. clear - Q. lia.
  - rewrite Z.opp_involutive. apply round_half_even_near; [exact Pe|exact Q].
Qed.

(** the calendar, checked day by day *)
Definition day_ok (y m d : Z) : bool :=
  let '(a, b, c) := ord2ymd (ymd2ord y m d) in (a =? y) && (b =? m) && (c =? d).
Definition year_ok (y : Z) : bool :=
  forallb (fun m => forallb (fun d => day_ok y m d) (map (fun i => 1 + Z.of_nat i) (seq 0 (Z.to_nat (days_in_month y m)))))
    (map (fun i => 1 + Z.of_nat i) (seq 0 12)).
Lemma years_ok : forallb year_ok (map (fun i => 1970 + Z.of_nat i) (seq 0 136)) = true.
Proof. vm_compute. reflexivity. Qed.

Lemma in_ints lo n x : lo <= x < lo + Z.of_nat n -> In x (map (fun i => lo + Z.of_nat i) (seq 0 n)).
Proof. intros B. apply in_map_iff. exists (Z.to_nat (x - lo)). split; [lia|]. apply in_seq. lia. Qed.
Lemma ord2ymd_back y m d : 1970 <= y <= 2105 -> 1 <= m <= 12 -> 1 <= d <= days_in_month y m ->
  ord2ymd (ymd2ord y m d) = (y, m, d).
Proof.
  intros Hy Hm Hd. pose proof years_ok as K. rewrite forallb_forall in K.
  specialize (K y (in_ints 1970 136 y ltac:(lia))). unfold year_ok in K. rewrite forallb_forall in K.
  specialize (K m (in_ints 1 12 m ltac:(lia))). cbv beta in K. rewrite forallb_forall in K.
  specialize (K d (in_ints 1 (Z.to_nat (days_in_month y m)) d ltac:(lia))). unfold day_ok in K.
  destruct (ord2ymd (ymd2ord y m d)) as [[a b] c]. f_equal; [f_equal|]; lia.
Qed.

Definition day_range (y m d : Z) : bool := (719163 <=? ymd2ord y m d) && (ymd2ord y m d <=? 719163 + 49672).
Lemma ranges_ok : forallb (fun y => day_range y 1 1 && day_range y 12 31) (map (fun i => 1970 + Z.of_nat i) (seq 0 136)) = true.
Proof. vm_compute. reflexivity. Qed.
Definition month_range (y m : Z) : bool :=
  (ymd2ord y 1 1 <=? ymd2ord y m 1) && (ymd2ord y m (days_in_month y m) <=? ymd2ord y 12 31).
Lemma months_ok : forallb (fun y => forallb (month_range y) (map (fun i => 1 + Z.of_nat i) (seq 0 12)))
  (map (fun i => 1970 + Z.of_nat i) (seq 0 136)) = true.
Proof. vm_compute. reflexivity. Qed.
Lemma ord_range y m d : 1970 <= y <= 2105 -> 1 <= m <= 12 -> 1 <= d <= days_in_month y m ->
  719163 <= ymd2ord y m d <= 719163 + 49672.
Proof.
  intros Hy Hm Hd. pose proof ranges_ok as K. rewrite forallb_forall in K.
  specialize (K y (in_ints 1970 136 y ltac:(lia))). cbv beta in K.
  pose proof months_ok as L. rewrite forallb_forall in L. specialize (L y (in_ints 1970 136 y ltac:(lia))). cbv beta in L.
  rewrite forallb_forall in L. specialize (L m (in_ints 1 12 m ltac:(lia))). unfold month_range in L. unfold day_range in K.
  assert (E : forall x, ymd2ord y m x = ymd2ord y m 1 + (x - 1)) by (intros; unfold ymd2ord; ring).
  rewrite (E (days_in_month y m)) in L. rewrite (E d). lia.
Qed.

Lemma timestamp_back t : valid_dt t = true -> 1970 <= dt_year t <= 2105 ->
  from_timestamp (fun _ => 0) (VFloat (dt_timestamp t)) = Ok t.
Proof.
  intros V Y. destruct t as [y mo d h mi s us]. pose proof V as V0. unfold valid_dt in V.
  cbn [dt_year dt_month dt_day dt_hour dt_minute dt_second dt_micro] in V, Y.
  unfold from_timestamp, dt_timestamp, dt_micros. cbn [dt_year dt_month dt_day dt_hour dt_minute dt_second dt_micro].
  assert (Hd : 1 <= d <= days_in_month y mo) by (clear - V; lia). assert (Hm : 1 <= mo <= 12) by (clear - V; lia).
  pose proof (ord_range y mo d Y Hm Hd) as R. pose proof (ord2ymd_back y mo d Y Hm Hd) as O.
  revert R O. generalize (ymd2ord y mo d) as o. intros o R O.
  assert (Hh : 0 <= h <= 23 /\ 0 <= mi <= 59 /\ 0 <= s <= 59 /\ 0 <= us <= 999999) by (clear - V; lia).
  clear V.
  rewrite micros_back by lia. cbn [rbind]. unfold dt_of_micros. rewrite Z.mul_0_l, Z.add_0_r.
  replace ((((o - 719163) * 86400 + h * 3600 + mi * 60 + s) * 1000000 + us) / 1000000) with ((o - 719163) * 86400 + h * 3600 + mi * 60 + s) by lia.
  replace ((((o - 719163) * 86400 + h * 3600 + mi * 60 + s) * 1000000 + us) mod 1000000) with us by lia.
  replace (((o - 719163) * 86400 + h * 3600 + mi * 60 + s) / 86400) with (o - 719163) by lia.
  replace (((o - 719163) * 86400 + h * 3600 + mi * 60 + s) mod 86400) with (h * 3600 + mi * 60 + s) by lia.
  replace (o - 719163 + 719163) with o by lia. rewrite O.
  replace ((h * 3600 + mi * 60 + s) / 3600) with h by lia.
  replace ((h * 3600 + mi * 60 + s) / 60) with (h * 60 + mi) by lia.
  replace ((h * 60 + mi) mod 60) with mi by lia.
  replace ((h * 3600 + mi * 60 + s) mod 60) with s by lia.
  unfold make_dt. rewrite V0. reflexivity.
Qed.
