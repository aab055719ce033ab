(** int(ph * 100) for a float within the pH range. *)
From Verif Require Import Py F64 Enum Gateway P_Base P_Float.

Lemma shr_iter p : forall r, 0 <= shr_m r -> shr_m (iter_pos shr_1 p r) = shr_m r / 2 ^ Z.pos p.
Proof.
  induction p as [p IH|p IH|]; intros r H; cbn [iter_pos].
  - pose proof (shr_1_m r H) as E1. assert (0 <= shr_m (shr_1 r)) by (rewrite E1; apply Z.div_pos; lia).
    assert (0 < 2 ^ Z.pos p) by (apply Z.pow_pos_nonneg; lia).
    rewrite IH. 2:{ rewrite IH by assumption. apply Z.div_pos; lia. }
    rewrite IH by assumption. rewrite E1, !Z.div_div by lia. f_equal.
    rewrite (Pos2Z.inj_xI p). replace (2 * Z.pos p + 1) with (Z.pos p + Z.pos p + 1) by lia.
    rewrite !Z.pow_add_r by lia. rewrite Z.pow_1_r. ring.
  - assert (0 < 2 ^ Z.pos p) by (apply Z.pow_pos_nonneg; lia).
    rewrite IH. 2:{ rewrite IH by assumption. apply Z.div_pos; lia. }
    rewrite IH by assumption. rewrite !Z.div_div by lia. f_equal.
    rewrite (Pos2Z.inj_xO p). replace (2 * Z.pos p) with (Z.pos p + Z.pos p) by lia. rewrite Z.pow_add_r by lia. reflexivity.
  - rewrite shr_1_m by assumption. reflexivity.
Qed.

Lemma ph_product m : 8106479329266894 <= Z.pos m <= 8556839292003942 ->
  exists z, f_trunc (fmul (S754_finite false m (-50)) (f_of_Z 100)) = Ok z /\ 720 <= z <= 760.
Proof.
  intros B. change (f_of_Z 100) with (S754_finite false 7036874417766400 (-46)). unfold fmul, SFmul.
  set (N := Z.pos (m * 7036874417766400)). assert (EN : N = Z.pos m * 7036874417766400) by reflexivity.
  cbn [xorb]. change (-50 + -46) with (-96). unfold binary_round_aux.
  assert (D : Zdigits2 N = 106).
  { pose proof (Zdigits2_le N 106 ltac:(lia) ltac:(rewrite EN; change (2 ^ 106) with 81129638414606681695789005144064; lia)).
    pose proof (Zdigits2_ge N 105 ltac:(lia) ltac:(rewrite EN; change (2 ^ 105) with 40564819207303340847894502572032; lia)). lia. }
  unfold shr_fexp at 1. rewrite D. change (fexp fprec femax (106 + -96) - -96) with 53. cbn [shr].
  change (-96 + 53) with (-43).
  set (mrs := iter_pos shr_1 53 (shr_record_of_loc N loc_Exact)).
  assert (E1 : shr_m mrs = N / 2 ^ 53).
  { unfold mrs. rewrite shr_iter by (rewrite shr_m_of_loc; lia). rewrite shr_m_of_loc. reflexivity. }
  set (m1 := round_nearest_even (shr_m mrs) (loc_of_shr_record mrs)).
  assert (H1 : m1 = N / 2 ^ 53 \/ m1 = N / 2 ^ 53 + 1) by (rewrite <- E1; apply rne_cases).
  assert (L : 720 * 8796093022208 <= N / 2 ^ 53).
  { apply Z.div_le_lower_bound; [reflexivity|]. change (2 ^ 53) with 9007199254740992. lia. }
  assert (U : N / 2 ^ 53 < 760 * 8796093022208 + 100).
  { apply Z.div_lt_upper_bound; [reflexivity|]. change (2 ^ 53) with 9007199254740992. lia. }
  clearbody m1. clear E1 mrs.
  assert (D1 : Zdigits2 m1 = 53).
  { pose proof (Zdigits2_le m1 53 ltac:(lia) ltac:(change (2 ^ 53) with 9007199254740992 at 1; lia)).
    pose proof (Zdigits2_ge m1 52 ltac:(lia) ltac:(change (2 ^ 52) with 4503599627370496; lia)). lia. }
  unfold shr_fexp. rewrite D1. change (fexp fprec femax (53 + -43) - -43) with 0. cbn [shr]. rewrite shr_m_of_loc.
  destruct m1 as [|p|p]; try lia. cbn [f_trunc]. change (-43 <=? femax - fprec) with true. cbv iota. cbn [f_trunc].
  change (0 <=? -43) with false. cbv iota. change (- -43) with 43. eexists. split; [reflexivity|].
  change (2 ^ 43) with 8796093022208.
  split; [apply Z.div_le_lower_bound; lia|]. assert (Z.pos p / 8796093022208 < 761) by (apply Z.div_lt_upper_bound; lia). lia.
Qed.

Lemma f7_2_eq : f7_2 = S754_finite false 8106479329266893 (-50).
Proof. vm_compute. reflexivity. Qed.
Lemma f7_6_eq : f7_6 = S754_finite false 8556839292003942 (-50).
Proof. vm_compute. reflexivity. Qed.
Lemma ph_low : f_trunc (fmul (S754_finite false 8106479329266893 (-50)) (f_of_Z 100)) = Ok 720.
Proof. vm_compute. reflexivity. Qed.

(** an integer cannot be between 7.2 and 7.6 *)
Lemma ph_not_int x : 8106479329266893 <= x * 1125899906842624 -> x * 1125899906842624 <= 8556839292003942 -> False.
Proof. intros. assert (x <= 7 \/ 8 <= x) as [|] by lia; nia. Qed.

Lemma cmp_Zf_50 x m : cmp_Zf x (S754_finite false m (-50)) = Some (x * 1125899906842624 ?= Z.pos m).
Proof. reflexivity. Qed.

Lemma SFcompare_within a b f : SFcompare (S754_finite false a (-50)) f <> Some Gt ->
  SFcompare (S754_finite false a (-50)) f <> None ->
  SFcompare f (S754_finite false b (-50)) <> Some Gt ->
  exists m, f = S754_finite false m (-50) /\ Z.pos a <= Z.pos m <= Z.pos b.
Proof.
  intros A B C. destruct f as [s|s| |s m e].
  - destruct s; exfalso; apply A; reflexivity.
  - destruct s; [exfalso; apply A; reflexivity|exfalso; apply C; reflexivity].
  - exfalso; apply B; reflexivity.
  - destruct s; [exfalso; apply A; reflexivity|].
    cbn [SFcompare] in A, C. rewrite (Z.compare_antisym (-50) e) in C.
    destruct (Z.compare_spec (-50) e) as [E|E|E].
    + subst e. exists m. split; [reflexivity|]. cbn [CompOpp] in C.
      change (Pos.compare_cont Eq) with Pos.compare in A, C.
      split.
      * apply Pos2Z.pos_le_pos. intro G. apply A. rewrite G. reflexivity.
      * apply Pos2Z.pos_le_pos. intro G. apply C. rewrite G. reflexivity.
    + exfalso. apply C. reflexivity.
    + exfalso. apply A. reflexivity.
Qed.

Lemma num_leb_ff f g : num_leb (VFloat f) (VFloat g) = Ok true -> SFcompare f g <> Some Gt /\ SFcompare f g <> None.
Proof. unfold num_leb, num_cmp. destruct (SFcompare f g) as [[]|]; intros; split; congruence. Qed.

Lemma range_check_inv r v : range_check r v = Ok tt -> num_leb (r_min r) v = Ok true /\ num_leb v (r_max r) = Ok true.
Proof.
  unfold range_check, in_range. destruct (num_leb (r_min r) v) as [[]|]; cbn [rbind]; try discriminate.
  destruct (num_leb v (r_max r)) as [[]|]; cbn [rbind]; try discriminate. auto.
Qed.

Lemma num_leb_fi m x : num_leb (VFloat (S754_finite false m (-50))) (VInt x) = Ok true -> Z.pos m <= x * 1125899906842624.
Proof. unfold num_leb, num_cmp. rewrite cmp_Zf_50. destruct (Z.compare_spec (x * 1125899906842624) (Z.pos m)); cbn [CompOpp]; try discriminate; intros; lia. Qed.
Lemma num_leb_if m x : num_leb (VInt x) (VFloat (S754_finite false m (-50))) = Ok true -> x * 1125899906842624 <= Z.pos m.
Proof. unfold num_leb, num_cmp. rewrite cmp_Zf_50. destruct (Z.compare_spec (x * 1125899906842624) (Z.pos m)); try discriminate; intros; lia. Qed.

Lemma ph_range v z : range_check CHEM_RANGE_PH_SETPOINT v = Ok tt -> times100 v = Ok z -> exists n, z = VInt n /\ 720 <= n <= 760.
Proof.
  intros R T. apply range_check_inv in R. destruct R as [A B]. cbn [CHEM_RANGE_PH_SETPOINT r_min r_max] in A, B.
  rewrite f7_2_eq in A. rewrite f7_6_eq in B.
  destruct v as [|x|f| | | | |]; try discriminate.
  - exfalso. apply num_leb_fi in A. apply num_leb_if in B. exact (ph_not_int _ A B).
  - apply num_leb_ff in A. apply num_leb_ff in B. destruct A as [A A'], B as [B _].
    destruct (SFcompare_within _ _ f A A' B) as (m & -> & L & U). cbn [times100] in T.
    assert (Z.pos m = 8106479329266893 \/ 8106479329266894 <= Z.pos m) as [E|E] by lia.
    + injection E as ->. rewrite ph_low in T. cbn [rbind] in T. injection T as <-. exists 720. split; [reflexivity|lia].
    + destruct (ph_product m ltac:(lia)) as (n & F & G). rewrite F in T. cbn [rbind] in T. injection T as <-. eauto.
Qed.

Definition ph_ok (n : Z) : bool :=
  match range_check CHEM_RANGE_PH_SETPOINT (VFloat (zdivf n 100)), times100 (VFloat (zdivf n 100)) with
  | Ok _, Ok (VInt z) => z =? n
  | _, _ => false
  end.
Lemma ph_all : forallb ph_ok (map (fun i => 720 + Z.of_nat i) (seq 0 41)) = true.
Proof. vm_compute. reflexivity. Qed.
Lemma ph_exact n : 720 <= n <= 760 -> range_check CHEM_RANGE_PH_SETPOINT (VFloat (zdivf n 100)) = Ok tt /\
  times100 (VFloat (zdivf n 100)) = Ok (VInt n).
Proof.
  intros B. pose proof ph_all as H. rewrite forallb_forall in H. specialize (H n).
  assert (I : In n (map (fun i => 720 + Z.of_nat i) (seq 0 41))).
  { apply in_map_iff. exists (Z.to_nat (n - 720)). split; [lia|]. apply in_seq. lia. }
  apply H in I. unfold ph_ok in I. destruct (range_check _ _) as [[]|]; [|discriminate].
  destruct (times100 _) as [[]|]; try discriminate. apply Z.eqb_eq in I. subst. auto.
Qed.
