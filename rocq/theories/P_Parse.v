(** Proofs for C80, C81, C83. *)
From Coq Require Import QArith.
From Verif Require Import Py F64 Const Enum SpecEnum SpecParse P_Base P_Float P_Enum.
Open Scope Z_scope.

(** ** Numerals *)
Lemma is_digit_spec c : is_digit c = true <-> 48 <= c <= 57.
Proof. unfold is_digit. rewrite andb_true_iff, !Z.leb_le. lia. Qed.
Lemma isdigit_numeral s : str_isdigit s = true <-> exists z, numeral s z.
Proof.
  unfold numeral. split.
  - destruct s as [|c s]; [discriminate|]. cbn [str_isdigit]. intros H.
    exists (digits_value (c :: s)). split; [discriminate|]. split; [|reflexivity].
    apply Forall_forall. intros x Hx. apply is_digit_spec. rewrite forallb_forall in H. auto.
  - intros (z & N & F & _). destruct s as [|c s]; [congruence|]. cbn [str_isdigit].
    apply forallb_forall. intros x Hx. apply is_digit_spec. rewrite Forall_forall in F. auto.
Qed.
Lemma fold_digits s : forall a, fold_left (fun a c => 10 * a + (c - 48)) s a = a * 10 ^ Z.of_nat (List.length s) + digits_value s.
Proof.
  induction s as [|c s IH]; intros a; [cbn; lia|].
  cbn [fold_left digits_value List.length]. rewrite IH.
  rewrite Nat2Z.inj_succ, Z.pow_succ_r by lia. ring.
Qed.
Lemma int_of_digits_value s : int_of_digits s = digits_value s.
Proof. unfold int_of_digits. rewrite fold_digits. lia. Qed.

(** ** Spelling *)
Definition norm (s : pystr) : pystr := str_upper (replace1 39 [] (replace1 32 [95] s)).
Lemma norm_cons c s : norm (c :: s)
  = if c =? 39 then norm s else if c =? 32 then 95 :: norm s else upper1 c :: norm s.
Proof.
  unfold norm, str_upper, replace1. cbn [flat_map].
  destruct (Z.eqb_spec c 32) as [->|N32]; cbn [app flat_map].
  - reflexivity.
  - destruct (Z.eqb_spec c 39) as [->|N39]; reflexivity.
Qed.
Lemma spells_norm s : spells s (norm s).
Proof.
  induction s as [|c s IH]; [constructor|]. rewrite norm_cons.
  destruct (Z.eqb_spec c 39) as [->|N39]; [constructor; exact IH|].
  destruct (Z.eqb_spec c 32) as [->|N32]; [constructor; exact IH|].
  unfold upper1, is_lower. destruct (Z.leb_spec 97 c), (Z.leb_spec c 122); cbn [andb].
  - constructor; [lia|exact IH].
  - apply sp_same; try lia; exact IH.
  - apply sp_same; try lia; exact IH.
  - apply sp_same; try lia; exact IH.
Qed.
Lemma spells_fun s n : spells s n -> n = norm s.
Proof.
  induction 1 as [|s n H IH|s n H IH|c s n Hc H IH|c s n H1 H2 H3 H IH].
  - reflexivity.
  - rewrite norm_cons. cbn. exact IH.
  - rewrite norm_cons. cbn. congruence.
  - rewrite norm_cons. destruct (Z.eqb_spec c 39); [lia|]. destruct (Z.eqb_spec c 32); [lia|].
    unfold upper1, is_lower. destruct (Z.leb_spec 97 c), (Z.leb_spec c 122); try lia; cbn [andb]. congruence.
  - rewrite norm_cons. destruct (Z.eqb_spec c 39); [lia|]. destruct (Z.eqb_spec c 32); [lia|].
    unfold upper1, is_lower. destruct (Z.leb_spec 97 c), (Z.leb_spec c 122); try lia; cbn [andb]; congruence.
Qed.

(** ** Lookup *)
Definition well_formed (e : enum) : Prop := NoDup (map fst e) /\ NoDup (map snd e).

Lemma u_inj a b : u a = u b -> a = b.
Proof.
  revert b. induction a as [|c a IH]; intros [|d b]; cbn; try discriminate; [reflexivity|].
  intros E. injection E as E1 E2. rewrite (IH _ E2).
  f_equal. apply N2Z.inj in E1. rewrite <- (Ascii.ascii_N_embedding c), <- (Ascii.ascii_N_embedding d). congruence.
Qed.
Lemma pystr_eqb_eq a b : pystr_eqb a b = true -> a = b.
Proof.
  revert b. induction a as [|x a IH]; intros [|y b]; cbn; try discriminate; [reflexivity|].
  rewrite andb_true_iff, Z.eqb_eq. intros [-> H]. rewrite (IH _ H). reflexivity.
Qed.
Lemma pystr_eqb_refl a : pystr_eqb a a = true.
Proof. induction a as [|x a IH]; cbn; [reflexivity|]. rewrite Z.eqb_refl. exact IH. Qed.
Lemma by_value_ok e v n x : NoDup (map snd e) -> (enum_by_value e v = Ok (n, x) <-> In (n, v) e /\ x = v).
Proof.
  intros ND. induction e as [|[m y] e IH]; cbn [enum_by_value In]; [split; [discriminate|tauto]|].
  cbn [map snd] in ND. inversion ND as [|? ? Ny Ne]; subst.
  destruct (Z.eqb_spec y v) as [->|N].
  - split; [intros E; injection E as -> ->; auto|]. intros [[H|H] ->]; [congruence|].
    exfalso. apply Ny. apply in_map_iff. exists (n, v). auto.
  - rewrite IH by exact Ne. intuition congruence.
Qed.
Lemma by_value_err e v : (exists n, In (n, v) e) \/ enum_by_value e v = Err EValue.
Proof.
  induction e as [|[m y] e IH]; cbn [enum_by_value In]; [auto|].
  destruct (Z.eqb_spec y v) as [->|N]; [left; eauto|]. destruct IH as [[n H]|H]; [left; eauto|right; exact H].
Qed.
Lemma by_name_ok e s n x : NoDup (map fst e) -> (enum_by_name e s = Ok (n, x) <-> In (n, x) e /\ s = u n).
Proof.
  intros ND. induction e as [|[m y] e IH]; cbn [enum_by_name In]; [split; [discriminate|tauto]|].
  cbn [map fst] in ND. inversion ND as [|? ? Ny Ne]; subst.
  destruct (pystr_eqb (u m) s) eqn:Eq.
  - apply pystr_eqb_eq in Eq. subst s. split; [intros E; injection E as -> ->; auto|].
    intros [[H|H] E]; [congruence|]. apply u_inj in E. subst n.
    exfalso. apply Ny. apply in_map_iff. exists (m, x). auto.
  - rewrite IH by exact Ne. split; [tauto|]. intros [[H|H] E]; [|tauto].
    injection H as -> ->. subst s. rewrite pystr_eqb_refl in Eq. discriminate.
Qed.
Lemma by_name_err e s : (exists n x, In (n, x) e /\ s = u n) \/ enum_by_name e s = Err EKey.
Proof.
  induction e as [|[m y] e IH]; cbn [enum_by_name In]; [auto|].
  destruct (pystr_eqb (u m) s) eqn:Eq.
  - apply pystr_eqb_eq in Eq. left. exists m, y. auto.
  - destruct IH as [(n & x & H & E)|H]; [left; exists n, x; auto|right; exact H].
Qed.

(** ** parse *)
Lemma parse_named e s n v d : well_formed e -> names_member e s n v -> parse e (VStr s) d = Ok (Some (n, v)).
Proof.
  intros [N1 N2] [Hin [Hn|[Hn Hs]]]; unfold parse.
  - rewrite (proj2 (isdigit_numeral s) (ex_intro _ v Hn)), int_of_digits_value.
    destruct Hn as (_ & _ & <-). rewrite (proj2 (by_value_ok e v n v N2) (conj Hin eq_refl)). reflexivity.
  - destruct (str_isdigit s) eqn:E; [exfalso; apply Hn; apply isdigit_numeral; exact E|].
    fold (norm s). rewrite (proj2 (by_name_ok e (norm s) n v N1)); [reflexivity|].
    split; [exact Hin|]. symmetry. apply spells_fun. exact Hs.
Qed.
Lemma parse_unnamed e s d : (~ exists n v, names_member e s n v) -> parse e (VStr s) d = enum_default e d.
Proof.
  intros H. unfold parse. destruct (str_isdigit s) eqn:E.
  - apply isdigit_numeral in E. destruct E as [z Hz]. rewrite int_of_digits_value.
    destruct (by_value_err e (digits_value s)) as [[n Hn]| ->]; [|reflexivity].
    exfalso. apply H. exists n, (digits_value s). split; [exact Hn|]. left.
    destruct Hz as (a & b & _). repeat split; assumption.
  - fold (norm s). destruct (by_name_err e (norm s)) as [(n & x & Hin & En)| ->]; [|reflexivity].
    exfalso. apply H. exists n, x. split; [exact Hin|]. right. split.
    + intros X. apply isdigit_numeral in X. congruence.
    + rewrite <- En. apply spells_norm.
Qed.
Lemma parse_int e z d : well_formed e -> forall n, In (n, z) e -> parse e (VInt z) d = Ok (Some (n, z)).
Proof. intros [N1 N2] n H. unfold parse. rewrite (proj2 (by_value_ok e z n z N2) (conj H eq_refl)). reflexivity. Qed.
Lemma parse_int_unknown e z d : (~ exists n, In (n, z) e) -> parse e (VInt z) d = enum_default e d.
Proof. intros H. unfold parse. destruct (by_value_err e z) as [X| ->]; [tauto|reflexivity]. Qed.
Lemma default_none e : enum_default e None = Ok None. Proof. reflexivity. Qed.
Lemma default_some e n z : well_formed e -> In (n, z) e -> enum_default e (Some z) = Ok (Some (n, z)).
Proof. intros [N1 N2] H. unfold enum_default. rewrite (proj2 (by_value_ok e z n z N2) (conj H eq_refl)). reflexivity. Qed.

(** ** the enumerations of the package *)
Fixpoint zs_nodupb (l : list Z) : bool := match l with [] => true | x :: l' => negb (existsb (Z.eqb x) l') && zs_nodupb l' end.
Fixpoint ss_nodupb (l : list string) : bool := match l with [] => true | x :: l' => negb (existsb (String.eqb x) l') && ss_nodupb l' end.
Lemma zs_nodup l : zs_nodupb l = true -> NoDup l.
Proof.
  induction l as [|x l IH]; cbn; [constructor|]. rewrite andb_true_iff, negb_true_iff. intros [H1 H2].
  constructor; [|auto]. intros Hin. rewrite <- not_true_iff_false in H1. apply H1. apply existsb_exists. exists x. split; [exact Hin|apply Z.eqb_refl].
Qed.
Lemma ss_nodup l : ss_nodupb l = true -> NoDup l.
Proof.
  induction l as [|x l IH]; cbn; [constructor|]. rewrite andb_true_iff, negb_true_iff. intros [H1 H2].
  constructor; [|auto]. intros Hin. rewrite <- not_true_iff_false in H1. apply H1. apply existsb_exists. exists x. split; [exact Hin|apply String.eqb_refl].
Qed.
(** decidable checks of one enumeration *)
Definition member_ok (m : string * Z) : bool :=
  str_isdigit (str_of_Z (snd m)) && (int_of_digits (str_of_Z (snd m)) =? snd m)
  && negb (str_isdigit (str_lower (u (fst m)))) && pystr_eqb (norm (str_lower (u (fst m)))) (u (fst m)).
Definition enum_ok (e : enum) : bool :=
  zs_nodupb (map snd e) && ss_nodupb (map fst e) && forallb member_ok e.
Lemma enum_ok_wf e : enum_ok e = true -> well_formed e.
Proof. unfold enum_ok. rewrite !andb_true_iff. intros [[A B] _]. split; [apply ss_nodup|apply zs_nodup]; assumption. Qed.
Lemma member_ok_named e n v : forallb member_ok e = true -> In (n, v) e ->
  names_member e (str_of_Z v) n v /\ names_member e (str_lower (u n)) n v.
Proof.
  intros F Hin. rewrite forallb_forall in F. specialize (F _ Hin). unfold member_ok in F. cbn [fst snd] in F.
  rewrite !andb_true_iff, negb_true_iff, Z.eqb_eq in F. destruct F as [[[F1 F2] F3] F4].
  split; (split; [exact Hin|]).
  - left. apply isdigit_numeral in F1. destruct F1 as (z & a & b & _). rewrite int_of_digits_value in F2.
    repeat split; try assumption. symmetry; exact F2.
  - right. split; [intros X; apply isdigit_numeral in X; congruence|].
    apply pystr_eqb_eq in F4. rewrite <- F4 at 2. apply spells_norm.
Qed.
