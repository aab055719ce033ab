(** Basic lemmas about bytes, struct fields and positions in a buffer. *)
From Verif Require Import Py F64 Struct Utf Utility Spec.
From Coq Require Export ZifyBool ZifyNat.
Ltac Zify.zify_post_hook ::= Z.div_mod_to_equations.

Lemma zlen_app {A} (a b : list A) : zlen (a ++ b) = zlen a + zlen b.
Proof. unfold zlen. rewrite app_length. lia. Qed.
Lemma zlen_nil {A} : zlen (@nil A) = 0. Proof. reflexivity. Qed.
Lemma zlen_cons {A} (x : A) l : zlen (x :: l) = 1 + zlen l.
Proof. unfold zlen; cbn [List.length]; lia. Qed.
Lemma zlen_nonneg {A} (l : list A) : 0 <= zlen l.
Proof. unfold zlen; lia. Qed.
Global Hint Rewrite @zlen_app @zlen_nil @zlen_cons : zlen.

Lemma zlen_0 {A} (l : list A) : zlen l = 0 -> l = [].
Proof. unfold zlen; destruct l; [reflexivity | cbn [List.length]; lia]. Qed.

Lemma le_enc_len n v : zlen (le_enc n v) = Z.of_nat n.
Proof. revert v; induction n as [|n IH]; intros v; cbn [le_enc]; [reflexivity|].
  rewrite zlen_cons, IH. lia. Qed.

Lemma le_enc_wf n v : wf_bytes (le_enc n v).
Proof. revert v; induction n as [|n IH]; intros v; constructor; [unfold is_byte; lia | apply IH]. Qed.

Lemma le_dec_enc n v : 0 <= v < 256 ^ Z.of_nat n -> le_dec (le_enc n v) = v.
Proof.
  revert v; induction n as [|n IH]; intros v H; cbn [le_enc le_dec].
  - cbn in H. lia.
  - assert (E : 256 ^ Z.of_nat (S n) = 256 * 256 ^ Z.of_nat n)
      by (rewrite Nat2Z.inj_succ, Z.pow_succ_r by lia; reflexivity).
    rewrite E in H. rewrite IH; [lia|].
    split; [lia|]. apply Z.div_lt_upper_bound; lia.
Qed.

Lemma le_dec_range b : wf_bytes b -> 0 <= le_dec b < 256 ^ zlen b.
Proof.
  induction 1 as [|x b Hx Hb IH]; cbn [le_dec]; [cbn; lia|].
  rewrite zlen_cons. replace (1 + zlen b) with (Z.succ (zlen b)) by lia.
  rewrite Z.pow_succ_r by apply zlen_nonneg. unfold is_byte in Hx. lia.
Qed.

Lemma le_enc_dec b : wf_bytes b -> le_enc (List.length b) (le_dec b) = b.
Proof.
  induction 1 as [|x b Hx Hb IH]; cbn [le_dec le_enc List.length]; [reflexivity|].
  unfold is_byte in Hx. f_equal; [lia|].
  replace ((x + 256 * le_dec b) / 256) with (le_dec b) by lia. exact IH.
Qed.

Lemma u16le_enc v : u16le v = le_enc 2 v. Proof. reflexivity. Qed.
Lemma u32le_enc v : u32le v = le_enc 4 v.
Proof. cbn [le_enc]. unfold u32le. rewrite !Z.div_div by lia. reflexivity. Qed.
Lemma u16be_enc v : u16be v = be_enc 2 v. Proof. reflexivity. Qed.
Lemma u32be_enc v : u32be v = be_enc 4 v.
Proof. unfold be_enc. cbn [le_enc]. unfold u32be. cbn [rev app]. rewrite !Z.div_div by lia. reflexivity. Qed.

Lemma zlen_u8 v : zlen (u8 v) = 1. Proof. reflexivity. Qed.
Lemma zlen_u16le v : zlen (u16le v) = 2. Proof. reflexivity. Qed.
Lemma zlen_u32le v : zlen (u32le v) = 4. Proof. reflexivity. Qed.
Lemma zlen_i32le v : zlen (i32le v) = 4. Proof. reflexivity. Qed.
Lemma zlen_u16be v : zlen (u16be v) = 2. Proof. reflexivity. Qed.
Lemma zlen_u32be v : zlen (u32be v) = 4. Proof. reflexivity. Qed.
Global Hint Rewrite zlen_u8 zlen_u16le zlen_u32le zlen_i32le zlen_u16be zlen_u32be : zlen.

(** [at_ b off rest]: the bytes of [b] from [off] on are [rest]. *)
Definition at_ (b : bytes) (off : Z) (rest : bytes) : Prop :=
  exists pre, b = pre ++ rest /\ zlen pre = off.

Lemma at_start b : at_ b 0 b.
Proof. exists []; split; reflexivity. Qed.

Lemma at_step b off x rest : at_ b off (x ++ rest) -> at_ b (off + zlen x) rest.
Proof. intros (pre & -> & <-). exists (pre ++ x). rewrite <- app_assoc. split; [reflexivity|].
  apply zlen_app. Qed.

Lemma at_len b off rest : at_ b off rest -> zlen b = off + zlen rest.
Proof. intros (pre & -> & <-). apply zlen_app. Qed.

Lemma at_nonneg b off rest : at_ b off rest -> 0 <= off.
Proof. intros (pre & -> & <-). apply zlen_nonneg. Qed.

Lemma skipn_zlen_app {A} (pre rest : list A) : skipn (Z.to_nat (zlen pre)) (pre ++ rest) = rest.
Proof. unfold zlen. rewrite Nat2Z.id, skipn_app, skipn_all, Nat.sub_diag. reflexivity. Qed.
Lemma firstn_zlen_app {A} (pre rest : list A) : firstn (Z.to_nat (zlen pre)) (pre ++ rest) = pre.
Proof. unfold zlen. rewrite Nat2Z.id, firstn_app, firstn_all, Nat.sub_diag, app_nil_r. reflexivity. Qed.

Lemma slice_at b off x rest : at_ b off (x ++ rest) -> slice off (zlen x) b = x.
Proof. intros (pre & -> & <-). unfold slice. rewrite skipn_zlen_app. apply firstn_zlen_app. Qed.

Lemma unpack_at f b off x rest :
  at_ b off (x ++ rest) -> zlen x = fsize f -> unpack_from f b off = Ok (funpack f x).
Proof.
  intros H E. unfold unpack_from. pose proof (at_len _ _ _ H) as L. rewrite zlen_app in L.
  pose proof (zlen_nonneg rest). pose proof (at_nonneg _ _ _ H). destruct ((0 <=? off) && (off + fsize f <=? zlen b)) eqn:Hle; [|lia].
  rewrite <- E, (slice_at _ _ _ _ H). reflexivity.
Qed.

Lemma getSome_at f b off x rest :
  at_ b off (x ++ rest) -> zlen x = fsize f ->
  getSome f b off = Ok (funpack f x, off + fsize f).
Proof. intros H E. unfold getSome. rewrite (unpack_at _ _ _ _ _ H E). reflexivity. Qed.

Lemma getSome_u8 b off v rest :
  at_ b off (u8 v ++ rest) -> getSome FB b off = Ok (v, off + 1).
Proof. intros H. rewrite (getSome_at FB _ _ _ _ H eq_refl). cbn [funpack le_dec u8 fsize]. do 2 f_equal. lia. Qed.
Lemma getSome_u16 b off v rest :
  at_ b off (u16le v ++ rest) -> is_u16 v -> getSome FH b off = Ok (v, off + 2).
Proof. intros H R. rewrite (getSome_at FH _ _ _ _ H eq_refl). cbn [funpack fsize].
  rewrite u16le_enc, le_dec_enc; [reflexivity|]. unfold is_u16 in R. cbn. lia. Qed.
Lemma getSome_u32 b off v rest :
  at_ b off (u32le v ++ rest) -> is_u32 v -> getSome FI b off = Ok (v, off + 4).
Proof. intros H R. rewrite (getSome_at FI _ _ _ _ H eq_refl). cbn [funpack fsize].
  rewrite u32le_enc, le_dec_enc; [reflexivity|]. unfold is_u32 in R. cbn. lia. Qed.
Lemma getSome_i32 b off v rest :
  at_ b off (i32le v ++ rest) -> is_i32 v -> getSome Fi b off = Ok (v, off + 4).
Proof. intros H R. rewrite (getSome_at Fi _ _ _ _ H eq_refl). cbn [funpack fsize].
  unfold i32le. rewrite u32le_enc, le_dec_enc by (cbn; lia). unfold to_signed32, is_i32 in *.
  destruct (v mod 4294967296 <? 2 ^ 31) eqn:E; do 2 f_equal;
  change (2^31) with 2147483648 in *; change (2^32) with 4294967296 in *; lia. Qed.
Lemma getSome_u16be b off v rest :
  at_ b off (u16be v ++ rest) -> is_u16 v -> getSome FbH b off = Ok (v, off + 2).
Proof. intros H R. rewrite (getSome_at FbH _ _ _ _ H eq_refl). cbn [funpack fsize].
  rewrite u16be_enc. unfold be_dec, be_enc. rewrite rev_involutive, le_dec_enc; [reflexivity|].
  unfold is_u16 in R. cbn. lia. Qed.
Lemma getSome_u32be b off v rest :
  at_ b off (u32be v ++ rest) -> is_u32 v -> getSome FbI b off = Ok (v, off + 4).
Proof. intros H R. rewrite (getSome_at FbI _ _ _ _ H eq_refl). cbn [funpack fsize].
  rewrite u32be_enc. unfold be_dec, be_enc. rewrite rev_involutive, le_dec_enc; [reflexivity|].
  unfold is_u32 in R. cbn. lia. Qed.

Lemma getSomeBytes_at b off x rest :
  at_ b off (x ++ rest) -> getSomeBytes (zlen x) b off = Ok (x, off + zlen x).
Proof.
  intros H. unfold getSomeBytes, unpack_bytes_from. pose proof (at_len _ _ _ H) as L.
  rewrite zlen_app in L. pose proof (zlen_nonneg rest). pose proof (zlen_nonneg x).
  pose proof (at_nonneg _ _ _ H). destruct ((0 <=? off) && (0 <=? zlen x) && (off + zlen x <=? zlen b)) eqn:E; [|lia].
  cbn [rbind]. rewrite (slice_at _ _ _ _ H). reflexivity.
Qed.

Lemma skipn_add {A} (a b : nat) (l : list A) : skipn (a + b) l = skipn a (skipn b l).
Proof. revert l; induction b as [|b IH]; intros l.
  - rewrite Nat.add_0_r. reflexivity.
  - rewrite Nat.add_succ_r. destruct l as [|x l]; [destruct a; reflexivity|]. apply IH. Qed.

(** every in-range field position splits the buffer *)
Lemma at_split b off n : 0 <= off -> 0 <= n -> off + n <= zlen b ->
  exists x rest, at_ b off (x ++ rest) /\ zlen x = n.
Proof.
  intros Ho Hn Hl. exists (slice off n b), (skipn (Z.to_nat (off + n)) b). split.
  - exists (firstn (Z.to_nat off) b). split.
    + unfold slice. replace (Z.to_nat (off + n)) with (Z.to_nat n + Z.to_nat off)%nat by lia.
      rewrite skipn_add, firstn_skipn, firstn_skipn. reflexivity.
    + unfold zlen in *. rewrite firstn_length. lia.
  - unfold slice, zlen in *. rewrite firstn_length, skipn_length. lia.
Qed.

Lemma app_inj_len {A} (a b c d : list A) : a ++ b = c ++ d -> zlen a = zlen c -> a = c /\ b = d.
Proof.
  revert c; induction a as [|x a IH]; intros c H L; destruct c as [|y c]; rewrite ?zlen_cons, ?zlen_nil in L.
  - cbn in H. auto.
  - pose proof (zlen_nonneg c). lia.
  - pose proof (zlen_nonneg a). lia.
  - cbn in H. injection H as -> H. apply IH in H; [|lia]. destruct H as [-> ->]. auto.
Qed.

Lemma at_unique b off r1 r2 : at_ b off r1 -> at_ b off r2 -> r1 = r2.
Proof. intros (p1 & E1 & L1) (p2 & E2 & L2). rewrite E1 in E2. apply app_inj_len in E2; [tauto | lia]. Qed.

Lemma wf_app a b : wf_bytes (a ++ b) <-> wf_bytes a /\ wf_bytes b.
Proof. apply Forall_app. Qed.

Ltac inv_bytes :=
  repeat match goal with
  | H : wf_bytes (_ :: _) |- _ => inversion H; clear H; subst
  | H : Forall is_byte (_ :: _) |- _ => inversion H; clear H; subst
  end.

Lemma u16le_dec x : wf_bytes x -> zlen x = 2 -> u16le (le_dec x) = x.
Proof. intros W L. rewrite u16le_enc. replace 2%nat with (List.length x) by (unfold zlen in L; lia).
  apply le_enc_dec; exact W. Qed.
Lemma u32le_dec x : wf_bytes x -> zlen x = 4 -> u32le (le_dec x) = x.
Proof. intros W L. rewrite u32le_enc. replace 4%nat with (List.length x) by (unfold zlen in L; lia).
  apply le_enc_dec; exact W. Qed.
