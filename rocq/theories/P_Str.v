(** Proofs about strings, arrays and times on the wire (C06-C09). *)
From Verif Require Import Py F64 Struct Utf Utility Spec P_Base P_Util.

Lemma utf8_one c : scalar c ->
  exists x, utf8_enc1 c = Ok x /\ wf_bytes x /\ forall r, utf8_decode (x ++ r) = rcons c (utf8_decode r).
Proof.
  intros H. unfold utf8_enc1, scalar, is_surrogate in *.
  destruct (c <? 0) eqn:E0; [lia|].
  destruct (c <? 128) eqn:E1.
  { exists [c]. split; [reflexivity|]. split; [repeat constructor; unfold is_byte; lia|].
    intros r. cbn [app utf8_decode]. rewrite E1. reflexivity. }
  destruct (c <? 2048) eqn:E2.
  { eexists; split; [reflexivity|]. split; [repeat constructor; unfold is_byte; lia|].
    intros r. cbn [app utf8_decode]. unfold is_cont.
    replace (192 + c / 64 <? 128) with false by lia.
    replace (192 + c / 64 <? 194) with false by lia.
    replace (negb _) with false by lia.
    replace (192 + c / 64 <? 224) with true by lia.
    f_equal. lia. }
  destruct ((55296 <=? c) && (c <=? 57343)) eqn:E3; [lia|].
  destruct (c <? 65536) eqn:E4.
  { eexists; split; [reflexivity|]. split; [repeat constructor; unfold is_byte; lia|].
    intros r. cbn [app utf8_decode]. unfold is_cont.
    replace (224 + c / 4096 <? 128) with false by lia.
    replace (224 + c / 4096 <? 194) with false by lia.
    replace (negb ((128 <=? 128 + c / 64 mod 64) && _)) with false by lia.
    replace (224 + c / 4096 <? 224) with false by lia.
    replace (negb _) with false by lia.
    replace (224 + c / 4096 <? 240) with true by lia.
    replace ((224 + c / 4096 - 224) * 4096 + (128 + c / 64 mod 64 - 128) * 64 + (128 + c mod 64 - 128))
      with c by lia.
    unfold is_surrogate. rewrite E2, E3. reflexivity. }
  destruct (c <? 1114112) eqn:E5; [|lia].
  { eexists; split; [reflexivity|]. split; [repeat constructor; unfold is_byte; lia|].
    intros r. cbn [app utf8_decode]. unfold is_cont.
    replace (240 + c / 262144 <? 128) with false by lia.
    replace (240 + c / 262144 <? 194) with false by lia.
    replace (negb ((128 <=? 128 + c / 4096 mod 64) && _)) with false by lia.
    replace (240 + c / 262144 <? 224) with false by lia.
    replace (negb ((128 <=? 128 + c / 64 mod 64) && _)) with false by lia.
    replace (240 + c / 262144 <? 240) with false by lia.
    replace (negb _) with false by lia.
    replace ((240 + c / 262144 - 240) * 262144 + (128 + c / 4096 mod 64 - 128) * 4096 +
             (128 + c / 64 mod 64 - 128) * 64 + (128 + c mod 64 - 128)) with c by lia.
    replace ((c <? 65536) || (1114111 <? c) || (244 <? 240 + c / 262144)) with false by lia.
    reflexivity. }
Qed.

Lemma utf8_rt s : Forall scalar s ->
  exists b, utf8_encode s = Ok b /\ wf_bytes b /\
  forall r, utf8_decode (b ++ r) = match utf8_decode r with Ok t => Ok (s ++ t) | Err e => Err e end.
Proof.
  induction 1 as [|c s Hc Hs (b & Eb & Wb & Db)]; cbn [utf8_encode].
  - exists []. repeat split; [constructor|]. intros r; cbn. destruct (utf8_decode r); reflexivity.
  - destruct (utf8_one c Hc) as (x & Ex & Wx & Dx). exists (x ++ b). rewrite Ex, Eb. cbn [rbind].
    split; [reflexivity|]. split; [apply wf_app; auto|].
    intros r. rewrite <- app_assoc, Dx, Db. destruct (utf8_decode r); reflexivity.
Qed.

Lemma utf8_nuls n : utf8_decode (repeat 0 n) = Ok (repeat 0 n).
Proof. induction n as [|n IH]; [reflexivity|]. cbn [repeat utf8_decode]. cbn [Z.ltb Z.compare]. rewrite IH. reflexivity. Qed.

(** UTF-16 *)
Lemma units_one c : scalar c ->
  exists x, utf16_units1 c = Ok x /\ Forall (fun z => 0 <= z < 65536) x
  /\ (forall r, units_decode (x ++ r) = rcons c (units_decode r)).
Proof.
  intros H. unfold utf16_units1, scalar, is_surrogate in *.
  destruct (c <? 0) eqn:E0; [lia|].
  destruct ((55296 <=? c) && (c <=? 57343)) eqn:E3; [lia|].
  destruct (c <? 65536) eqn:E4.
  { exists [c]. split; [reflexivity|]. split; [repeat constructor; lia|].
    intros r. cbn [app units_decode]. unfold is_high, is_low.
    replace ((55296 <=? c) && (c <=? 56319)) with false by lia.
    replace ((56320 <=? c) && (c <=? 57343)) with false by lia. reflexivity. }
  destruct (c <? 1114112) eqn:E5; [|lia].
  eexists; split; [reflexivity|]. split; [repeat constructor; lia|].
  intros r. cbn [app units_decode]. unfold is_high, is_low.
  replace ((55296 <=? 55296 + _) && _) with true by lia.
  replace ((56320 <=? 56320 + _) && _) with true by lia.
  f_equal. lia.
Qed.

Lemma units_rt s : Forall scalar s ->
  exists l, utf16_units s = Ok l /\ Forall (fun z => 0 <= z < 65536) l
  /\ forall r, units_decode (l ++ r) = match units_decode r with Ok t => Ok (s ++ t) | Err e => Err e end.
Proof.
  induction 1 as [|c s Hc Hs (b & Eb & Wb & Db)]; cbn [utf16_units].
  - exists []. repeat split; [constructor|]. intros r; cbn. destruct (units_decode r); reflexivity.
  - destruct (units_one c Hc) as (x & Ex & Wx & Dx). exists (x ++ b). rewrite Ex, Eb. cbn [rbind].
    split; [reflexivity|]. split; [apply Forall_app; auto|].
    intros r. rewrite <- app_assoc, Dx, Db. destruct (units_decode r); reflexivity.
Qed.

Lemma le_units_rt l : Forall (fun z => 0 <= z < 65536) l ->
  wf_bytes (units_to_le l) /\ zlen (units_to_le l) = 2 * zlen l /\
  forall r, le_to_units (units_to_le l ++ r) = match le_to_units r with Ok t => Ok (l ++ t) | Err e => Err e end.
Proof.
  induction 1 as [|x l Hx Hl (W & L & D)]; cbn [units_to_le].
  - repeat split; [constructor|]. intros r. cbn. destruct (le_to_units r); reflexivity.
  - split; [|split].
    + constructor; [unfold is_byte; lia|]. constructor; [unfold is_byte; lia | exact W].
    + rewrite !zlen_cons, L. lia.
    + intros r. cbn [app le_to_units]. rewrite D. replace (x mod 256 + 256 * (x / 256)) with x by lia.
      destruct (le_to_units r); reflexivity.
Qed.

Lemma units_nuls n : le_to_units (repeat 0 (2 * n)) = Ok (repeat 0 n).
Proof. induction n as [|n IH]; [reflexivity|]. replace (2 * S n)%nat with (S (S (2 * n))) by lia.
  cbn [repeat le_to_units]. rewrite IH. reflexivity. Qed.
Lemma units_decode_nuls n : units_decode (repeat 0 n) = Ok (repeat 0 n).
Proof. induction n as [|n IH]; [reflexivity|]. cbn [repeat units_decode]. change (is_high 0) with false.
  change (is_low 0) with false. rewrite IH. reflexivity. Qed.

Lemma encode_ok utf_16 s : Forall scalar s ->
  exists e, encode utf_16 s = Ok e /\ wf_bytes e /\ decode utf_16 e = Ok s
  /\ decode utf_16 (e ++ nuls (pad4 (zlen e))) = Ok (s ++ repeat 0 (Z.to_nat (if utf_16 then pad4 (zlen e) / 2 else pad4 (zlen e)))).
Proof.
  intros H. destruct utf_16; cbn [encode decode].
  - destruct (units_rt s H) as (l & El & Wl & Dl). destruct (le_units_rt l Wl) as (W & L & D).
    unfold utf16_encode. rewrite El. cbn [rbind]. eexists; split; [reflexivity|].
    split; [constructor; [unfold is_byte; lia|]; constructor; [unfold is_byte; lia | exact W]|].
    split.
    + cbn [utf16_decode]. rewrite <- (app_nil_r (units_to_le l)), D. cbn [le_to_units rbind].
      rewrite app_nil_r, <- (app_nil_r l), Dl. cbn. rewrite app_nil_r. reflexivity.
    + rewrite !zlen_cons, L. set (p := pad4 (1 + (1 + 2 * zlen l))).
      assert (P : p = 0 \/ p = 2) by (unfold p, pad4; lia).
      cbn [app utf16_decode]. unfold nuls.
      replace (Z.to_nat p) with (2 * Z.to_nat (p / 2))%nat by lia.
      rewrite D, units_nuls. cbn [rbind]. rewrite Dl, units_decode_nuls. reflexivity.
  - destruct (utf8_rt s H) as (e & Ee & We & De). exists e. split; [exact Ee|]. split; [exact We|]. split.
    + rewrite <- (app_nil_r e), De. cbn. rewrite app_nil_r. reflexivity.
    + unfold nuls. rewrite De, utf8_nuls. reflexivity.
Qed.

Lemma pack_s_pad e : pack_s (zlen e + pad4 (zlen e)) e = e ++ nuls (pad4 (zlen e)).
Proof.
  unfold pack_s, nuls. pose proof (zlen_nonneg e). assert (0 <= pad4 (zlen e)) by (unfold pad4; lia).
  replace (Z.to_nat (zlen e + pad4 (zlen e)) - List.length e)%nat with (Z.to_nat (pad4 (zlen e)))
    by (unfold zlen in *; lia).
  rewrite firstn_all2; [reflexivity|]. rewrite app_length, repeat_length. unfold zlen in *. lia.
Qed.



Lemma land_hi n : 0 <= n < 4294967296 ->
  (Z.land n 2147483648 =? 0) = (n <? 2147483648).
Proof.
  intros H. change 2147483648 with (2 ^ 31) at 1.
  destruct (n <? 2147483648) eqn:E.
  - apply Z.eqb_eq. apply Z.bits_inj'. intros i Hi. rewrite Z.land_spec, Z.pow2_bits_eqb, Z.bits_0 by lia.
    destruct (31 =? i) eqn:Ei; [|apply andb_false_r]. rewrite andb_true_r. apply Z.eqb_eq in Ei; subst i.
    destruct (Z.eq_dec n 0) as [->|]; [apply Z.bits_0|]. apply Z.bits_above_log2; [lia|].
    apply Z.log2_lt_pow2; [lia|]. change (2^31) with 2147483648. lia.
  - apply Z.eqb_neq. intros C. assert (T : Z.testbit (Z.land n (2 ^ 31)) 31 = false) by (rewrite C; apply Z.bits_0).
    rewrite Z.land_spec, Z.pow2_bits_true, andb_true_r in T by lia.
    rewrite Z.testbit_false in T by lia. change (2 ^ 31) with 2147483648 in T. lia.
Qed.

Lemma land_lo n : Z.land n 2147483647 = n mod 2147483648.
Proof. change 2147483647 with (Z.ones 31). rewrite Z.land_ones by lia. reflexivity. Qed.

Lemma lor_hi n : 0 <= n < 2147483648 -> Z.lor n 2147483648 = n + 2147483648.
Proof.
  intros H. assert (D : Z.land n 2147483648 = 0) by (apply Z.eqb_eq; rewrite land_hi by lia; lia).
  rewrite (Z.add_nocarry_lxor _ _ D). symmetry. apply Z.lxor_lor. exact D.
Qed.

Lemma encodeMessageString_wire utf_16 s e : encode utf_16 s = Ok e -> zlen e < 2147483648 ->
  encodeMessageString s utf_16 = Ok (wire_string utf_16 e).
Proof.
  intros E L. unfold encodeMessageString. rewrite E. cbn [rbind]. pose proof (zlen_nonneg e).
  assert (P : zlen e + (if 0 <? zlen e mod 4 then 4 - zlen e mod 4 else 0) = zlen e + pad4 (zlen e)).
  { unfold pad4. destruct (0 <? zlen e mod 4) eqn:D; lia. }
  rewrite P, pack_s_pad. unfold wire_string.
  destruct utf_16.
  - rewrite lor_hi by lia. rewrite pack_u_ok by (rewrite pow256_4; lia). cbn [rbind].
    rewrite u32le_enc. reflexivity.
  - rewrite Z.add_0_r, pack_u_ok by (rewrite pow256_4; lia). cbn [rbind]. rewrite u32le_enc. reflexivity.
Qed.

Lemma unpack_FI_u32 b off v rest : at_ b off (u32le v ++ rest) -> is_u32 v -> unpack_from FI b off = Ok v.
Proof.
  intros A R. pose proof (getSome_u32 _ _ _ _ A R) as G. unfold getSome in G.
  destruct (unpack_from FI b off) as [z|x]; cbn [rbind] in G; [injection G as ->; reflexivity | discriminate].
Qed.

Lemma unpack_bytes_at b off x rest : at_ b off (x ++ rest) -> unpack_bytes_from (zlen x) b off = Ok x.
Proof.
  intros A. pose proof (getSomeBytes_at _ _ _ _ A) as G. unfold getSomeBytes in G.
  destruct (unpack_bytes_from (zlen x) b off) as [z|y]; cbn [rbind] in G; [injection G as ->; reflexivity | discriminate].
Qed.

Lemma decodeMessageString_wire utf_16 e rest : zlen e < 2147483648 ->
  decodeMessageString (wire_string utf_16 e ++ rest) = decode utf_16 e.
Proof.
  intros L. pose proof (zlen_nonneg e). unfold decodeMessageString, wire_string.
  set (b := (u32le (zlen e + (if utf_16 then 2147483648 else 0)) ++ e ++ nuls (pad4 (zlen e))) ++ rest).
  assert (A : at_ b 0 (u32le (zlen e + (if utf_16 then 2147483648 else 0)) ++ e ++ nuls (pad4 (zlen e)) ++ rest)).
  { unfold b. rewrite <- !app_assoc. apply at_start. }
  rewrite (unpack_FI_u32 _ _ _ _ A) by (unfold is_u32; destruct utf_16; lia). cbn [rbind].
  apply at_step in A. rewrite zlen_u32le in A. cbn [Z.add Pos.add] in A.
  rewrite land_hi by (destruct utf_16; lia).
  destruct utf_16.
  - replace (zlen e + 2147483648 <? 2147483648) with false by lia. cbn [negb].
    rewrite land_lo. replace ((zlen e + 2147483648) mod 2147483648) with (zlen e) by lia.
    rewrite (unpack_bytes_at _ _ _ _ A). reflexivity.
  - rewrite Z.add_0_r. replace (zlen e <? 2147483648) with true by lia. cbn [negb].
    rewrite (unpack_bytes_at _ _ _ _ A). reflexivity.
Qed.

Lemma wire_string_len utf_16 e : zlen (wire_string utf_16 e) = 4 + zlen e + pad4 (zlen e).
Proof. unfold wire_string, nuls. autorewrite with zlen. unfold zlen at 2. rewrite repeat_length.
  unfold pad4. lia. Qed.

Lemma string_rt utf_16 s e : Forall scalar s -> encode utf_16 s = Ok e -> zlen e < 2147483648 ->
  exists b, encodeMessageString s utf_16 = Ok b /\ decodeMessageString b = Ok s
  /\ zlen b mod 4 = 0 /\ wf_bytes b.
Proof.
  intros H E L. destruct (encode_ok utf_16 s H) as (e' & E' & W & D & _).
  assert (e' = e) as -> by congruence. exists (wire_string utf_16 e).
  split; [apply encodeMessageString_wire; assumption|].
  split; [rewrite <- (app_nil_r (wire_string utf_16 e)), decodeMessageString_wire by exact L; exact D|].
  split; [rewrite wire_string_len; unfold pad4; lia|].
  unfold wire_string. rewrite u32le_enc. apply wf_app; split; [apply le_enc_wf|].
  apply wf_app; split; [exact W|]. unfold nuls. apply Forall_forall. intros x Hx.
  apply repeat_spec in Hx. subst x. unfold is_byte; lia.
Qed.

(** ---- C07 getString in context ---- *)
Lemma lstrip_nul_repeat n s : lstrip is_nul (repeat 0 n ++ s) = lstrip is_nul s.
Proof. induction n as [|n IH]; [reflexivity|]. cbn [repeat app lstrip]. change (is_nul 0) with true. exact IH. Qed.

Lemma lstrip_all_or p s : lstrip p s = [] \/ exists c t, lstrip p s = c :: t /\ p c = false.
Proof. induction s as [|c s IH]; [left; reflexivity|]. cbn [lstrip]. destruct (p c) eqn:E; [exact IH|].
  right. exists c, s. auto. Qed.

Lemma lstrip_nul_decomp s : exists n, s = repeat 0 n ++ lstrip is_nul s.
Proof. induction s as [|c s (n & IH)]; [exists O; reflexivity|]. cbn [lstrip].
  destruct (is_nul c) eqn:E; [|exists O; reflexivity]. exists (S n). cbn [repeat app].
  unfold is_nul in E. rewrite <- IH. f_equal. lia. Qed.

Lemma rev_repeat {A} (x : A) n : rev (repeat x n) = repeat x n.
Proof. induction n as [|n IH]; [reflexivity|]. cbn [repeat rev]. rewrite IH. symmetry. apply repeat_cons. Qed.

Lemma strip_trailing s n : strip is_nul (s ++ repeat 0 n) = strip is_nul s.
Proof.
  unfold strip, rstrip.
  assert (G : forall s, rev (lstrip is_nul (rev (lstrip is_nul (s ++ repeat 0 n))))
                     = rev (lstrip is_nul (rev (lstrip is_nul s)))).
  { intros t. induction t as [|c t IH].
    - cbn [app lstrip]. rewrite <- (app_nil_r (repeat 0 n)), lstrip_nul_repeat. reflexivity.
    - cbn [app lstrip]. destruct (is_nul c); [exact IH|].
      rewrite app_comm_cons, rev_app_distr, rev_repeat, lstrip_nul_repeat. reflexivity. }
  apply G.
Qed.

Lemma strip_stripped s : stripped s (strip is_nul s).
Proof.
  unfold stripped, strip, rstrip.
  destruct (lstrip_nul_decomp s) as (a & Ha).
  destruct (lstrip_nul_decomp (rev (lstrip is_nul s))) as (b & Hb).
  assert (Hl : lstrip is_nul s = rev (lstrip is_nul (rev (lstrip is_nul s))) ++ repeat 0 b).
  { rewrite <- (rev_repeat 0 b), <- rev_app_distr, <- Hb. rewrite rev_involutive. reflexivity. }
  exists a, b. split; [rewrite <- Hl; exact Ha|].
  destruct (lstrip_all_or is_nul (rev (lstrip is_nul s))) as [E|(c & t & E & Hc)].
  { left. rewrite E. reflexivity. }
  right. rewrite E in *.
  cbn [rev] in *. split.
  - destruct (lstrip_all_or is_nul s) as [E2|(c2 & t2 & E2 & Hc2)]; [rewrite E2 in E; discriminate|].
    rewrite E2 in Hl. unfold is_nul in Hc2.
    destruct (rev t ++ [c]) as [|h w] eqn:Eh; [destruct (rev t); discriminate|].
    cbn [app] in Hl. injection Hl as <- _. cbn [hd]. lia.
  - rewrite last_last. unfold is_nul in Hc. lia.
Qed.

Lemma getString_at utf_16 s e b off rest : Forall scalar s -> encode utf_16 s = Ok e ->
  zlen e < 2147483648 - 4 -> at_ b off (wire_string utf_16 e ++ rest) ->
  getString b off = Ok (strip is_nul s, off + zlen (wire_string utf_16 e)).
Proof.
  intros H E L A. destruct (encode_ok utf_16 s H) as (e' & E' & W & _ & D).
  assert (e' = e) as -> by congruence. pose proof (zlen_nonneg e).
  unfold getString. rewrite wire_string_len. unfold wire_string in A. rewrite <- app_assoc in A.
  rewrite (unpack_FI_u32 _ _ _ _ A) by (unfold is_u32; destruct utf_16; lia). cbn [rbind].
  apply at_step in A. rewrite zlen_u32le in A. rewrite app_assoc in A || idtac.
  assert (Lp : zlen (e ++ nuls (pad4 (zlen e))) = zlen e + pad4 (zlen e)).
  { rewrite zlen_app. unfold nuls. unfold zlen at 2. rewrite repeat_length. unfold pad4. lia. }
  rewrite land_hi by (destruct utf_16; lia).
  assert (Hs : (if negb (zlen e + (if utf_16 then 2147483648 else 0) <? 2147483648)
                then Z.land (zlen e + (if utf_16 then 2147483648 else 0)) 2147483647
                else zlen e + (if utf_16 then 2147483648 else 0)) = zlen e).
  { rewrite land_lo. destruct utf_16; destruct (_ <? _) eqn:Q; cbn [negb]; lia. }
  rewrite Hs.
  assert (Hp : (if negb (zlen e mod 4 =? 0) then zlen e + (4 - zlen e mod 4) else zlen e)
               = zlen (e ++ nuls (pad4 (zlen e)))).
  { rewrite Lp. unfold pad4. destruct (zlen e mod 4 =? 0) eqn:Q; cbn [negb]; lia. }
  rewrite Hp. rewrite (unpack_bytes_at _ _ _ _ A). cbn [rbind].
  replace (negb (zlen e + (if utf_16 then 2147483648 else 0) <? 2147483648)) with utf_16
    by (destruct utf_16; lia).
  rewrite D. cbn [rbind]. rewrite strip_trailing, Lp. do 2 f_equal. lia.
Qed.

(** ---- C09 getArray ---- *)
Lemma getArray_items_at items : forall b off rest, at_ b off (items ++ rest) ->
  getArray_items (List.length items) b off = Ok items.
Proof.
  induction items as [|x items IH]; intros b off rest A; cbn [List.length getArray_items]; [reflexivity|].
  change ((x :: items) ++ rest) with (u8 x ++ (items ++ rest)) in A.
  rewrite (getSome_u8 _ _ _ _ A). cbn [rbind fst]. apply at_step in A. rewrite zlen_u8 in A.
  rewrite (IH _ _ _ A). reflexivity.
Qed.

Lemma getArray_at items padding b off rest : zlen items < 4294967296 ->
  zlen padding = pad4 (zlen items) ->
  at_ b off (wire_array items padding ++ rest) ->
  getArray b off = Ok (items, off + zlen (wire_array items padding)).
Proof.
  intros L P A. unfold wire_array in *. rewrite <- !app_assoc in A. pose proof (zlen_nonneg items).
  unfold getArray. rewrite (getSome_u32 _ _ _ _ A) by (unfold is_u32; lia). cbn [rbind].
  apply at_step in A. rewrite zlen_u32le in A.
  replace (Z.to_nat (zlen items)) with (List.length items) by (unfold zlen; lia).
  rewrite (getArray_items_at _ _ _ _ A). cbn [rbind]. do 2 f_equal.
  autorewrite with zlen. rewrite P. unfold pad4. destruct (zlen items mod 4 =? 0) eqn:Q; lia.
Qed.



Lemma getArray_items_res n : forall b off, 
  getArray_items n b off = Err EStruct \/
  (exists l, getArray_items n b off = Ok l /\ (n = O \/ off + Z.of_nat n <= zlen b)).
Proof.
  induction n as [|n IH]; intros b off; cbn [getArray_items]; [right; eexists; split; [reflexivity|left; reflexivity]|].
  unfold getSome, unpack_from. destruct ((0 <=? off) && (off + fsize FB <=? zlen b)) eqn:E; cbn [rbind]; [|left; reflexivity].
  cbn [fsize] in *. destruct (IH b (off + 1)) as [->|(l & -> & Hl)]; cbn [rbind]; [left; reflexivity|].
  right. eexists. split; [reflexivity|]. right. lia.
Qed.

(** if the count word fits but the items do not, struct.error *)
Lemma getArray_truncated b off n : getSome FI b off = Ok (n, off + 4) -> 0 < n ->
  zlen b < off + 4 + n -> getArray b off = Err EStruct.
Proof.
  intros G N L. unfold getArray. rewrite G. cbn [rbind].
  destruct (getArray_items_res (Z.to_nat n) b (off + 4)) as [->|(l & -> & [C|C])]; cbn [rbind]; [reflexivity|lia|lia].
Qed.
Lemma getArray_nocount b off : zlen b < off + 4 -> getArray b off = Err EStruct.
Proof. intros L. unfold getArray, getSome, unpack_from. cbn [fsize].
  replace ((0 <=? off) && (off + 4 <=? zlen b)) with false by lia. reflexivity. Qed.

(** Packaged forms used by Prop_Wire.v *)
Lemma string_rt_full utf_16 s : Forall scalar s ->
  exists e, encode utf_16 s = Ok e /\
  (zlen e < 2147483648 ->
   exists b, encodeMessageString s utf_16 = Ok b
     /\ b = wire_string utf_16 e /\ wf_bytes b /\ zlen b mod 4 = 0
     /\ decodeMessageString b = Ok s).
Proof.
  intros H. destruct (encode_ok utf_16 s H) as (e & E & _). exists e. split; [exact E|]. intros L.
  destruct (string_rt utf_16 s e H E L) as (b & B & D & M & W). exists b.
  pose proof (encodeMessageString_wire utf_16 s e E L) as B'.
  split; [exact B|]. split; [congruence|]. split; [exact W|]. split; [exact M|exact D].
Qed.

Lemma getString_field utf_16 s e before after : Forall scalar s -> encode utf_16 s = Ok e ->
  zlen e < 2147483644 ->
  exists t, stripped s t /\
  getString (before ++ wire_string utf_16 e ++ after) (zlen before)
  = Ok (t, zlen before + zlen (wire_string utf_16 e)).
Proof.
  intros H E L. exists (strip is_nul s). split; [apply strip_stripped|].
  apply (getString_at utf_16 s e _ _ after); [assumption..|]. exists before. split; reflexivity.
Qed.

Lemma getArray_field items padding before after :
  zlen items < 4294967296 -> zlen padding = pad4 (zlen items) ->
  getArray (before ++ wire_array items padding ++ after) (zlen before)
  = Ok (items, zlen before + zlen (wire_array items padding)).
Proof. intros L P. apply (getArray_at items padding _ _ after); [assumption..|]. exists before. split; reflexivity. Qed.

Lemma getArray_short n before short : 0 < n < 4294967296 -> zlen short < n ->
  getArray (before ++ u32le n ++ short) (zlen before) = Err EStruct.
Proof.
  intros N L. apply (getArray_truncated _ _ n); [|lia|].
  - apply (getSome_u32 _ _ _ short); [|unfold is_u32; lia]. exists before. split; reflexivity.
  - autorewrite with zlen. lia.
Qed.
Lemma getArray_nohdr before short : zlen short < 4 ->
  getArray (before ++ short) (zlen before) = Err EStruct.
Proof. intros L. apply getArray_nocount. autorewrite with zlen. lia. Qed.
