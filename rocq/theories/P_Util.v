(** Proofs about requests/utility.py (C01-C03, C06-C10). *)
From Verif Require Import Py F64 Struct Utf Utility Spec P_Base.

(** ---- C01 / C02 ---- *)
Lemma pack_u_ok n v : 0 <= v < 256 ^ Z.of_nat n -> pack_u n v = Ok (le_enc n v).
Proof. intros H. unfold pack_u. destruct ((0 <=? v) && (v <? 256 ^ Z.of_nat n)) eqn:E; [reflexivity|lia]. Qed.
Lemma pack_u_err n v : ~ (0 <= v < 256 ^ Z.of_nat n) -> pack_u n v = Err EStruct.
Proof. intros H. unfold pack_u. destruct ((0 <=? v) && (v <? 256 ^ Z.of_nat n)) eqn:E; [lia|reflexivity]. Qed.
Lemma pow256_2 : 256 ^ Z.of_nat 2 = 65536. Proof. reflexivity. Qed.
Lemma pow256_4 : 256 ^ Z.of_nat 4 = 4294967296. Proof. reflexivity. Qed.

Lemma makeMessage_spec id code payload :
  makeMessage id code payload =
  if (0 <=? id) && (id <? 65536) && (0 <=? code) && (code <? 65536) && (zlen payload <? 4294967296)
  then Ok (frame (id, code, payload)) else Err EStruct.
Proof.
  pose proof (zlen_nonneg payload). unfold makeMessage.
  destruct (_ && _) eqn:E.
  - rewrite !pack_u_ok by (rewrite ?pow256_2, ?pow256_4; lia). cbn [rbind].
    unfold frame. rewrite u32le_enc. reflexivity.
  - unfold pack_u. rewrite pow256_2, pow256_4.
    destruct ((0 <=? id) && (id <? 65536)) eqn:E1; cbn [rbind]; [|reflexivity].
    destruct ((0 <=? code) && (code <? 65536)) eqn:E2; cbn [rbind]; [|reflexivity].
    destruct ((0 <=? zlen payload) && (zlen payload <? 4294967296)) eqn:E3; cbn [rbind]; [lia|reflexivity].
Qed.

Lemma makeMessage_ok m : wf_msg m ->
  makeMessage (fst (fst m)) (snd (fst m)) (snd m) = Ok (frame m).
Proof.
  destruct m as [[id code] p]; unfold wf_msg, is_u16; cbn [fst snd]; intros (H1 & H2 & H3 & H4).
  rewrite makeMessage_spec. replace (_ && _) with true by lia. reflexivity.
Qed.

Lemma takeMessage_frame id code payload :
  is_u16 id -> is_u16 code -> zlen payload < 4294967296 ->
  takeMessage (frame (id, code, payload)) = Ok (id, code, payload).
Proof.
  unfold is_u16; intros Hi Hc Hl. unfold takeMessage, frame, HEADER_LENGTH.
  set (b := u16le id ++ u16le code ++ u32le (zlen payload) ++ payload).
  pose proof (zlen_nonneg payload) as Hp.
  assert (L : zlen b = 8 + zlen payload) by (unfold b; autorewrite with zlen; lia).
  replace (zlen b - 8 <? 0) with false by lia.
  assert (A0 : at_ b 0 (u16le id ++ (u16le code ++ u32le (zlen payload) ++ payload))) by apply at_start.
  pose proof (at_step _ _ _ _ A0) as A1. rewrite zlen_u16le in A1.
  pose proof (at_step _ _ _ _ A1) as A2. rewrite zlen_u16le in A2.
  pose proof (at_step _ _ _ _ A2) as A3. rewrite zlen_u32le in A3.
  pose proof (slice_at _ _ _ _ A0) as S0. pose proof (slice_at _ _ _ _ A1) as S1.
  pose proof (slice_at _ _ _ _ A2) as S2.
  assert (S3 : slice 8 (zlen payload) b = payload).
  { apply (slice_at b 8 payload []). rewrite app_nil_r. exact A3. }
  change (zlen (u16le id)) with 2 in S0. change (zlen (u16le code)) with 2 in S1.
  change (zlen (u32le (zlen payload))) with 4 in S2.
  replace (zlen b - 8) with (zlen payload) by lia.
  cbn [Z.add Pos.add] in *.
  rewrite S0, S1, S2, S3, u32le_enc. change (u16le id) with (le_enc 2 id). change (u16le code) with (le_enc 2 code).
  rewrite !le_dec_enc by (rewrite ?pow256_2, ?pow256_4; lia).
  rewrite Z.eqb_refl. reflexivity.
Qed.

Lemma take_make id code payload b :
  makeMessage id code payload = Ok b -> takeMessage b = Ok (id, code, payload).
Proof.
  rewrite makeMessage_spec. destruct (_ && _) eqn:E; [|discriminate].
  intros H; injection H as <-. apply takeMessage_frame; unfold is_u16; lia.
Qed.

Lemma split8 (b : bytes) : 8 <= zlen b ->
  exists x0 x1 x2 x3 x4 x5 x6 x7 r, b = x0::x1::x2::x3::x4::x5::x6::x7::r.
Proof.
  intros H. do 8 (destruct b as [|? b]; [unfold zlen in H; cbn [List.length] in H; lia|]).
  do 9 eexists. reflexivity.
Qed.

Lemma takeMessage_inv b id code payload :
  wf_bytes b -> takeMessage b = Ok (id, code, payload) ->
  b = frame (id, code, payload) /\ wf_msg (id, code, payload).
Proof.
  intros W. unfold takeMessage, HEADER_LENGTH.
  destruct (zlen b - 8 <? 0) eqn:E; [discriminate|].
  destruct (split8 b) as (x0 & x1 & x2 & x3 & x4 & x5 & x6 & x7 & r & ->); [lia|].
  replace (slice 0 2 _) with [x0; x1] by reflexivity.
  replace (slice 2 2 _) with [x2; x3] by reflexivity.
  replace (slice 4 4 _) with [x4; x5; x6; x7] by reflexivity.
  replace (zlen (x0 :: x1 :: x2 :: x3 :: x4 :: x5 :: x6 :: x7 :: r) - 8) with (zlen r)
    by (rewrite !zlen_cons; lia).
  replace (slice 8 (zlen r) _) with r.
  2:{ unfold slice, zlen. rewrite Nat2Z.id. symmetry. apply firstn_all. }
  destruct (le_dec [x4; x5; x6; x7] =? zlen r) eqn:El; cbn [negb]; [|discriminate].
  intros H. apply Z.eqb_eq in El.
  assert (id = le_dec [x0; x1]) as -> by congruence.
  assert (code = le_dec [x2; x3]) as -> by congruence.
  assert (payload = r) as -> by congruence. clear H.
  inv_bytes. unfold is_byte in *.
  split.
  - unfold frame. rewrite <- El, u32le_dec, !u16le_dec; try reflexivity; repeat constructor; unfold is_byte; lia.
  - cbn [wf_msg]. unfold wf_msg, is_u16. cbn [le_dec] in *. repeat split; try lia. assumption.
Qed.

Lemma takeMessage_short b : zlen b < 8 -> takeMessage b = Err EStruct.
Proof. intros H. unfold takeMessage, HEADER_LENGTH. replace (zlen b - 8 <? 0) with true by lia. reflexivity. Qed.

Lemma takeMessage_mismatch b : 8 <= zlen b ->
  le_dec (slice 4 4 b) <> zlen b - 8 -> takeMessage b = Err ESLError.
Proof. intros H N. unfold takeMessage, HEADER_LENGTH. replace (zlen b - 8 <? 0) with false by lia.
  apply Z.eqb_neq in N. rewrite N. reflexivity. Qed.

(** ---- C10 ---- *)
Definition denotes (f : fmt) (x : bytes) : Z :=
  match f, x with
  | FB, [a] => a
  | FH, [a; b] => a + 256 * b
  | FI, [a; b; c; d] => a + 256 * b + 65536 * c + 16777216 * d
  | Fi, [a; b; c; d] => a + 256 * b + 65536 * c + 16777216 * d - (if 128 <=? d then 4294967296 else 0)
  | FbH, [a; b] => 256 * a + b
  | FbI, [a; b; c; d] => 16777216 * a + 65536 * b + 256 * c + d
  | _, _ => 0
  end.

Lemma funpack_denotes f x : wf_bytes x -> zlen x = fsize f -> funpack f x = denotes f x.
Proof.
  intros W E.
  assert (L : List.length x = Z.to_nat (fsize f)) by (unfold zlen in E; lia).
  destruct f; cbn [fsize] in *; change (Z.to_nat 1) with 1%nat in *; change (Z.to_nat 2) with 2%nat in *;
  change (Z.to_nat 4) with 4%nat in *;
  repeat (destruct x as [|? x]; cbn [List.length] in L; try discriminate);
  inv_bytes;
  unfold is_byte in *; cbn [funpack denotes]; unfold be_dec; cbn [rev app le_dec];
  unfold to_signed32; try lia.
  change (2 ^ 31) with 2147483648. change (2 ^ 32) with 4294967296.
  repeat match goal with |- context [if ?c then _ else _] => destruct c eqn:? end; lia.
Qed.

Lemma slice_wf b off n : wf_bytes b -> wf_bytes (slice off n b).
Proof.
  intros W. unfold slice. apply Forall_forall. intros x Hx. unfold wf_bytes in W.
  rewrite Forall_forall in W. apply W.
  rewrite <- (firstn_skipn (Z.to_nat off) b). apply in_or_app. right.
  rewrite <- (firstn_skipn (Z.to_nat n) (skipn (Z.to_nat off) b)). apply in_or_app. left. exact Hx.
Qed.

Lemma slice_len b off n : 0 <= off -> 0 <= n -> off + n <= zlen b -> zlen (slice off n b) = n.
Proof. intros. unfold slice, zlen in *. rewrite firstn_length, skipn_length. lia. Qed.

Lemma fsize_pos f : 0 < fsize f. Proof. destruct f; reflexivity. Qed.

Lemma getSome_spec f b off : wf_bytes b -> 0 <= off ->
  getSome f b off =
  if off + fsize f <=? zlen b
  then Ok (denotes f (firstn (Z.to_nat (fsize f)) (skipn (Z.to_nat off) b)), off + fsize f)
  else Err EStruct.
Proof.
  intros W Ho. unfold getSome, unpack_from. pose proof (fsize_pos f). replace (0 <=? off) with true by lia. cbn [andb].
  destruct (off + fsize f <=? zlen b) eqn:E; cbn [rbind]; [|reflexivity].
  rewrite funpack_denotes; [reflexivity | apply slice_wf; exact W | apply slice_len; lia].
Qed.

(** ---- C03 ---- *)
Lemma loop_frames ms : Forall wf_msg ms ->
  forall fuel b pos acc, at_ b pos (List.concat (map frame ms)) -> (List.length ms <= fuel)%nat ->
  takeMessages_loop fuel b pos acc = Some (Ok (acc ++ ms)).
Proof.
  induction 1 as [|m ms Hm Hms IH]; intros fuel b pos acc A F.
  - cbn [map List.concat] in A. pose proof (at_len _ _ _ A) as L. rewrite zlen_nil in L.
    destruct fuel; cbn [takeMessages_loop]; replace (pos <? zlen b) with false by lia;
      rewrite app_nil_r; reflexivity.
  - cbn [map List.concat] in A. destruct fuel as [|fuel]; [cbn in F; lia|].
    destruct m as [[id code] p]. cbn [wf_msg] in Hm. unfold wf_msg in Hm. destruct Hm as (Hi & Hc & Hp & Hl).
    unfold frame in A at 1. rewrite <- !app_assoc in A.
    pose proof (at_len _ _ _ A) as L. autorewrite with zlen in L.
    pose proof (zlen_nonneg p). pose proof (zlen_nonneg (List.concat (map frame ms))).
    cbn [takeMessages_loop]. replace (pos <? zlen b) with true by lia.
    rewrite (getSome_u16 _ _ _ _ A Hi). apply at_step in A. rewrite zlen_u16le in A.
    rewrite (getSome_u16 _ _ _ _ A Hc). apply at_step in A. rewrite zlen_u16le in A.
    rewrite (getSome_u32 _ _ _ _ A) by (unfold is_u32; lia). apply at_step in A. rewrite zlen_u32le in A.
    rewrite (getSomeBytes_at _ _ _ _ A). apply at_step in A.
    rewrite IH; [rewrite <- app_assoc; reflexivity | exact A | cbn in F; lia].
Qed.

Lemma frame_len m : zlen (frame m) = 8 + zlen (snd m).
Proof. destruct m as [[a b] p]. unfold frame. autorewrite with zlen. cbn [snd]. lia. Qed.

Lemma concat_frames_len ms : (List.length ms <= List.length (List.concat (map frame ms)))%nat.
Proof.
  induction ms as [|m ms IH]; cbn [map List.concat List.length]; [lia|].
  rewrite app_length. pose proof (frame_len m) as L. unfold zlen in L.
  pose proof (zlen_nonneg (snd m)). unfold zlen in *. lia.
Qed.

Lemma takeMessages_frames ms : Forall wf_msg ms ->
  takeMessages (List.concat (map frame ms)) = Some (Ok ms).
Proof.
  intros H. unfold takeMessages. rewrite (loop_frames ms H); [reflexivity | apply at_start |].
  apply concat_frames_len.
Qed.

(** a 16/32-bit field read from well-formed bytes writes back the same bytes *)
Lemma getSome_inv f b off v off' : wf_bytes b -> 0 <= off -> getSome f b off = Ok (v, off') ->
  off' = off + fsize f /\ off + fsize f <= zlen b
  /\ exists x rest, at_ b off (x ++ rest) /\ zlen x = fsize f /\ wf_bytes x /\ v = funpack f x.
Proof.
  intros W Ho. unfold getSome, unpack_from. pose proof (fsize_pos f). replace (0 <=? off) with true by lia. cbn [andb].
  destruct (off + fsize f <=? zlen b) eqn:E; cbn [rbind]; [|discriminate].
  intros H0; injection H0 as <- <-. split; [reflexivity|]. split; [lia|].
  destruct (at_split b off (fsize f)) as (x & rest & A & Hx); [lia..|].
  exists x, rest. repeat split; auto.
  - destruct A as (pre & -> & _). apply wf_app in W as [_ W]. apply wf_app in W. tauto.
  - rewrite <- Hx, (slice_at _ _ _ _ A). reflexivity.
Qed.

Lemma getSomeBytes_inv n b off v off' : 0 <= off -> getSomeBytes n b off = Ok (v, off') ->
  off' = off + n /\ 0 <= n /\ off + n <= zlen b /\ exists rest, at_ b off (v ++ rest) /\ zlen v = n.
Proof.
  intros Ho. unfold getSomeBytes, unpack_bytes_from. replace (0 <=? off) with true by lia. cbn [andb].
  destruct ((0 <=? n) && (off + n <=? zlen b)) eqn:E; cbn [rbind]; [|discriminate].
  intros H0; injection H0 as <- <-. repeat split; try lia.
  destruct (at_split b off n) as (x & rest & A & Hx); [lia..|].
  exists rest. rewrite <- Hx, (slice_at _ _ _ _ A). auto.
Qed.

(** the loop ends, raises only ScreenLogicError, and a returned list is the whole buffer *)
Lemma loop_sound fuel : forall b pos acc, wf_bytes b -> 0 <= pos <= zlen b ->
  (zlen b - pos <= Z.of_nat fuel) ->
  exists r, takeMessages_loop fuel b pos acc = Some r /\
  match r with
  | Err e => e = ESLError
  | Ok ms => exists new, ms = acc ++ new /\ Forall wf_msg new /\ at_ b pos (List.concat (map frame new))
  end.
Proof.
  induction fuel as [|fuel IH]; intros b pos acc W P F.
  - cbn [takeMessages_loop]. replace (pos <? zlen b) with false by lia.
    eexists; split; [reflexivity|]. exists []. rewrite app_nil_r. repeat split; [constructor|].
    cbn. exists b. rewrite app_nil_r. split; [reflexivity|lia].
  - cbn [takeMessages_loop]. destruct (pos <? zlen b) eqn:Hlt.
    2:{ eexists; split; [reflexivity|]. exists []. rewrite app_nil_r. repeat split; [constructor|].
        cbn. exists b. rewrite app_nil_r. split; [reflexivity|lia]. }
    destruct (getSome FH b pos) as [[id p1]|e1] eqn:E1; [|eexists; split; reflexivity].
    apply getSome_inv in E1 as (-> & L1 & x1 & r1 & A1 & Z1 & W1 & ->); [|exact W|lia].
    destruct (getSome FH b (pos + fsize FH)) as [[code p2]|e2] eqn:E2; [|eexists; split; reflexivity].
    apply getSome_inv in E2 as (-> & L2 & x2 & r2 & A2 & Z2 & W2 & ->); [|exact W|cbn [fsize] in *; lia].
    destruct (getSome FI b (pos + fsize FH + fsize FH)) as [[n p3]|e3] eqn:E3; [|eexists; split; reflexivity].
    apply getSome_inv in E3 as (-> & L3 & x3 & r3 & A3 & Z3 & W3 & En); [|exact W|cbn [fsize] in *; lia].
    cbn [fsize] in *.
    destruct (getSomeBytes n b (pos + 2 + 2 + 4)) as [[p p4]|e4] eqn:E4; [|eexists; split; reflexivity].
    apply getSomeBytes_inv in E4 as (-> & N0 & L4 & r4 & A4 & Z4); [|lia].
    destruct (IH b (pos + 2 + 2 + 4 + n) (acc ++ [(funpack FH x1, funpack FH x2, p)]) W ltac:(lia) ltac:(lia))
      as (r & Er & Hr).
    exists r. split; [exact Er|]. destruct r as [ms|e]; [|exact Hr].
    destruct Hr as (new & -> & Fn & An).
    exists ((funpack FH x1, funpack FH x2, p) :: new). rewrite <- app_assoc. split; [reflexivity|].
    assert (Wp : wf_bytes p).
    { destruct A4 as (pre & Eb & _). rewrite Eb in W. apply wf_app in W as [_ W]. apply wf_app in W. tauto. }
    pose proof (le_dec_range _ W1) as R1. pose proof (le_dec_range _ W2) as R2.
    pose proof (le_dec_range _ W3) as R3. rewrite Z1 in R1. rewrite Z2 in R2. rewrite Z3 in R3.
    cbn [funpack] in *.
    split.
    + constructor; [|exact Fn]. unfold wf_msg, is_u16. repeat split; try lia; try exact Wp.
    + cbn [map List.concat]. unfold frame at 1.
      rewrite Z4, En, u32le_dec, !u16le_dec by assumption.
      (* chain the positions *)
      pose proof (at_unique _ _ _ _ (at_step _ _ _ _ A1) (eq_rect_r (fun z => at_ b (pos + z) _) A2 Z1)) as C1.
      pose proof (at_unique _ _ _ _ (at_step _ _ _ _ A2) (eq_rect_r (fun z => at_ b (pos + 2 + z) _) A3 Z2)) as C2.
      pose proof (at_unique _ _ _ _ (at_step _ _ _ _ A3) (eq_rect_r (fun z => at_ b (pos + 2 + 2 + z) _) A4 Z3)) as C3.
      pose proof (at_unique _ _ _ _ (at_step _ _ _ _ A4) (eq_rect_r (fun z => at_ b (pos + 2 + 2 + 4 + z) _) An Z4)) as C4.
      rewrite <- !app_assoc, <- C4, <- C3, <- C2, <- C1. exact A1.
Qed.

Lemma takeMessages_total b : wf_bytes b ->
  (exists ms, takeMessages b = Some (Ok ms) /\ Forall wf_msg ms /\ b = List.concat (map frame ms))
  \/ takeMessages b = Some (Err ESLError).
Proof.
  intros W. unfold takeMessages.
  destruct (loop_sound (List.length b) b 0 [] W) as (r & -> & Hr).
  { pose proof (zlen_nonneg b). lia. } { unfold zlen. lia. }
  destruct r as [ms|e]; [|right; rewrite Hr; reflexivity].
  left. destruct Hr as (new & -> & Fn & A). exists new. cbn [app]. repeat split; auto.
  apply (at_unique b 0); [apply at_start | exact A].
Qed.

(** Packaged forms used by Prop_Wire.v *)
Lemma takeMessage_cases b : wf_bytes b ->
  (exists m, wf_msg m /\ b = frame m /\ takeMessage b = Ok m)
  \/ (zlen b < 8 /\ takeMessage b = Err EStruct)
  \/ (exists h n rest, b = h ++ u32le n ++ rest /\ zlen h = 4 /\ is_u32 n /\ n <> zlen rest
      /\ takeMessage b = Err ESLError).
Proof.
  intros W. destruct (Z_lt_ge_dec (zlen b) 8) as [L|G].
  { right; left. split; [exact L|apply takeMessage_short; exact L]. }
  destruct (takeMessage b) as [[[id code] p]|e] eqn:E.
  { left. exists (id, code, p). destruct (takeMessage_inv _ _ _ _ W E) as (-> & Wm). auto. }
  right; right.
  destruct (split8 b ltac:(lia)) as (x0 & x1 & x2 & x3 & x4 & x5 & x6 & x7 & r & ->).
  assert (Wx : wf_bytes [x4;x5;x6;x7]).
  { change (x0::x1::x2::x3::x4::x5::x6::x7::r) with ([x0;x1;x2;x3] ++ [x4;x5;x6;x7] ++ r) in W.
    apply wf_app in W. destruct W as (_ & W). apply wf_app in W. tauto. }
  exists [x0;x1;x2;x3], (le_dec [x4;x5;x6;x7]), r.
  rewrite (u32le_dec _ Wx eq_refl). split; [reflexivity|]. split; [reflexivity|].
  pose proof (le_dec_range _ Wx) as R. change (256 ^ zlen [x4;x5;x6;x7]) with 4294967296 in R.
  split; [exact R|].
  revert E. unfold takeMessage, HEADER_LENGTH.
  change (slice 4 4 (x0::x1::x2::x3::x4::x5::x6::x7::r)) with [x4;x5;x6;x7].
  replace (zlen (x0::x1::x2::x3::x4::x5::x6::x7::r) - 8) with (zlen r)
    by (rewrite !zlen_cons; lia).
  pose proof (zlen_nonneg r). replace (zlen r <? 0) with false by lia.
  destruct (le_dec [x4;x5;x6;x7] =? zlen r) eqn:D; cbn [negb]; [discriminate|].
  intros E. split; [lia|]. congruence.
Qed.

Lemma takeMessage_only b id code payload : wf_bytes b ->
  takeMessage b = Ok (id, code, payload) -> b = frame (id, code, payload) /\ makeMessage id code payload = Ok b.
Proof.
  intros W E. destruct (takeMessage_inv _ _ _ _ W E) as (-> & Wm). split; [reflexivity|].
  exact (makeMessage_ok _ Wm).
Qed.

Lemma takeMessages_exact b : wf_bytes b ->
  (exists ms, takeMessages b = Some (Ok ms) /\ Forall wf_msg ms /\ b = List.concat (map frame ms))
  \/ ((forall ms, Forall wf_msg ms -> b <> List.concat (map frame ms)) /\ takeMessages b = Some (Err ESLError)).
Proof.
  intros W. destruct (takeMessages_total b W) as [H|H]; [left; exact H|right].
  split; [|exact H]. intros ms Hm ->. rewrite (takeMessages_frames ms Hm) in H. discriminate.
Qed.
