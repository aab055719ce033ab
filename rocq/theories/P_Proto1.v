(** Stream reassembly. *)
From Verif Require Import Py F64 Struct Utf Utility Spec P_Base P_Util Protocol.

Definition frames (ms : list (Z * Z * bytes)) : bytes := List.concat (map frame ms).

Lemma frame_prefix_free m1 m2 t1 t2 : wf_msg m1 -> wf_msg m2 ->
  frame m1 ++ t1 = frame m2 ++ t2 -> m1 = m2 /\ t1 = t2.
Proof.
  destruct m1 as [[i1 c1] p1], m2 as [[i2 c2] p2]. unfold wf_msg, is_u16.
  intros (I1 & C1 & W1 & L1) (I2 & C2 & W2 & L2) E. unfold frame in E. rewrite <- !app_assoc in E.
  pose proof (zlen_nonneg p1). pose proof (zlen_nonneg p2).
  apply app_inj_len in E; [|reflexivity]. destruct E as (Ei & E).
  apply app_inj_len in E; [|reflexivity]. destruct E as (Ec & E).
  apply app_inj_len in E; [|reflexivity]. destruct E as (El & E).
  assert (i1 = i2) as -> by (unfold u16le in Ei; injection Ei as ? ?; lia).
  assert (c1 = c2) as -> by (unfold u16le in Ec; injection Ec as ? ?; lia).
  assert (El' : zlen p1 = zlen p2) by (unfold u32le in El; injection El as ? ? ? ?; lia).
  apply app_inj_len in E; [|exact El']. destruct E as (-> & ->). split; reflexivity.
Qed.

Lemma frames_unique ms1 : forall ms2 r1 r2, Forall wf_msg ms1 -> Forall wf_msg ms2 ->
  incomplete r1 -> incomplete r2 -> frames ms1 ++ r1 = frames ms2 ++ r2 -> ms1 = ms2 /\ r1 = r2.
Proof.
  unfold frames. induction ms1 as [|m1 ms1 IH]; intros [|m2 ms2] r1 r2 W1 W2 I1 I2 E; cbn [map List.concat app] in E.
  - auto.
  - exfalso. apply Forall_inv in W2. rewrite <- app_assoc in E. exact (I1 _ _ W2 E).
  - exfalso. apply Forall_inv in W1. rewrite <- app_assoc in E. exact (I2 _ _ W1 (eq_sym E)).
  - inversion W1; inversion W2; subst. rewrite <- !app_assoc in E.
    apply frame_prefix_free in E; [|assumption..]. destruct E as (-> & E).
    apply IH in E; [|assumption..]. destruct E as (-> & ->). auto.
Qed.

Lemma incomplete_short b : zlen b < 8 -> incomplete b.
Proof. intros L m tl W ->. pose proof (frame_len m). pose proof (zlen_nonneg (snd m)). rewrite zlen_app in L.
  pose proof (zlen_nonneg tl). lia. Qed.

Lemma slice44_frame m tl : wf_msg m -> le_dec (slice 4 4 (frame m ++ tl)) = zlen (snd m).
Proof.
  destruct m as [[i c] p]. unfold wf_msg. intros (I & C & W & L). pose proof (zlen_nonneg p).
  assert (A : at_ (frame (i, c, p) ++ tl) 4 (u32le (zlen p) ++ p ++ tl)).
  { exists (u16le i ++ u16le c). unfold frame. rewrite <- !app_assoc. split; reflexivity. }
  change 4 with (zlen (u32le (zlen p))) at 2. rewrite (slice_at _ _ _ _ A). cbn [snd].
  unfold u32le. cbn [le_dec]. lia.
Qed.

Lemma cm_step m tl fuel : wf_msg m ->
  complete_messages (S fuel) (frame m ++ tl) =
  let (ms, rest) := complete_messages fuel tl in (Ok m :: ms, rest).
Proof.
  intros W. cbn [complete_messages]. pose proof (frame_len m) as L. pose proof (zlen_nonneg (snd m)).
  pose proof (zlen_nonneg tl). rewrite slice44_frame by assumption. unfold HEADER_LENGTH. rewrite zlen_app.
  replace (8 <=? zlen (frame m) + zlen tl) with true by lia.
  replace (8 + zlen (snd m) <=? zlen (frame m) + zlen tl) with true by lia.
  rewrite <- L, firstn_zlen_app, skipn_zlen_app.
  destruct (complete_messages fuel tl). destruct m as [[i c] p].
  destruct W as (I & C & Wp & Lp). rewrite takeMessage_frame by assumption. reflexivity.
Qed.

Lemma cm_frames ms : forall fuel rest, Forall wf_msg ms -> incomplete rest -> wf_bytes rest ->
  (List.length ms <= fuel)%nat ->
  complete_messages fuel (frames ms ++ rest) = (map Ok ms, rest).
Proof.
  unfold frames. induction ms as [|m ms IH]; intros fuel rest W I Wr F; cbn [map List.concat app].
  - destruct fuel as [|fuel]; [reflexivity|]. cbn [complete_messages].
    unfold HEADER_LENGTH. destruct (8 <=? zlen rest) eqn:E8; [|reflexivity].
    destruct (8 + le_dec (slice 4 4 rest) <=? zlen rest) eqn:E; [|reflexivity]. exfalso.
    (* a complete frame would contradict incompleteness *)
    assert (Wx : wf_bytes (slice 4 4 rest)) by (apply slice_wf; assumption).
    pose proof (le_dec_range _ Wx) as R. rewrite slice_len in R by lia. change (256 ^ 4) with 4294967296 in R.
    assert (T : zlen (firstn (Z.to_nat (8 + le_dec (slice 4 4 rest))) rest) = 8 + le_dec (slice 4 4 rest)).
    { unfold zlen at 1. rewrite firstn_length. unfold zlen in *. lia. }
    destruct (takeMessage_cases (firstn (Z.to_nat (8 + le_dec (slice 4 4 rest))) rest)) as [(m & Wm & Em & _)|[(L & _)|(h & n & r & Eb & Lh & Hn & Nn & _)]].
    + apply Forall_forall. intros x Hx. unfold wf_bytes in Wr. rewrite Forall_forall in Wr. apply Wr.
      rewrite <- (firstn_skipn (Z.to_nat (8 + le_dec (slice 4 4 rest))) rest). apply in_or_app. left. exact Hx.
    + apply (I m (skipn (Z.to_nat (8 + le_dec (slice 4 4 rest))) rest) Wm).
      rewrite <- Em. symmetry. apply firstn_skipn.
    + lia.
    + apply Nn. rewrite Eb in T. rewrite !zlen_app, Lh in T.
      assert (Es : slice 4 4 rest = u32le n).
      { assert (A : at_ rest 4 (u32le n ++ r ++ skipn (Z.to_nat (8 + le_dec (slice 4 4 rest))) rest)).
        { exists h. split; [|exact Lh].
          rewrite <- (firstn_skipn (Z.to_nat (8 + le_dec (slice 4 4 rest))) rest) at 1. rewrite Eb, <- !app_assoc. reflexivity. }
        pose proof (slice_at _ _ _ _ A) as Sl. exact Sl. }
      rewrite Es in T. change (zlen (u32le n)) with 4 in T.
      assert (le_dec (u32le n) = n) by (unfold u32le, is_u32 in *; cbn [le_dec]; lia). lia.
  - inversion W; subst. rewrite <- app_assoc. destruct fuel as [|fuel]; [cbn in F; lia|].
    rewrite cm_step by assumption. rewrite IH; [reflexivity|assumption..|cbn in F; lia].
Qed.

(** every byte string is frames followed by an incomplete rest *)
Lemma cm_decompose n : forall b, (List.length b <= n)%nat -> wf_bytes b ->
  exists ms rest, b = frames ms ++ rest /\ Forall wf_msg ms /\ incomplete rest /\ wf_bytes rest.
Proof.
  induction n as [|n IH]; intros b L W.
  - exists [], b. destruct b; [|cbn in L; lia]. repeat split; auto. apply incomplete_short. cbn. lia.
  - destruct (Z_lt_ge_dec (zlen b) 8) as [S8|G8].
    { exists [], b. repeat split; auto. apply incomplete_short; assumption. }
    pose (d := le_dec (slice 4 4 b)).
    assert (Wx : wf_bytes (slice 4 4 b)) by (apply slice_wf; assumption).
    pose proof (le_dec_range _ Wx) as R. rewrite slice_len in R by lia. change (256 ^ 4) with 4294967296 in R.
    fold d in R.
    destruct (Z_le_gt_dec (8 + d) (zlen b)) as [C|N].
    + destruct (at_split b 0 (8 + d)) as (x & r & A & Lx); [lia..|].
      assert (E : b = x ++ r). { destruct A as (pre & -> & P). apply zlen_0 in P. subst pre. reflexivity. }
      assert (Wxr := W). rewrite E in Wxr. apply wf_app in Wxr. destruct Wxr as (Wx1 & Wr).
      destruct (takeMessage_cases x Wx1) as [(m & Wm & Em & _)|[(Lz & _)|(h & k & rr & Eb & Lh & Hk & Nk & _)]].
      * destruct (IH r) as (ms & rest & Er & Wms & I & Wrest).
        { assert (0 < zlen x) by lia. rewrite E, app_length in L. unfold zlen in *. lia. }
        { exact Wr. }
        exists (m :: ms), rest. unfold frames. cbn [map List.concat]. rewrite <- app_assoc. fold (frames ms).
        rewrite <- Er, <- Em. auto.
      * lia.
      * exfalso. apply Nk. 
        assert (Ed : slice 4 4 b = u32le k).
        { assert (A2 : at_ b 4 (u32le k ++ rr ++ r)).
          { exists h. split; [|exact Lh]. rewrite E, Eb, <- !app_assoc. reflexivity. }
          exact (slice_at _ _ _ _ A2). }
        assert (le_dec (u32le k) = k) by (unfold u32le, is_u32 in *; cbn [le_dec]; lia).
        unfold d in *. rewrite Ed in *. rewrite Eb, !zlen_app, Lh in Lx. change (zlen (u32le k)) with 4 in Lx. lia.
    + exists [], b. repeat split; auto. intros m tl Wm ->.
      assert (Ed : d = zlen (snd m)) by (apply slice44_frame; assumption).
      pose proof (frame_len m). rewrite zlen_app in N. pose proof (zlen_nonneg tl). lia.
Qed.

Lemma cm_spec b : wf_bytes b -> exists ms rest,
  complete_messages (List.length b) b = (map Ok ms, rest) /\ b = frames ms ++ rest
  /\ Forall wf_msg ms /\ incomplete rest /\ wf_bytes rest.
Proof.
  intros W. destruct (cm_decompose (List.length b) b (le_n _) W) as (ms & rest & E & Wm & I & Wr).
  exists ms, rest. split; [|auto]. rewrite E at 2. apply cm_frames; auto.
  rewrite E, app_length. pose proof (concat_frames_len ms). unfold frames. lia.
Qed.

(** deliver touches futures, collection and log only *)
Lemma deliver_buff s m : p_buff (deliver s m) = p_buff s.
Proof.
  unfold deliver, mark_done. destruct (zget (msg_id m) (p_coll s)) as [f|]; cbn [up_futs p_futs p_coll].
  - destruct (fget f (p_futs s)); cbn; try reflexivity; destruct (zget (msg_code m) (p_cbs s)); reflexivity.
  - destruct (zget (msg_code m) (p_cbs s)); reflexivity.
Qed.
Lemma deliver_up_buff b s m : deliver (up_buff b s) m = up_buff b (deliver s m).
Proof.
  unfold deliver, mark_done. cbn [up_buff p_coll p_futs p_cbs].
  destruct (zget (msg_id m) (p_coll s)) as [f|]; cbn [up_futs up_buff p_futs p_coll p_cbs].
  - destruct (fget f (p_futs s)); cbn; try reflexivity; destruct (zget (msg_code m) (p_cbs s)); reflexivity.
  - destruct (zget (msg_code m) (p_cbs s)); reflexivity.
Qed.
Lemma deliver_closing s m : p_closing (deliver s m) = p_closing s.
Proof.
  unfold deliver, mark_done. destruct (zget (msg_id m) (p_coll s)) as [f|]; cbn [up_futs p_futs p_coll].
  - destruct (fget f (p_futs s)); cbn; try reflexivity; destruct (zget (msg_code m) (p_cbs s)); reflexivity.
  - destruct (zget (msg_code m) (p_cbs s)); reflexivity.
Qed.
Lemma deliver_transport s m : p_transport (deliver s m) = p_transport s.
Proof.
  unfold deliver, mark_done. destruct (zget (msg_id m) (p_coll s)) as [f|]; cbn [up_futs p_futs p_coll].
  - destruct (fget f (p_futs s)); cbn; try reflexivity; destruct (zget (msg_code m) (p_cbs s)); reflexivity.
  - destruct (zget (msg_code m) (p_cbs s)); reflexivity.
Qed.
Lemma delivers_proj {A} (proj : pstate -> A) : (forall s m, proj (deliver s m) = proj s) ->
  forall ms s, proj (fold_left deliver ms s) = proj s.
Proof. intros H ms. induction ms as [|m ms IH]; intros s; cbn [fold_left]; [reflexivity|]. rewrite IH. apply H. Qed.
Lemma delivers_up_buff b ms : forall s, fold_left deliver ms (up_buff b s) = up_buff b (fold_left deliver ms s).
Proof. induction ms as [|m ms IH]; intros s; cbn [fold_left]; [reflexivity|]. rewrite deliver_up_buff. apply IH. Qed.

Lemma deliver_res_Ok ms : forall s, fold_left deliver_res (map Ok ms) s = fold_left deliver ms s.
Proof. induction ms as [|m ms IH]; intros s; cbn [map fold_left]; [reflexivity|]. apply IH. Qed.

Lemma up_buff_twice a b s : up_buff a (up_buff b s) = up_buff a s.
Proof. reflexivity. Qed.
Lemma up_buff_id s : up_buff (p_buff s) s = s.
Proof. destruct s; reflexivity. Qed.

(** data_received, characterised by the decomposition into frames *)
Lemma data_received_frames s data ms rest : p_closing s = false ->
  wf_bytes (p_buff s ++ data) -> p_buff s ++ data = frames ms ++ rest -> Forall wf_msg ms -> incomplete rest ->
  data_received data s = up_buff rest (fold_left deliver ms s).
Proof.
  intros C W E Wm I. unfold data_received. rewrite C.
  destruct (cm_spec _ W) as (ms' & rest' & -> & E' & Wm' & I' & _).
  destruct (frames_unique ms ms' rest rest') as (-> & ->); auto; [congruence|].
  rewrite deliver_res_Ok, delivers_up_buff. reflexivity.
Qed.

Lemma frames_app a b : frames (a ++ b) = frames a ++ frames b.
Proof. unfold frames. rewrite map_app, concat_app. reflexivity. Qed.

Lemma data_received_app s a b : wf_bytes (p_buff s ++ a ++ b) ->
  data_received b (data_received a s) = data_received (a ++ b) s.
Proof.
  intros W. destruct (p_closing s) eqn:C.
  { unfold data_received at 2 3. rewrite C. unfold data_received. rewrite C. reflexivity. }
  assert (Wa : wf_bytes (p_buff s ++ a)) by (rewrite app_assoc in W; apply wf_app in W; tauto).
  assert (Wb : wf_bytes b) by (rewrite !wf_app in W; tauto).
  destruct (cm_spec _ Wa) as (ms1 & r1 & _ & E1 & W1 & I1 & Wr1).
  rewrite (data_received_frames s a ms1 r1 C Wa E1 W1 I1).
  assert (W2 : wf_bytes (r1 ++ b)) by (apply wf_app; auto).
  destruct (cm_spec _ W2) as (ms2 & r2 & _ & E2 & Wm2 & I2 & Wr2).
  rewrite (data_received_frames (up_buff r1 (fold_left deliver ms1 s)) b ms2 r2); auto.
  - rewrite (data_received_frames s (a ++ b) (ms1 ++ ms2) r2); auto.
    + rewrite fold_left_app, delivers_up_buff. reflexivity.
    + rewrite app_assoc, E1, <- app_assoc, E2, app_assoc, <- frames_app. reflexivity.
    + apply Forall_app; auto.
  - cbn [up_buff p_closing]. rewrite (delivers_proj p_closing deliver_closing). exact C.
Qed.

(** the connection phase does not change while data arrives *)
Lemma data_received_transport b s : p_transport (data_received b s) = p_transport s.
Proof.
  unfold data_received. destruct (p_closing s); [reflexivity|].
  destruct (complete_messages _ _) as [ms rest].
  assert (G : forall l s0, p_transport (fold_left deliver_res l s0) = p_transport s0).
  { induction l as [|[m|e] l IH]; intros s0; cbn [fold_left deliver_res]; [reflexivity| |apply IH].
    rewrite IH. apply deliver_transport. }
  rewrite G. reflexivity.
Qed.

Lemma chunks_once chunks : forall s, chunks <> [] -> wf_bytes (p_buff s) -> Forall wf_bytes chunks ->
  prun s (map EvData chunks) = prun s [EvData (List.concat chunks)].
Proof.
  induction chunks as [|a chunks IH]; intros s N W F; [congruence|].
  destruct chunks as [|b chunks].
  - cbn [map List.concat prun fold_left]. rewrite app_nil_r. reflexivity.
  - inversion F as [|? ? Wa Fr]; subst. 
    change (prun s (map EvData (a :: b :: chunks))) with (prun (pstep s (EvData a)) (map EvData (b :: chunks))).
    assert (Wc : wf_bytes (List.concat (b :: chunks))).
    { clear -Fr. induction Fr; cbn [List.concat]; [constructor|]. apply wf_app; auto. }
    rewrite IH; [|discriminate| |assumption].
    + unfold prun. cbn [fold_left pstep]. destruct (p_transport s) eqn:T; try rewrite T; try reflexivity;
        rewrite data_received_transport, T; change (List.concat (a :: b :: chunks)) with (a ++ List.concat (b :: chunks));
        apply data_received_app; rewrite !wf_app; auto.
    + cbn [pstep]. destruct (p_transport s); try exact W;
        (unfold data_received; destruct (p_closing s); [exact W|];
         destruct (cm_spec (p_buff s ++ a)) as (ms & r & -> & _ & _ & _ & Wr); [apply wf_app; auto|];
         rewrite deliver_res_Ok, (delivers_proj p_buff deliver_buff); exact Wr).
Qed.
