(** Version and date/time decoding. *)
From Verif Require Import Py F64 Struct Utf Utility Const Enum Decode Spec Messages Meaning Shape P_Base P_Util P_Str P_Time P_Dict P_Idem P_Shape P_Trace P_Does P_Facts P_Vals1.

Lemma split_spaces sp rest : Forall (fun c => is_space c = true) sp -> split_aux (sp ++ rest) [] = split_aux rest [].
Proof. induction 1 as [|c sp H _ IH]; [reflexivity|]. cbn [app split_aux]. rewrite H. exact IH. Qed.
Lemma split_word w : forall cur rest, Forall (fun c => is_space c = false) w ->
  split_aux (w ++ rest) cur = split_aux rest (rev w ++ cur).
Proof.
  induction w as [|c w IH]; intros cur rest H; [reflexivity|]. inversion H; subst. cbn [app split_aux].
  match goal with E : is_space c = false |- _ => rewrite E end. rewrite IH by assumption. cbn [rev]. rewrite <- app_assoc. reflexivity.
Qed.
Lemma words_split s ws : words s ws -> split s = ws.
Proof.
  unfold split. induction 1 as [sp H|sp w rest ws H N Hw Hr _ IH].
  - rewrite <- (app_nil_r sp), split_spaces by exact H. reflexivity.
  - rewrite split_spaces by exact H. rewrite split_word by exact Hw. rewrite app_nil_r.
    assert (R : rev w <> []) by (intros E; apply N; apply (f_equal (@rev Z)) in E; rewrite rev_involutive in E; exact E).
    destruct Hr as [->|(c & r & -> & Hc)].
    + cbn [split_aux] in *. rewrite <- IH. destruct (rev w) eqn:E; [congruence|]. rewrite <- E, rev_involutive. reflexivity.
    + cbn [split_aux] in *. rewrite Hc in *. destruct (rev w) eqn:E; [congruence|]. rewrite <- E, rev_involutive.
      f_equal. exact IH.
Qed.
Lemma words_exist s : words s (split s).
Proof.
  enough (E : exists ws, words s ws) by (destruct E as (ws & E); rewrite (words_split _ _ E); exact E).
  assert (G : forall n s, (List.length s <= n)%nat -> exists ws, words s ws); [|apply (G (List.length s)); lia].
  clear s. induction n as [|n IH]; intros s L.
  - destruct s; [|cbn in L; lia]. exists []. constructor. constructor.
  - assert (S : exists sp r, s = sp ++ r /\ Forall (fun c => is_space c = true) sp /\ (r = [] \/ exists c t, r = c :: t /\ is_space c = false)).
    { clear. induction s as [|c s (sp & r & -> & H & R)]; [exists [], []; auto|].
      destruct (is_space c) eqn:E; [exists (c :: sp), r; auto | exists [], (c :: sp ++ r)]. split; [reflexivity|]. split; [constructor|]. right. eauto. }
    destruct S as (sp & r & -> & H & R). destruct R as [->|(c & t & -> & Hc)].
    + exists []. rewrite app_nil_r. constructor. exact H.
    + assert (T : exists w q, t = w ++ q /\ Forall (fun c => is_space c = false) w /\ (q = [] \/ exists c r, q = c :: r /\ is_space c = true)).
      { clear. induction t as [|c t (w & q & -> & Hw & Q)]; [exists [], []; auto|].
        destruct (is_space c) eqn:E; [exists [], (c :: w ++ q) | exists (c :: w), q; auto]. split; [reflexivity|]. split; [constructor|]. right. eauto. }
      destruct T as (w & q & -> & Hw & Q).
      destruct (IH q) as (ws & W). { rewrite app_length in L. cbn in L. rewrite app_length in L. lia. }
      exists ((c :: w) :: ws). change (sp ++ c :: w ++ q) with (sp ++ (c :: w) ++ q). constructor; auto. discriminate.
Qed.

Lemma version_text n tail : name_ok n -> decodeMessageString (wire_name n ++ tail) = Ok (snd n).
Proof.
  destruct n as [w s]. intros [Sc L]. unfold wire_name, encoded in *. cbn [fst snd] in *.
  destruct (encode_ok w s Sc) as (e & E & D). rewrite E in *. rewrite decodeMessageString_wire by lia. apply D.
Qed.
Lemma version_vals py_float n tail d w0 major w2 minor ws : name_ok n -> Shape d ->
  words (snd n) (w0 :: major :: w2 :: minor :: ws) ->
  forall fM fm, py_float major = Some fM -> py_float minor = Some fm ->
  exists d', decode_version py_float (wire_name n ++ tail) d = (d', Ok tt) /\ all_hold d' (version_facts (snd n) fM fm).
Proof.
  intros OK Sh Wd fM fm HM Hm. apply words_split in Wd. eapply (does_run []); [|exact Sh|intros ? ? []|].
  - unfold decode_version. dstep. eapply db_lift; [apply version_text; exact OK|]. cbv zeta. rewrite Wd.
    eapply db_lift. { cbn [py_index nth_error rbind py_float_of]. unfold py_float_of. rewrite HM. reflexivity. }
    eapply db_lift. { cbn [py_index nth_error rbind]. unfold py_float_of. rewrite Hm. reflexivity. }
    apply does_assign; [in_K|vm_compute; reflexivity].
  - unfold version_facts. facts.
Qed.
Lemma version_short py_float n tail d ws : name_ok n -> Shape d -> words (snd n) ws -> zlen ws < 4 ->
  exists d' e, decode_version py_float (wire_name n ++ tail) d = (d', Err e) /\ (e = EIndex \/ e = EValue).
Proof.
  intros OK Sh Wd L. apply words_split in Wd. unfold decode_version, dbind at 1.
  rewrite setdefault_ap by apply known_nil. unfold dbind, dlift at 1. rewrite version_text by exact OK. cbv zeta. rewrite Wd.
  unfold dlift. destruct ws as [|a [|b [|c [|e ws]]]]; cbn [py_index nth_error rbind]; eauto.
  - unfold py_float_of. destruct (py_float b); eauto.
  - unfold py_float_of. destruct (py_float b); eauto.
  - exfalso. unfold zlen in L. cbn [List.length] in L. lia.
Qed.

Lemma real_valid y mo d h mi s ms : real_time y mo d h mi s ms <-> valid_dt (mkDT y mo d h mi s (ms * 1000)) = true.
Proof.
  assert (Lp : forall y, leap y <-> is_leap y = true).
  { intros z. unfold leap, is_leap. rewrite andb_true_iff, orb_true_iff, negb_true_iff, !Z.eqb_eq, Z.eqb_neq. lia. }
  assert (Dm : forall n, 1 <= mo <= 12 -> (month_days y mo n <-> n = days_in_month y mo)).
  { intros n Hm. unfold month_days, days_in_month. cbn [In].
    destruct (Z.eqb_spec mo 2) as [->|N2].
    - specialize (Lp y). destruct (is_leap y) eqn:E; [assert (leap y) by (apply Lp; reflexivity)|assert (~ leap y) by (intros X; apply Lp in X; discriminate)]; intuition lia.
    - destruct ((mo =? 4) || (mo =? 6) || (mo =? 9) || (mo =? 11)) eqn:E; rewrite ?orb_true_iff, ?orb_false_iff, ?Z.eqb_eq, ?Z.eqb_neq in E; intuition lia. }
  unfold real_time, valid_dt. cbn [dt_year dt_month dt_day dt_hour dt_minute dt_second dt_micro].
  rewrite !andb_true_iff, !Z.leb_le. split.
  - intros (Hy & (n & Md & Hd) & Hh & Hmi & Hs & Hms).
    assert (Hm : 1 <= mo <= 12) by (unfold month_days in Md; cbn [In] in Md; lia). apply Dm in Md; [|exact Hm]. subst n.
    repeat split; lia.
  - intros H. repeat split; try lia. exists (days_in_month y mo). split; [apply Dm; lia|lia].
Qed.
Lemma micros_ok y mo d h mi s ms : real_time y mo d h mi s ms ->
  dt_micros (mkDT y mo d h mi s (ms * 1000)) = posix_micros y mo d h mi s ms.
Proof.
  intros R. assert (Hm : 1 <= mo <= 12). { destruct R as (_ & (n & Md & _) & _). unfold month_days in Md. cbn [In] in Md. lia. }
  clear R. unfold dt_micros, posix_micros. cbn [dt_year dt_month dt_day dt_hour dt_minute dt_second dt_micro].
  enough (E : ymd2ord y mo d - 719163 = days_since_epoch y mo d) by (rewrite E; lia).
  unfold ymd2ord, days_since_epoch, days_before_year, days_before_month. cbv zeta.
  assert (L : y / 4 - y / 100 + y / 400 = (y - 1) / 4 - (y - 1) / 100 + (y - 1) / 400 + (if is_leap y then 1 else 0)).
  { unfold is_leap. destruct (y mod 4 =? 0) eqn:E4; cbn [andb]; [|lia].
    destruct (y mod 100 =? 0) eqn:E1; cbn [negb orb]; [|lia].
    destruct (y mod 400 =? 0) eqn:E2; lia. }
  assert (Hm' : In mo [1;2;3;4;5;6;7;8;9;10;11;12]) by (cbn; lia).
  repeat (destruct Hm' as [<- | Hm']); try (now destruct Hm').
  all: match goal with |- context [Z.to_nat ?k] => let n := eval compute in (Z.to_nat k) in change (Z.to_nat k) with n end.
  all: cbn [nth Z.ltb Z.leb Z.compare Pos.compare Pos.compare_cont andb].
  all: match goal with |- context [(153 * ?k + 2) / 5] => let n := eval compute in ((153 * k + 2) / 5) in change ((153 * k + 2) / 5) with n end.
  all: revert L; generalize (if is_leap y then 1 else 0) as lp;
    generalize ((y - 1) / 4) as q1; generalize ((y - 1) / 100) as q2; generalize ((y - 1) / 400) as q3;
    generalize (y / 4) as p1; generalize (y / 100) as p2; generalize (y / 400) as p3; intros p3 p2 p1 q3 q2 q1 lp L.
  all: lia.
Qed.

Lemma datetime_vals host y mo wd dd h mi s ms dst tail d :
  is_u16 wd -> is_u32 dst -> real_time y mo dd h mi s ms -> Shape d ->
  exists d', decode_date_time host (wire_time y mo wd dd h mi s ms ++ u32le dst ++ tail) d = (d', Ok tt)
  /\ all_hold d' (datetime_facts (zdivf (posix_micros y mo dd h mi s ms) 1000000) host dst).
Proof.
  intros Hw Hdst R Sh. pose proof R as V. apply real_valid in V.
  pose proof (at_start (wire_time y mo wd dd h mi s ms ++ u32le dst ++ tail)) as A.
  rewrite <- micros_ok by exact R.
  set (buff := wire_time y mo wd dd h mi s ms ++ u32le dst ++ tail) in *.
  assert (G : getTime buff 0 = Ok (mkDT y mo dd h mi s (ms * 1000), 0 + 16)).
  { erewrite getTime_at; [unfold make_dt; rewrite V; reflexivity|..|exact A]; unfold is_u16 in *.
    all: destruct R as (? & (n & Md & ?) & ? & ? & ? & ?); unfold month_days in Md; cbn [In] in Md; lia. }
  pose proof (at_step _ _ _ _ A) as A'. rewrite wire_time_len in A'. clear A. clearbody buff.
  eapply (does_run []); [|exact Sh|intros ? ? []|].
  - unfold decode_date_time, dunit, datetime_body. dsteps. eapply db_lift; [exact G|]. dsteps.
  - unfold datetime_facts, dt_timestamp. abstract_values. facts.
Qed.
Lemma datetime_bad host y mo wd dd h mi s ms rest d :
  is_u16 y -> is_u16 mo -> is_u16 wd -> is_u16 dd -> is_u16 h -> is_u16 mi -> is_u16 s -> is_u16 ms ->
  ~ real_time y mo dd h mi s ms -> Shape d ->
  exists d', decode_date_time host (wire_time y mo wd dd h mi s ms ++ rest) d = (d', Err EValue).
Proof.
  intros H1 H2 H3 H4 H5 H6 H7 H8 R Sh.
  pose proof (at_start (wire_time y mo wd dd h mi s ms ++ rest)) as A.
  assert (G : getTime (wire_time y mo wd dd h mi s ms ++ rest) 0 = Err EValue).
  { rewrite (getTime_at y mo wd dd h mi s ms _ _ rest) by assumption. unfold make_dt. destruct (valid_dt _) eqn:V; [|reflexivity].
    apply real_valid in V. contradiction. }
  unfold decode_date_time, dunit, datetime_body.
  assert (D : does [] startK (setdefault [] DEVICE_CONTROLLER (VDict []) ;;; setdefault pCTL GROUP_DATE_TIME (VDict []) ;;; dret tt)%dm
    [ODef [] DEVICE_CONTROLLER (VDict []); ODef pCTL GROUP_DATE_TIME (VDict [])] tt startK).
  { eapply does_forget; [dsteps|]. intros x [<-|[]]. cbn; tauto. }
  destruct D as [_ D]. destruct (D d Sh (fun _ _ (H : In _ []) => match H with end) (startK_knows d)) as (_ & E & _).
  exists (aps [ODef [] DEVICE_CONTROLLER (VDict []); ODef pCTL GROUP_DATE_TIME (VDict [])] d).
  revert E. unfold dbind, dret, dlift. 
  destruct (setdefault [] DEVICE_CONTROLLER (VDict []) d) as [d1 [[]|e1]]; [|discriminate].
  destruct (setdefault pCTL GROUP_DATE_TIME (VDict []) d1) as [d2 [[]|e2]]; [|discriminate].
  intros E. rewrite G. congruence.
Qed.
