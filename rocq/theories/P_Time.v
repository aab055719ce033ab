(** Time encoding. *)
From Verif Require Import Py F64 Struct Utility Spec P_Base P_Util P_Float.

Lemma words_wire_time y mo w d h mi s ms rest :
  is_u16 y -> is_u16 mo -> is_u16 w -> is_u16 d -> is_u16 h -> is_u16 mi -> is_u16 s -> is_u16 ms ->
  time_of_words (wire_time y mo w d h mi s ms ++ rest) = make_dt (mkDT y mo d h mi s (ms * 1000)).
Proof.
  unfold is_u16. intros. unfold time_of_words, slice, wire_time, u16le.
  cbn [app]. 
  change (Z.to_nat (2 * 0)) with 0%nat. change (Z.to_nat (2 * 1)) with 2%nat.
  change (Z.to_nat (2 * 3)) with 6%nat. change (Z.to_nat (2 * 4)) with 8%nat.
  change (Z.to_nat (2 * 5)) with 10%nat. change (Z.to_nat (2 * 6)) with 12%nat.
  change (Z.to_nat (2 * 7)) with 14%nat. change (Z.to_nat 2) with 2%nat.
  cbn [skipn firstn le_dec].
  assert (E : forall v, 0 <= v < 65536 -> v mod 256 + 256 * (v / 256 mod 256 + 256 * 0) = v) by (intros; lia).
  rewrite !E by assumption. reflexivity.
Qed.

Lemma wire_time_len y mo w d h mi s ms : zlen (wire_time y mo w d h mi s ms) = 16.
Proof. reflexivity. Qed.

Lemma decode_wire_time y mo w d h mi s ms :
  is_u16 y -> is_u16 mo -> is_u16 w -> is_u16 d -> is_u16 h -> is_u16 mi -> is_u16 s -> is_u16 ms ->
  decodeMessageTime (wire_time y mo w d h mi s ms) = make_dt (mkDT y mo d h mi s (ms * 1000)).
Proof.
  intros. unfold decodeMessageTime. rewrite wire_time_len. cbn [Z.eqb Pos.eqb].
  rewrite <- (app_nil_r (wire_time _ _ _ _ _ _ _ _)). apply words_wire_time; assumption.
Qed.

Lemma getTime_at y mo w d h mi s ms b off rest :
  is_u16 y -> is_u16 mo -> is_u16 w -> is_u16 d -> is_u16 h -> is_u16 mi -> is_u16 s -> is_u16 ms ->
  at_ b off (wire_time y mo w d h mi s ms ++ rest) ->
  getTime b off = rbind (make_dt (mkDT y mo d h mi s (ms * 1000))) (fun t => Ok (t, off + 16)).
Proof.
  intros H1 H2 H3 H4 H5 H6 H7 H8 A. unfold getTime.
  pose proof (getSomeBytes_at _ _ _ _ A) as G. rewrite wire_time_len in G. unfold getSomeBytes in G.
  destruct (unpack_bytes_from 16 b off) as [x|e]; [|discriminate].
  cbn [rbind] in *. injection G as ->.
  rewrite <- (app_nil_r (wire_time _ _ _ _ _ _ _ _)). rewrite words_wire_time by assumption. reflexivity.
Qed.

Lemma days_in_month_le y m : days_in_month y m <= 31.
Proof. unfold days_in_month. destruct (m =? 2), (is_leap y), ((m =? 4) || (m =? 6) || (m =? 9) || (m =? 11)); lia. Qed.

(** Monday = 0; 2024-01-01 was a Monday, so the weekday counts days from any Monday. *)
Lemma weekday_range t : 0 <= weekday t < 7.
Proof. unfold weekday. apply Z.mod_pos_bound. lia. Qed.

Lemma encode_time t : valid_dt t = true ->
  encodeMessageTime t = Ok (wire_time (dt_year t) (dt_month t) (weekday t) (dt_day t)
                              (dt_hour t) (dt_minute t) 0 (dt_micro t / 1000)).
Proof.
  intros V. pose proof (weekday_range t) as W. pose proof (days_in_month_le (dt_year t) (dt_month t)).
  unfold valid_dt in V. unfold encodeMessageTime.
  assert (M : 0 <= dt_micro t < 1000000) by lia.
  rewrite zdivf_trunc; [| split; [lia|]; apply (Z.lt_le_trans _ 1000000); [lia|vm_compute; discriminate] | split; [lia|vm_compute; reflexivity] ].
  cbn [rbind pack_Hs].
  generalize dependent (weekday t). intros wd W.
  rewrite !pack_u_ok by (rewrite pow256_2; lia). cbn [rbind]. reflexivity.
Qed.

Lemma time_rt t : valid_dt t = true ->
  exists b, encodeMessageTime t = Ok b
  /\ b = wire_time (dt_year t) (dt_month t) (weekday t) (dt_day t) (dt_hour t) (dt_minute t) 0 (dt_micro t / 1000)
  /\ decodeMessageTime b =
     Ok (mkDT (dt_year t) (dt_month t) (dt_day t) (dt_hour t) (dt_minute t) 0 (dt_micro t / 1000 * 1000)).
Proof.
  intros V. eexists. split; [apply encode_time; exact V|]. split; [reflexivity|].
  pose proof (weekday_range t) as W. pose proof (days_in_month_le (dt_year t) (dt_month t)).
  assert (R : forall b : bool, b = true -> b = true) by auto.
  unfold valid_dt in V.
  rewrite decode_wire_time by (unfold is_u16; lia).
  unfold make_dt. match goal with |- (if ?b then _ else _) = _ => replace b with true end; [reflexivity|].
  symmetry. unfold valid_dt. cbn [dt_year dt_month dt_day dt_hour dt_minute dt_second dt_micro]. lia.
Qed.

Lemma weekday_correct t : valid_dt t = true ->
  weekday t = day_of_week (dt_year t) (dt_month t) (dt_day t).
Proof.
  intros V. unfold valid_dt in V.
  assert (M : 1 <= dt_month t <= 12) by lia. clear V.
  unfold weekday, day_of_week, ymd2ord, days_before_year, days_before_month.
  generalize dependent (dt_month t). generalize (dt_year t). generalize (dt_day t). clear t.
  intros d y m M. cbv zeta.
  assert (L : y / 4 - y / 100 + y / 400 = (y - 1) / 4 - (y - 1) / 100 + (y - 1) / 400 + (if is_leap y then 1 else 0)).
  { unfold is_leap. destruct (y mod 4 =? 0) eqn:E4; cbn [andb]; [|lia].
    destruct (y mod 100 =? 0) eqn:E1; cbn [negb orb]; [|lia].
    destruct (y mod 400 =? 0) eqn:E2; lia. }
  assert (Hm : In m [1;2;3;4;5;6;7;8;9;10;11;12]) by (cbn; lia).
  assert (G : forall z1 z2 k, z1 = z2 + 7 * k -> z1 mod 7 = z2 mod 7).
  { intros z1 z2 k ->. rewrite Z.mul_comm, Z_mod_plus_full. reflexivity. }
  repeat (destruct Hm as [<- | Hm]); try (now destruct Hm).
  all: cbn [Z.ltb Z.compare Pos.compare Pos.compare_cont andb];
    match goal with |- context [Z.to_nat ?k] => let n := eval compute in (Z.to_nat k) in change (Z.to_nat k) with n end.
  all: try match goal with |- context [Z.to_nat ?k] => let n := eval compute in (Z.to_nat k) in change (Z.to_nat k) with n end.
  all: cbn [nth].
  all: revert L; generalize (if is_leap y then 1 else 0) as lp;
    generalize ((y - 1) / 4) as q1; generalize ((y - 1) / 100) as q2; generalize ((y - 1) / 400) as q3;
    generalize (y / 4) as p1; generalize (y / 100) as p2; generalize (y / 400) as p3; intros p3 p2 p1 q3 q2 q1 lp L.
  all: match goal with
       | |- _ = (?yy - 1 + _ - _ + _ + _ + _ + _) mod 7 =>
           first [ apply (G _ _ (52 * (yy - 1))); lia | apply (G _ _ (52 * (yy - 1) + 4)); lia ]
       | |- (_ + (?n + _) + _ + _) mod 7 = (?yy + _ - _ + _ + ?t + _ + _) mod 7 =>
           let k := eval compute in ((n - t - 1) / 7) in apply (G _ _ (52 * (yy - 1) + k)); lia
       end.
Qed.

Lemma time_full t : valid_dt t = true ->
  exists b, encodeMessageTime t = Ok b
  /\ b = wire_time (dt_year t) (dt_month t) (day_of_week (dt_year t) (dt_month t) (dt_day t)) (dt_day t)
           (dt_hour t) (dt_minute t) 0 (dt_micro t / 1000)
  /\ decodeMessageTime b =
     Ok (mkDT (dt_year t) (dt_month t) (dt_day t) (dt_hour t) (dt_minute t) 0 (dt_micro t / 1000 * 1000)).
Proof. intros V. rewrite <- (weekday_correct t V). exact (time_rt t V). Qed.
