(** async_set_date_time(auto_dst=x): what happens to the clock. *)
From Verif Require Import Py F64 Struct Utf Utility Const Spec Enum Decode World Request Gateway Traces Paths P_Base P_Util P_Time P_Monad P_Request P_Sat P_Paths P_Dict P_Float P_Gw1 P_Gw2 P_Gw3 P_Gw4 P_Stamp.
Open Scope m_scope.

Lemma from_timestamp_utc tz v : (forall x, tz x = 0) -> from_timestamp tz v = from_timestamp (fun _ => 0) v.
Proof. intros H. unfold from_timestamp. destruct (micros_of v) as [us|e]; [|reflexivity]. cbn [rbind]. rewrite H. reflexivity. Qed.

Lemma dst_only_sent n c t a w r rest l w1 : ready c w -> 0 <= w_retries w -> valid_dt t = true -> 1970 <= dt_year t <= 2105 ->
  is_u32 a -> (forall x, h_tz (w_host w) x = 0) -> leads (VDict (w_data w)) clock_path (VFloat (dt_timestamp t)) ->
  w_env w = r :: rest -> interfere r (set_env rest w) = (l, w1) -> answer_of r = Some (8113, []) ->
  async_set_date_time (S n) None (Some (VInt a)) w = (Send c 8112 (set_payload t a) :: AwaitReply c 2000 :: Got r :: l, w1, Val tt).
Proof.
  intros K M V Y U T L E I A. unfold async_set_date_time. rewrite bind_get, bind_get.
  assert (X : datetime_args None (Some (VInt a)) (h_tz (w_host w)) (w_data w) = Ok (t, VInt a)).
  { unfold datetime_args. rewrite (proj2 (get_data_iff true [DEVICE_CONTROLLER; GROUP_DATE_TIME; VALUE_TIMESTAMP] (w_data w) _) (or_introl L)).
    cbn [rbind]. rewrite from_timestamp_utc by assumption. rewrite timestamp_back by assumption. reflexivity. }
  rewrite X. cbn [mlift]. rewrite bind_ret. eapply ready_command_request; eauto.
  - destruct (time_full t V) as (b & Eb & -> & _). rewrite Eb. cbn [rbind].
    change [VInt a] with (map VInt [a]). rewrite pack_Is_ok by (constructor; auto). cbn [rbind map List.concat]. rewrite app_nil_r. reflexivity.
  - apply small_message; [unfold is_u16, CODE_SET_DATETIME_QUERY; lia|]. reflexivity.
Qed.

Lemma pget_leads p : forall v x, pget p v = Some x -> x <> VNone -> leads v p x.
Proof.
  induction p as [|k p IH]; intros v x H N; cbn [pget] in H; [injection H as <-; constructor|].
  destruct v; try discriminate. destruct (dget k d) as [y|] eqn:E; [|discriminate].
  apply leads_dict with (v := y); [apply entry_dget; exact E| |apply IH; assumption].
  intros ->. destruct p; cbn [pget] in H; [congruence|discriminate].
Qed.
