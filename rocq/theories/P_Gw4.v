(** async_set_chem_data and async_set_date_time: what they send. *)
From Verif Require Import Py F64 Struct Utf Utility Const Spec Enum Decode World Request Gateway Traces Paths P_Base P_Util P_Time P_Monad P_Request P_Sat P_Paths P_Dict P_Float P_Ph P_Gw1 P_Gw2 P_Gw3.
Open Scope m_scope.

Definition chem_path (k : string) : path := [KS "intellichem"; KS "configuration"; KS k; KS "value"].

Lemma chem_args_inv ph orp ca alk cya salt d a b c e f g : chem_args ph orp ca alk cya salt d = Ok (a, b, c, e, f, g) ->
  (exists v, chosen ph d (chem_path "ph_setpoint") v /\ range_check CHEM_RANGE_PH_SETPOINT v = Ok tt /\ times100 v = Ok a) /\
  chosen orp d (chem_path "orp_setpoint") b /\ chosen ca d (chem_path "calcium_hardness") c /\
  chosen alk d (chem_path "total_alkalinity") e /\ chosen cya d (chem_path "cya") f /\ chosen salt d (chem_path "salt_tds_ppm") g /\
  range_check CHEM_RANGE_ORP_SETPOINT b = Ok tt /\ range_check CHEM_RANGE_CALCIUM_HARDNESS c = Ok tt /\
  range_check CHEM_RANGE_TOTAL_ALKALINITY e = Ok tt /\ range_check CHEM_RANGE_CYANURIC_ACID f = Ok tt /\
  range_check CHEM_RANGE_SALT_TDS g = Ok tt.
Proof.
  unfold chem_args. intros H. apply rbind_ok in H. destruct H as ([[[[[v b'] c'] e'] f'] g'] & H & K).
  apply as_sl_ok in H. do 6 (apply rbind_ok in H; let x := fresh "x" in let X := fresh "X" in destruct H as (x & X & H)).
  do 6 (apply rbind_ok in H; let R := fresh "Rg" in destruct H as ([] & R & H)). injection H as -> -> -> -> -> ->.
  apply rbind_ok in K. destruct K as (a' & T & K). injection K as -> -> -> -> -> ->.
  apply or_current_chosen in X, X0, X1, X2, X3, X4.
  split; [exists v; auto|]. repeat (split; [assumption|]). assumption.
Qed.
Lemma chem_args_ok ph orp ca alk cya salt d n b c e f g :
  chosen ph d (chem_path "ph_setpoint") (VFloat (zdivf n 100)) ->
  chosen orp d (chem_path "orp_setpoint") (VInt b) -> chosen ca d (chem_path "calcium_hardness") (VInt c) ->
  chosen alk d (chem_path "total_alkalinity") (VInt e) -> chosen cya d (chem_path "cya") (VInt f) -> chosen salt d (chem_path "salt_tds_ppm") (VInt g) ->
  720 <= n <= 760 -> 400 <= b <= 800 -> 25 <= c <= 800 -> 25 <= e <= 800 -> 0 <= f <= 201 -> 500 <= g <= 6500 ->
  chem_args ph orp ca alk cya salt d = Ok (VInt n, VInt b, VInt c, VInt e, VInt f, VInt g).
Proof.
  intros H0 H1 H2 H3 H4 H5 R0 R1 R2 R3 R4 R5. unfold chem_args.
  apply (or_current_chosen ph [DEVICE_INTELLICHEM; GROUP_CONFIGURATION; VALUE_PH_SETPOINT]) in H0.
  apply (or_current_chosen orp [DEVICE_INTELLICHEM; GROUP_CONFIGURATION; VALUE_ORP_SETPOINT]) in H1.
  apply (or_current_chosen ca [DEVICE_INTELLICHEM; GROUP_CONFIGURATION; VALUE_CALCIUM_HARDNESS]) in H2.
  apply (or_current_chosen alk [DEVICE_INTELLICHEM; GROUP_CONFIGURATION; VALUE_TOTAL_ALKALINITY]) in H3.
  apply (or_current_chosen cya [DEVICE_INTELLICHEM; GROUP_CONFIGURATION; VALUE_CYA]) in H4.
  apply (or_current_chosen salt [DEVICE_INTELLICHEM; GROUP_CONFIGURATION; VALUE_SALT_TDS_PPM]) in H5.
  rewrite H0, H1, H2, H3, H4, H5. cbn [rbind]. apply ph_exact in R0. destruct R0 as [R0 T]. rewrite R0. cbn [rbind].
  apply range_int in R1, R2, R3, R4, R5.
  unfold CHEM_RANGE_ORP_SETPOINT, CHEM_RANGE_CALCIUM_HARDNESS, CHEM_RANGE_TOTAL_ALKALINITY, CHEM_RANGE_CYANURIC_ACID, CHEM_RANGE_SALT_TDS.
  rewrite R1. cbn [rbind]. rewrite R2. cbn [rbind]. rewrite R3. cbn [rbind]. rewrite R4. cbn [rbind]. rewrite R5. cbn [rbind as_sl_error].
  rewrite T. reflexivity.
Qed.

Lemma set_chem_only n ph orp ca alk cya salt w t w' o c p : async_set_chem_data n ph orp ca alk cya salt w = (t, w', o) ->
  In (Send c 12594 p) t ->
  exists h a b e f g v, p = u32le 0 ++ u32le h ++ u32le a ++ u32le b ++ u32le e ++ u32le f ++ u32le g /\
    720 <= h <= 760 /\ 400 <= a <= 800 /\ 25 <= b <= 800 /\ 25 <= e <= 800 /\ 0 <= f <= 201 /\ 500 <= g <= 6500 /\
    chosen ph (w_data w) (chem_path "ph_setpoint") v /\ times100 v = Ok (VInt h) /\
    chosen orp (w_data w) (chem_path "orp_setpoint") (VInt a) /\ chosen ca (w_data w) (chem_path "calcium_hardness") (VInt b) /\
    chosen alk (w_data w) (chem_path "total_alkalinity") (VInt e) /\ chosen cya (w_data w) (chem_path "cya") (VInt f) /\
    chosen salt (w_data w) (chem_path "salt_tds_ppm") (VInt g).
Proof.
  intros E I. unfold async_set_chem_data in E. rewrite bind_get in E.
  destruct (chem_args ph orp ca alk cya salt (w_data w)) as [[[[[[a b] c1] e] f] g]|x] eqn:A; cbn [mlift] in E.
  2:{ rewrite bind_raise in E. injection E as <- <- <-. contradiction. }
  rewrite bind_ret in E. apply (command_sends _ _ _ _ _ _ _ _ _ _ E) in I; [|not_connecting].
  apply chem_args_inv in A. destruct A as ((v & Cv & Rv & T) & C1 & C2 & C3 & C4 & C5 & R1 & R2 & R3 & R4 & R5).
  pose proof (ph_range _ _ Rv T) as (h & -> & Bh).
  pack_inv I. apply range_int in R1, R2, R3, R4, R5.
  eexists _, _, _, _, _, _, v. rewrite u32s_7. split; [reflexivity|]. repeat (split; [assumption|]). assumption.
Qed.
Lemma set_chem_sent n c ph orp ca alk cya salt h a b e f g w r rest l w1 : ready c w -> 0 <= w_retries w ->
  chosen ph (w_data w) (chem_path "ph_setpoint") (VFloat (zdivf h 100)) ->
  chosen orp (w_data w) (chem_path "orp_setpoint") (VInt a) -> chosen ca (w_data w) (chem_path "calcium_hardness") (VInt b) ->
  chosen alk (w_data w) (chem_path "total_alkalinity") (VInt e) -> chosen cya (w_data w) (chem_path "cya") (VInt f) ->
  chosen salt (w_data w) (chem_path "salt_tds_ppm") (VInt g) ->
  720 <= h <= 760 -> 400 <= a <= 800 -> 25 <= b <= 800 -> 25 <= e <= 800 -> 0 <= f <= 201 -> 500 <= g <= 6500 ->
  w_env w = r :: rest -> interfere r (set_env rest w) = (l, w1) -> answer_of r = Some (12595, []) ->
  async_set_chem_data (S n) ph orp ca alk cya salt w =
    (Send c 12594 (u32le 0 ++ u32le h ++ u32le a ++ u32le b ++ u32le e ++ u32le f ++ u32le g) :: AwaitReply c 2000 :: Got r :: l, w1, Val tt).
Proof.
  intros K M H0 H1 H2 H3 H4 H5 R0 R1 R2 R3 R4 R5 E I A. unfold async_set_chem_data. rewrite bind_get.
  rewrite (chem_args_ok _ _ _ _ _ _ _ _ _ _ _ _ _ H0 H1 H2 H3 H4 H5 R0 R1 R2 R3 R4 R5). cbn [mlift]. rewrite bind_ret.
  eapply ready_command_request; eauto.
  - change [VInt 0; VInt h; VInt a; VInt b; VInt e; VInt f; VInt g] with (map VInt [0; h; a; b; e; f; g]).
    rewrite pack_Is_ok; [rewrite u32s_7; reflexivity|]. repeat constructor; unfold is_u32 in *; try lia.
  - apply small_message; [unfold is_u16, CODE_SETCHEMDATA_QUERY; lia|]. rewrite !zlen_app, !zlen_u32. lia.
Qed.
(** an integer argument outside its range *)
Lemma set_chem_rejected n ph orp ca alk cya salt w z :
  (orp = Some (VInt z) /\ ~ 400 <= z <= 800) \/ (ca = Some (VInt z) /\ ~ 25 <= z <= 800) \/ (alk = Some (VInt z) /\ ~ 25 <= z <= 800) \/
  (cya = Some (VInt z) /\ ~ 0 <= z <= 201) \/ (salt = Some (VInt z) /\ ~ 500 <= z <= 6500) \/
  (exists v, ph = Some v /\ range_check CHEM_RANGE_PH_SETPOINT v <> Ok tt) ->
  exists e, async_set_chem_data n ph orp ca alk cya salt w = ([], w, Exc e).
Proof.
  intros K. unfold async_set_chem_data. rewrite bind_get.
  destruct (chem_args ph orp ca alk cya salt (w_data w)) as [[[[[[a b] c1] e] f] g]|x] eqn:A; cbn [mlift].
  2:{ rewrite bind_raise. eauto. }
  exfalso. apply chem_args_inv in A. destruct A as ((v & Cv & Rv & T) & C1 & C2 & C3 & C4 & C5 & R1 & R2 & R3 & R4 & R5).
  destruct K as [(-> & N)|[(-> & N)|[(-> & N)|[(-> & N)|[(-> & N)|(y & -> & N)]]]]]; cbn [chosen] in *; subst;
   first [apply range_int in R1; lia|apply range_int in R2; lia|apply range_int in R3; lia|apply range_int in R4; lia|apply range_int in R5; lia|congruence].
Qed.

(** C54 *)
Definition dst_path : path := [KS "controller"; KS "date_time"; KS "auto_dst"; KS "value"].
Definition clock_path : path := [KS "controller"; KS "date_time"; KS "timestamp"].

Lemma encode_time_inv t b : valid_dt t = true -> encodeMessageTime t = Ok b ->
  b = wire_time (dt_year t) (dt_month t) (day_of_week (dt_year t) (dt_month t) (dt_day t)) (dt_day t)
           (dt_hour t) (dt_minute t) 0 (dt_micro t / 1000).
Proof. intros V E. destruct (time_full t V) as (b' & E' & -> & _). congruence. Qed.

Definition set_payload (t : datetime) (dst : Z) : bytes :=
  wire_time (dt_year t) (dt_month t) (day_of_week (dt_year t) (dt_month t) (dt_day t)) (dt_day t)
            (dt_hour t) (dt_minute t) 0 (dt_micro t / 1000) ++ u32le dst.

Lemma from_timestamp_valid tz v t : from_timestamp tz v = Ok t -> valid_dt t = true.
Proof.
  unfold from_timestamp. intros H. apply rbind_ok in H. destruct H as (us & _ & H).
  unfold dt_of_micros in H. destruct (ord2ymd _) as [[y m] d]. unfold make_dt in H.
  match type of H with (if ?b then _ else _) = _ => destruct b eqn:V; [|discriminate] end. injection H as <-. exact V.
Qed.
Lemma datetime_args_inv t dst tz d t1 a : datetime_args t dst tz d = Ok (t1, a) ->
  match t with Some t0 => t1 = t0 | None => exists v, leads (VDict d) clock_path v /\ from_timestamp tz v = Ok t1 end /\
  chosen dst d dst_path a.
Proof.
  unfold datetime_args. intros H.
  assert (G : rbind (match t with
             | Some t => Ok t
             | None => rbind (get_data true [DEVICE_CONTROLLER; GROUP_DATE_TIME; VALUE_TIMESTAMP] d) (from_timestamp tz)
             end) (fun t => rbind (or_current dst [DEVICE_CONTROLLER; GROUP_DATE_TIME; VALUE_AUTO_DST] d) (fun a => Ok (t, a))) = Ok (t1, a)).
  { destruct t, dst; try exact H; discriminate. }
  clear H. apply rbind_ok in G. destruct G as (t2 & Ht & G). apply rbind_ok in G. destruct G as (a' & Ha & G).
  injection G as -> ->. apply or_current_chosen in Ha. split; [|exact Ha].
  destruct t; [congruence|]. apply rbind_ok in Ht. destruct Ht as (v & Hv & Ht). exists v. split; [|exact Ht].
  apply get_data_iff in Hv. destruct Hv as [L|(B & _)]; [exact L|discriminate].
Qed.
Lemma set_date_time_only n t dst w tr w' o c p : async_set_date_time n t dst w = (tr, w', o) ->
  (forall t0, t = Some t0 -> valid_dt t0 = true) -> In (Send c 8112 p) tr ->
  exists t1 a, p = set_payload t1 a /\ is_u32 a /\ chosen dst (w_data w) dst_path (VInt a) /\
    match t with
    | Some t0 => t1 = t0
    | None => exists v, leads (VDict (w_data w)) clock_path v /\ from_timestamp (h_tz (w_host w)) v = Ok t1
    end.
Proof.
  intros E V I. unfold async_set_date_time in E. rewrite bind_get, bind_get in E.
  destruct (datetime_args t dst (h_tz (w_host w)) (w_data w)) as [[t1 a]|x] eqn:A; cbn [mlift] in E.
  2:{ rewrite bind_raise in E. injection E as <- <- <-. contradiction. }
  rewrite bind_ret in E. apply (command_sends _ _ _ _ _ _ _ _ _ _ E) in I; [|not_connecting].
  apply datetime_args_inv in A. destruct A as (A1 & A2).
  apply rbind_ok in I. destruct I as (b1 & T1 & I). apply rbind_ok in I. destruct I as (b2 & T2 & I). injection I as <-.
  assert (V1 : valid_dt t1 = true).
  { destruct t as [t0|]; [subst t1; apply V; reflexivity|]. destruct A1 as (v & _ & F). eapply from_timestamp_valid; exact F. }
  apply (encode_time_inv _ _ V1) in T1. subst b1. pack_inv T2. exists t1, z. unfold set_payload. cbn [map List.concat]. rewrite app_nil_r.
  repeat split; auto. all: unfold is_u32 in *; lia.
Qed.
Lemma set_date_time_sent n c t dst a w r rest l w1 : ready c w -> 0 <= w_retries w -> valid_dt t = true -> is_u32 a ->
  chosen dst (w_data w) dst_path (VInt a) ->
  w_env w = r :: rest -> interfere r (set_env rest w) = (l, w1) -> answer_of r = Some (8113, []) ->
  async_set_date_time (S n) (Some t) dst w = (Send c 8112 (set_payload t a) :: AwaitReply c 2000 :: Got r :: l, w1, Val tt).
Proof.
  intros K M V U C E I A. unfold async_set_date_time. rewrite bind_get, bind_get.
  assert (X : datetime_args (Some t) dst (h_tz (w_host w)) (w_data w) = Ok (t, VInt a)).
  { unfold datetime_args. apply (or_current_chosen dst [DEVICE_CONTROLLER; GROUP_DATE_TIME; VALUE_AUTO_DST]) in C.
    destruct dst; cbn [rbind]; rewrite C; reflexivity. }
  rewrite X. cbn [mlift]. rewrite bind_ret. eapply ready_command_request; eauto.
  - destruct (time_full t V) as (b & Eb & -> & _). rewrite Eb. cbn [rbind].
    change [VInt a] with (map VInt [a]). rewrite pack_Is_ok by (constructor; auto). cbn [rbind map List.concat]. rewrite app_nil_r. reflexivity.
  - apply small_message; [unfold is_u16, CODE_SET_DATETIME_QUERY; lia|]. reflexivity.
Qed.
Lemma set_date_time_neither n w : async_set_date_time n None None w = ([], w, Exc EValue).
Proof. reflexivity. Qed.
