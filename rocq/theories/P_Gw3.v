(** async_set_scg_config and async_set_chem_data: what they send. *)
From Verif Require Import Py F64 Struct Utf Utility Const Spec Enum Decode World Request Gateway Traces Paths P_Base P_Util P_Monad P_Request P_Sat P_Paths P_Dict P_Float P_Gw1 P_Gw2.
Open Scope m_scope.

Lemma or_current_chosen arg p d v : or_current arg p d = Ok v <-> chosen arg d (p ++ [KS "value"]) v.
Proof.
  unfold or_current, chosen. destruct arg as [a|]; [split; congruence|]. rewrite get_value_eq, get_data_iff.
  split; [intros [L|(B & _)]; [exact L|discriminate]|auto].
Qed.
Lemma rbind_ok {A B} (r : res A) (f : A -> res B) b : rbind r f = Ok b -> exists a, r = Ok a /\ f a = Ok b.
Proof. destruct r; [eauto|discriminate]. Qed.
Lemma as_sl_ok {A} (r : res A) a : as_sl_error r = Ok a -> r = Ok a.
Proof. unfold as_sl_error. destruct r as [|e]; [auto|]. destruct (is_value_error e); [discriminate|]. destruct e; discriminate. Qed.

Lemma range_int lo hi z : range_check (mkRange (VInt lo) (VInt hi)) (VInt z) = Ok tt <-> lo <= z <= hi.
Proof.
  unfold range_check, in_range, num_leb, num_cmp. cbn [r_min r_max].
  destruct (Z.compare_spec lo z); cbn [rbind]; try (destruct (Z.compare_spec z hi); cbn [rbind]); split; intros; try discriminate; try lia; reflexivity.
Qed.
Lemma range_float_not lo hi f : range_check (mkRange (VInt lo) (VInt hi)) (VFloat f) = Ok tt -> True.
Proof. auto. Qed.

Lemma on_off_value z : enum_by_value ON_OFF z =
  if 0 =? z then Ok ("OFF"%string, 0) else if 1 =? z then Ok ("ON"%string, 1) else Err EValue.
Proof. reflexivity. Qed.
Lemma on_off_name s : enum_by_name ON_OFF s =
  if pystr_eqb (u "OFF") s then Ok ("OFF"%string, 0) else if pystr_eqb (u "ON") s then Ok ("ON"%string, 1) else Err EKey.
Proof. reflexivity. Qed.
Lemma parse_on_off v m : parse ON_OFF v (Some 0) = Ok m -> exists name s, m = Some (name, s) /\ (s = 0 \/ s = 1) /\
  (forall z, v = VInt z -> z = 0 \/ z = 1 -> s = z).
Proof.
  assert (D : enum_default ON_OFF (Some 0) = Ok (Some ("OFF"%string, 0))) by reflexivity.
  assert (G : forall z x, enum_by_value ON_OFF z = Ok x -> exists name, x = (name, z) /\ (z = 0 \/ z = 1)).
  { intros z x. rewrite on_off_value. destruct (Z.eqb_spec 0 z) as [<-|]; [intros H; injection H as <-; eauto|].
    destruct (Z.eqb_spec 1 z) as [<-|]; [intros H; injection H as <-; eauto|]. discriminate. }
  assert (GE : forall z e, enum_by_value ON_OFF z = Err e -> z <> 0 /\ z <> 1).
  { intros z e. rewrite on_off_value. destruct (Z.eqb_spec 0 z) as [|]; [discriminate|].
    destruct (Z.eqb_spec 1 z) as [|]; [discriminate|]. auto. }
  assert (N : forall s x, enum_by_name ON_OFF s = Ok x -> snd x = 0 \/ snd x = 1).
  { intros s x. rewrite on_off_name. destruct (pystr_eqb _ s); [intros H; injection H as <-; auto|].
    destruct (pystr_eqb _ s); [intros H; injection H as <-; auto|]. discriminate. }
  unfold parse. destruct v as [|z| |s| | | |]; try discriminate.
  - destruct (enum_by_value ON_OFF z) as [x|e] eqn:E.
    + intros H. injection H as <-. destruct (G _ _ E) as (name & -> & Hz). exists name, z. repeat split; auto. intros y Y _. congruence.
    + rewrite D. apply GE in E. destruct e; try discriminate; intros H; injection H as <-; exists "OFF"%string, 0; repeat split; auto;
        intros y Y; injection Y as <-; lia.
  - destruct (str_isdigit s).
    + destruct (enum_by_value ON_OFF (int_of_digits s)) as [x|e] eqn:E.
      * intros H. injection H as <-. destruct (G _ _ E) as (name & -> & Hz). exists name, (int_of_digits s). repeat split; auto. intros; discriminate.
      * rewrite D. destruct e; try discriminate; intros H; injection H as <-; exists "OFF"%string, 0; repeat split; auto; intros; discriminate.
    + destruct (enum_by_name ON_OFF _) as [x|e] eqn:E.
      * intros H. injection H as <-. apply N in E. destruct x as [name s1]. exists name, s1. repeat split; auto. intros; discriminate.
      * rewrite D. destruct e; try discriminate; intros H; injection H as <-; exists "OFF"%string, 0; repeat split; auto; intros; discriminate.
Qed.

(** C50 *)
Definition scg_pool_path : path := [KS "scg"; KS "configuration"; KS "pool_setpoint"; KS "value"].
Definition scg_spa_path : path := [KS "scg"; KS "configuration"; KS "spa_setpoint"; KS "value"].
Definition scg_super_path : path := [KS "scg"; KS "super_chlorinate"; KS "value"].
Definition scg_timer_path : path := [KS "scg"; KS "configuration"; KS "super_chlor_timer"; KS "value"].

Lemma scg_args_inv pool spa super timer d a b s k : scg_args pool spa super timer d = Ok (a, b, s, k) ->
  chosen pool d scg_pool_path a /\ chosen spa d scg_spa_path b /\ chosen timer d scg_timer_path k /\
  range_check SCG_RANGE_POOL_SETPOINT a = Ok tt /\ range_check SCG_RANGE_SPA_SETPOINT b = Ok tt /\
  range_check SCG_RANGE_SUPER_CHLOR_RT k = Ok tt /\
  exists v z, chosen super d scg_super_path v /\ s = VInt z /\ (z = 0 \/ z = 1) /\ (forall y, v = VInt y -> y = 0 \/ y = 1 -> z = y).
Proof.
  unfold scg_args. intros H. apply as_sl_ok in H.
  apply rbind_ok in H. destruct H as (a' & Ha & H). apply rbind_ok in H. destruct H as (b' & Hb & H).
  apply rbind_ok in H. destruct H as (v & Hv & H). apply rbind_ok in H. destruct H as (k' & Hk & H).
  apply rbind_ok in H. destruct H as ([] & Ra & H). apply rbind_ok in H. destruct H as ([] & Rb & H).
  apply rbind_ok in H. destruct H as (m & Hm & H). apply parse_on_off in Hm. destruct Hm as (name & z & -> & Hz & Y).
  apply rbind_ok in H. destruct H as ([] & Rk & H). injection H as -> -> <- ->.
  apply or_current_chosen in Ha, Hb, Hv, Hk.
  repeat (split; [assumption|]). exists v, z. auto.
Qed.
Lemma scg_args_ok pool spa super timer d a b s k :
  chosen pool d scg_pool_path (VInt a) -> chosen spa d scg_spa_path (VInt b) -> chosen super d scg_super_path (VInt s) ->
  chosen timer d scg_timer_path (VInt k) -> 0 <= a <= 100 -> 0 <= b <= 100 -> s = 0 \/ s = 1 -> 0 <= k <= 72 ->
  scg_args pool spa super timer d = Ok (VInt a, VInt b, VInt s, VInt k).
Proof.
  intros Ha Hb Hs Hk Ra Rb Rs Rk. unfold scg_args.
  apply (or_current_chosen pool [DEVICE_SCG; GROUP_CONFIGURATION; VALUE_POOL_SETPOINT]) in Ha.
  apply (or_current_chosen spa [DEVICE_SCG; GROUP_CONFIGURATION; VALUE_SPA_SETPOINT]) in Hb.
  apply (or_current_chosen super [DEVICE_SCG; VALUE_SUPER_CHLORINATE]) in Hs.
  apply (or_current_chosen timer [DEVICE_SCG; GROUP_CONFIGURATION; VALUE_SUPER_CHLOR_TIMER]) in Hk.
  rewrite Ha, Hb, Hs, Hk. cbn [rbind].
  apply range_int in Ra, Rb, Rk. unfold SCG_RANGE_POOL_SETPOINT, SCG_RANGE_SPA_SETPOINT, SCG_RANGE_SUPER_CHLOR_RT.
  rewrite Ra, Rb. cbn [rbind]. destruct Rs as [->| ->]; cbn [parse enum_by_value ON_OFF]; cbn; rewrite Rk; reflexivity.
Qed.

Lemma set_scg_only n pool spa super timer w t w' o c p : async_set_scg_config n pool spa super timer w = (t, w', o) ->
  In (Send c 12576 p) t ->
  exists a b s k, p = u32le 0 ++ u32le a ++ u32le b ++ u32le s ++ u32le k /\
    0 <= a <= 100 /\ 0 <= b <= 100 /\ (s = 0 \/ s = 1) /\ 0 <= k <= 72 /\
    chosen pool (w_data w) scg_pool_path (VInt a) /\ chosen spa (w_data w) scg_spa_path (VInt b) /\
    chosen timer (w_data w) scg_timer_path (VInt k) /\
    exists v, chosen super (w_data w) scg_super_path v /\ (forall y, v = VInt y -> y = 0 \/ y = 1 -> s = y).
Proof.
  intros E I. unfold async_set_scg_config in E. rewrite bind_get in E.
  destruct (scg_args pool spa super timer (w_data w)) as [[[[a b] s] k]|e] eqn:A; cbn [mlift] in E.
  2:{ rewrite bind_raise in E. injection E as <- <- <-. contradiction. }
  rewrite bind_ret in E. apply (command_sends _ _ _ _ _ _ _ _ _ _ E) in I; [|not_connecting].
  apply scg_args_inv in A. destruct A as (Ca & Cb & Ck & Ra & Rb & Rk & v & z & Cv & -> & Hz & Y).
  pack_inv I. apply range_int in Ra, Rb, Rk.
  eexists _, _, _, _. rewrite u32s_5. split; [reflexivity|]. do 7 (split; [assumption|]). exists v. split; [exact Cv|]. exact Y.
Qed.
(** each rejected argument is rejected whatever the others are *)
Lemma set_scg_rejected n pool spa super timer w z : ((pool = Some (VInt z) \/ spa = Some (VInt z)) /\ ~ 0 <= z <= 100) \/ (timer = Some (VInt z) /\ ~ 0 <= z <= 72) ->
  exists e, async_set_scg_config n pool spa super timer w = ([], w, Exc e).
Proof.
  intros K. unfold async_set_scg_config. rewrite bind_get.
  destruct (scg_args pool spa super timer (w_data w)) as [[[[a b] s] k]|e] eqn:A; cbn [mlift].
  2:{ rewrite bind_raise. eauto. }
  exfalso. apply scg_args_inv in A. destruct A as (Ca & Cb & Ck & Ra & Rb & Rk & _).
  destruct K as [([->| ->] & N)|(-> & N)]; cbn [chosen] in *; subst; first [apply range_int in Ra; lia|apply range_int in Rb; lia|apply range_int in Rk; lia].
Qed.
Lemma set_scg_sent n c pool spa super timer a b s k w r rest l w1 : ready c w -> 0 <= w_retries w ->
  chosen pool (w_data w) scg_pool_path (VInt a) -> chosen spa (w_data w) scg_spa_path (VInt b) ->
  chosen super (w_data w) scg_super_path (VInt s) -> chosen timer (w_data w) scg_timer_path (VInt k) ->
  0 <= a <= 100 -> 0 <= b <= 100 -> s = 0 \/ s = 1 -> 0 <= k <= 72 ->
  w_env w = r :: rest -> interfere r (set_env rest w) = (l, w1) -> answer_of r = Some (12577, []) ->
  async_set_scg_config (S n) pool spa super timer w =
    (Send c 12576 (u32le 0 ++ u32le a ++ u32le b ++ u32le s ++ u32le k) :: AwaitReply c 2000 :: Got r :: l, w1, Val tt).
Proof.
  intros K M Ca Cb Cs Ck Ra Rb Rs Rk E I A. unfold async_set_scg_config. rewrite bind_get.
  rewrite (scg_args_ok _ _ _ _ _ _ _ _ _ Ca Cb Cs Ck Ra Rb Rs Rk). cbn [mlift]. rewrite bind_ret.
  eapply ready_command_request; eauto.
  - change [VInt 0; VInt a; VInt b; VInt s; VInt k] with (map VInt [0; a; b; s; k]). rewrite pack_Is_ok; [rewrite u32s_5; reflexivity|].
    repeat constructor; unfold is_u32 in *; try lia.
  - apply small_message; [unfold is_u16, CODE_SETSCG_QUERY; lia|]. rewrite !zlen_app, !zlen_u32. lia.
Qed.
(** C53 *)
Lemma set_scg_invalid_sent n c a b k y w r rest l w1 : ready c w -> 0 <= w_retries w ->
  0 <= a <= 100 -> 0 <= b <= 100 -> 0 <= k <= 72 -> y <> 1 ->
  w_env w = r :: rest -> interfere r (set_env rest w) = (l, w1) -> answer_of r = Some (12577, []) ->
  async_set_scg_config (S n) (Some (VInt a)) (Some (VInt b)) (Some (VInt y)) (Some (VInt k)) w =
    (Send c 12576 (u32le 0 ++ u32le a ++ u32le b ++ u32le 0 ++ u32le k) :: AwaitReply c 2000 :: Got r :: l, w1, Val tt).
Proof.
  intros K M Ra Rb Rk Y E I A. unfold async_set_scg_config. rewrite bind_get.
  assert (X : scg_args (Some (VInt a)) (Some (VInt b)) (Some (VInt y)) (Some (VInt k)) (w_data w) = Ok (VInt a, VInt b, VInt 0, VInt k)).
  { unfold scg_args. cbn [or_current rbind]. apply range_int in Ra, Rb, Rk.
    unfold SCG_RANGE_POOL_SETPOINT, SCG_RANGE_SPA_SETPOINT, SCG_RANGE_SUPER_CHLOR_RT. rewrite Ra, Rb. cbn [rbind].
    assert (P : exists nm, parse ON_OFF (VInt y) (Some 0) = Ok (Some (nm, 0))).
    { unfold parse. rewrite on_off_value. destruct (0 =? y); [eauto|]. destruct (Z.eqb_spec 1 y) as [|]; [congruence|]. cbn. eauto. }
    destruct P as (nm & ->). cbn [rbind]. rewrite Rk. reflexivity. }
  rewrite X. cbn [mlift]. rewrite bind_ret.
  eapply ready_command_request; eauto.
  - change [VInt 0; VInt a; VInt b; VInt 0; VInt k] with (map VInt [0; a; b; 0; k]). rewrite pack_Is_ok; [rewrite u32s_5; reflexivity|].
    repeat constructor; unfold is_u32 in *; try lia.
  - apply small_message; [unfold is_u16, CODE_SETSCG_QUERY; lia|]. rewrite !zlen_app, !zlen_u32. lia.
Qed.
