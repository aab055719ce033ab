(** Proofs for Prop_Id.v: runs under another client id. *)
From Verif Require Import Py F64 Struct Utf Utility Const Enum Decode World Request Gateway Traces Api P_Base P_Util P_Monad SpecId.
Open Scope m_scope.

Section Id.
Variables a0 b0 : Z.
Hypothesis A0 : 0 <= a0 < 4294967296.
Hypothesis B0 : 0 <= b0 < 4294967296.
Local Notation ren := (with_id b0).
Local Notation same := (Forall2 (renamed a0 b0)).
Lemma ren_refl e : renamed a0 b0 e e.
Proof. destruct e; cbn; auto. destruct (_ || _); auto. Qed.
Lemma rens_refl t : same t t. Proof. induction t; constructor; auto using ren_refl. Qed.
Lemma lose_ren c w : lose c (ren w) = (fst (lose c w), ren (snd (lose c w))).
Proof. unfold lose. change (connected c (ren w)) with (connected c w). destruct (connected c w); reflexivity. Qed.
Lemma lose_id c w : m_id (w_cm (snd (lose c w))) = m_id (w_cm w).
Proof. unfold lose. destruct (connected c w); reflexivity. Qed.
Lemma lose_all_ren cs : forall w, lose_all cs (ren w) = (fst (lose_all cs w), ren (snd (lose_all cs w))) /\ m_id (w_cm (snd (lose_all cs w))) = m_id (w_cm w).
Proof.
  induction cs as [|c cs IH]; intros w; cbn [lose_all]; [auto|]. rewrite lose_ren. pose proof (lose_id c w) as L. destruct (lose c w) as [t w1]. cbn [fst snd] in *.
  destruct (IH w1) as (H1 & H2). rewrite H1. destruct (lose_all cs w1) as [t2 w2]. cbn [fst snd] in *. split; [reflexivity|congruence].
Qed.
Lemma interfere_ren r w : interfere r (ren w) = (fst (interfere r w), ren (snd (interfere r w))) /\ m_id (w_cm (snd (interfere r w))) = m_id (w_cm w).
Proof.
  unfold interfere. set (v := set_clock (r_clock r) (match r_data r with Some d => set_data d w | None => w end)).
  replace (set_clock (r_clock r) (match r_data r with Some d => set_data d (ren w) | None => ren w end)) with (ren v) by (subst v; destruct (r_data r); reflexivity).
  replace (m_id (w_cm w)) with (m_id (w_cm v)) by (subst v; destruct (r_data r); reflexivity). apply lose_all_ren.
Qed.

(** [m'] does under the id [b0] what [m] does under [a0] *)
Definition ti {A} (m m' : M A) : Prop := forall w t w1 o, m_id (w_cm w) = a0 -> m w = (t, w1, o) ->
  m_id (w_cm w1) = a0 /\ exists t', m' (ren w) = (t', ren w1, o) /\ same t t'.
Lemma ti_ret {A} (a : A) : ti (mret a) (mret a).
Proof. intros w t w1 o R E. injection E as <- <- <-. split; [exact R|]. exists []. split; [reflexivity|constructor]. Qed.
Lemma ti_raise {A} e : ti (@mraise A e) (mraise e).
Proof. intros w t w1 o R E. injection E as <- <- <-. split; [exact R|]. exists []. split; [reflexivity|constructor]. Qed.
Lemma ti_stuck {A} y : ti (@mstuck A y) (mstuck y).
Proof. intros w t w1 o R E. injection E as <- <- <-. split; [exact R|]. exists []. split; [reflexivity|constructor]. Qed.
Lemma ti_lift {A} (r : res A) : ti (mlift r) (mlift r). Proof. destruct r; [apply ti_ret|apply ti_raise]. Qed.
Lemma ti_emit x x' : renamed a0 b0 x x' -> ti (memit x) (memit x').
Proof. intros H w t w1 o R E. injection E as <- <- <-. split; [exact R|]. exists [x']. split; [reflexivity|]. constructor; [exact H|constructor]. Qed.
Lemma ti_put (f : world -> world) : (forall w, f (ren w) = ren (f w)) -> (forall w, m_id (w_cm (f w)) = m_id (w_cm w)) -> ti (mput f) (mput f).
Proof.
  intros C Ev w t w1 o R E. injection E as <- <- <-. split; [rewrite Ev; exact R|]. exists []. unfold mput. rewrite C. split; [reflexivity|constructor].
Qed.
Lemma ti_bind {A B} (m m' : M A) (k k' : A -> M B) : ti m m' -> (forall a, ti (k a) (k' a)) -> ti (mbind m k) (mbind m' k').
Proof.
  intros Hm Hk w t w1 o R E. apply bind_inv in E. destruct E as [(t1 & w2 & a & t2 & E1 & E2 & ->)|[(x & E1 & ->)|(y & E1 & ->)]].
  - destruct (Hm _ _ _ _ R E1) as (R1 & s1 & M1 & S1). destruct (Hk a _ _ _ _ R1 E2) as (R2 & s2 & M2 & S2). split; [exact R2|].
    exists (s1 ++ s2). rewrite (bind_val _ _ _ _ _ _ M1), M2. split; [reflexivity|apply Forall2_app; assumption].
  - destruct (Hm _ _ _ _ R E1) as (R1 & s1 & M1 & S1). split; [exact R1|]. exists s1. split; [apply bind_exc, M1|exact S1].
  - destruct (Hm _ _ _ _ R E1) as (R1 & s1 & M1 & S1). split; [exact R1|]. exists s1. split; [unfold mbind; rewrite M1; reflexivity|exact S1].
Qed.
Lemma ti_get {A B} (f : world -> A) (k k' : A -> M B) : (forall w, f (ren w) = f w) -> (forall a, ti (k a) (k' a)) -> ti (mbind (mget f) k) (mbind (mget f) k').
Proof.
  intros C Hk w t w1 o R E. rewrite bind_get in E. destruct (Hk (f w) _ _ _ _ R E) as (R1 & s & M1 & S). split; [exact R1|]. exists s.
  rewrite bind_get, C. auto.
Qed.
(** reading the id *)
Lemma ti_id {B} (k k' : Z -> M B) : ti (k a0) (k' b0) -> ti (mbind (mget (fun w => m_id (w_cm w))) k) (mbind (mget (fun w => m_id (w_cm w))) k').
Proof.
  intros Hk w t w1 o R E. rewrite bind_get, R in E. destruct (Hk _ _ _ _ R E) as (R1 & s & M1 & S). split; [exact R1|]. exists s. rewrite bind_get. auto.
Qed.
Lemma ti_catch {A} (m m' : M A) p h h' : ti m m' -> (forall e, ti (h e) (h' e)) -> ti (mcatch m p h) (mcatch m' p h').
Proof.
  intros Hm Hh w t w1 o R E. unfold mcatch in *. destruct (m w) as [[t1 w2] o1] eqn:E1. destruct (Hm _ _ _ _ R E1) as (R1 & s1 & M1 & S1). rewrite M1.
  destruct o1 as [a|x|y]; [injection E as <- <- <-; eauto| |injection E as <- <- <-; eauto].
  destruct (p x); [|injection E as <- <- <-; eauto]. destruct (h x w2) as [[t2 w3] o2] eqn:E2. injection E as <- <- <-.
  destruct (Hh x _ _ _ _ R1 E2) as (R2 & s2 & M2 & S2). rewrite M2. split; [exact R2|]. eexists. split; [reflexivity|]. apply Forall2_app; assumption.
Qed.
Lemma ti_finally {A} (m m' : M A) f : ti m m' -> (forall w, f (ren w) = ren (f w)) -> (forall w, m_id (w_cm (f w)) = m_id (w_cm w)) -> ti (mfinally m f) (mfinally m' f).
Proof.
  intros Hm C Ev w t w1 o R E. unfold mfinally in *. destruct (m w) as [[t1 w2] o1] eqn:E1. destruct (Hm _ _ _ _ R E1) as (R1 & s1 & M1 & S1). rewrite M1.
  pose proof (Ev w2) as V. destruct o1; injection E as <- <- <-; try rewrite C; (split; [congruence|]); eauto.
Qed.
Lemma ti_ask x pre : (forall r w, pre r (ren w) = ren (pre r w)) -> (forall r w, m_id (w_cm (pre r w)) = m_id (w_cm w)) -> ti (ask x pre) (ask x pre).
Proof.
  intros C Ev w t w1 o R E. unfold ask in *. change (w_env (ren w)) with (w_env w).
  destruct (w_env w) as [|r rest]; [injection E as <- <- <-; split; [exact R|]; eexists; split; [reflexivity|apply rens_refl]|].
  change (set_env rest (ren w)) with (ren (set_env rest w)). rewrite C. destruct (interfere_ren r (pre r (set_env rest w))) as (I & V). rewrite I.
  rewrite Ev in V. change (m_id (w_cm (set_env rest w))) with (m_id (w_cm w)) in V.
  destruct (interfere r (pre r (set_env rest w))) as [l w2]. cbn [fst snd] in *. injection E as <- <- <-. split; [congruence|]. eexists. split; [reflexivity|apply rens_refl].
Qed.
Lemma ti_lose c : ti (fun w => let '(t, w') := lose c w in (t, w', Val tt)) (fun w => let '(t, w') := lose c w in (t, w', Val tt)).
Proof.
  intros w t w1 o R E. rewrite lose_ren. pose proof (lose_id c w) as L. destruct (lose c w) as [l w2]. cbn [fst snd] in *. injection E as <- <- <-.
  split; [congruence|]. eexists. split; [reflexivity|apply rens_refl].
Qed.
Lemma ti_decode (m : DM unit) : ti (mdecode m) (mdecode m).
Proof.
  intros w t w1 o R E. unfold mdecode in *. change (w_data (ren w)) with (w_data w). destruct (m (w_data w)) as [d r]. injection E as <- <- <-.
  split; [exact R|]. eexists. split; [reflexivity|constructor].
Qed.
Ltac ti1 := lazymatch goal with
  | |- ti (mbind (mget (fun w => m_id (w_cm w))) _) _ => apply ti_id
  | |- ti (mbind (mget _) _) _ => apply ti_get; [intros; reflexivity|intros ?]
  | |- ti (mbind _ _) _ => apply ti_bind; [|intros ?]
  | |- ti (mret _) _ => apply ti_ret
  | |- ti (mraise _) _ => apply ti_raise
  | |- ti (mstuck _) _ => apply ti_stuck
  | |- ti (mlift _) _ => apply ti_lift
  | |- ti (mput _) _ => apply ti_put; [intros; reflexivity|intros; reflexivity]
  | |- ti (memit _) _ => apply ti_emit; first [apply ren_refl|assumption]
  | |- ti (mdecode _) _ => apply ti_decode
  | |- ti (ask _ nopre) _ => apply ti_ask; [intros; reflexivity|intros; reflexivity]
  | |- ti (require _) _ => unfold require
  | |- ti (match ?x with _ => _ end) _ => destruct x
  end.
Lemma ti_sleep ms : ti (msleep ms) (msleep ms). Proof. unfold msleep. repeat ti1. Qed.
Definition twin (X : Z) (p p' : bytes) : Prop := p' = p \/ ((X = 12522 \/ X = 12524) /\ p = introduction a0 /\ p' = introduction b0).
Lemma twin_send c X p p' : twin X p p' -> renamed a0 b0 (Send c X p) (Send c X p').
Proof. intros [->|([-> | ->] & -> & ->)]; [apply ren_refl|cbn; auto..]. Qed.
Lemma twin_make X p p' : twin X p p' -> (exists x y, makeMessage 0 X p = Ok x /\ makeMessage 0 X p' = Ok y) \/ exists e, makeMessage 0 X p = Err e /\ makeMessage 0 X p' = Err e.
Proof.
  intros [->|(H & -> & ->)]; [destruct (makeMessage 0 X p); eauto|]. left. destruct H as [-> | ->]; unfold makeMessage, introduction; cbn; eauto.
Qed.
Lemma ti_send c X p p' : twin X p p' -> ti (send c X p) (send c X p').
Proof.
  intros T. unfold send. ti1. ti1; [|ti1].
  destruct (twin_make X p p' T) as [(x & y & -> & ->)|(e & -> & ->)]; cbn [mlift]; [|apply ti_bind; [apply ti_raise|intros; apply ti_emit, twin_send, T]].
  intros w t w1 o R E. rewrite bind_ret in E. rewrite bind_ret. exact (ti_emit _ _ (twin_send c X p p' T) _ _ _ _ R E).
Qed.
Lemma ti_loop c X p p' mr : twin X p p' -> forall n a, ti (request_loop n a mr c X p) (request_loop n a mr c X p').
Proof.
  intros T. induction n as [|n IH]; intros a; cbn [request_loop]; [ti1|].
  repeat first [apply IH | apply ti_sleep | apply ti_send, T | ti1].
Qed.
Lemma ti_request2 c X p p' mr : twin X p p' -> ti (make_request c X p mr) (make_request c X p' mr). Proof. intros T. apply ti_loop, T. Qed.
Lemma ti_request c X p mr : ti (make_request c X p mr) (make_request c X p mr). Proof. apply ti_loop. left. reflexivity. Qed.
Ltac ti_r := repeat first [apply ti_request | apply ti_sleep | apply ti_lose | ti1].
Lemma ti_data X p dec mr c : ti (data_request X p dec mr c) (data_request X p dec mr c). Proof. unfold data_request. ti_r. Qed.
Lemma ti_pump i mr c : ti (request_pump_status i mr c) (request_pump_status i mr c).
Proof. unfold request_pump_status. ti1; [ti1|apply ti_data]. Qed.
Lemma ti_version mr c : ti (request_gateway_version mr c) (request_gateway_version mr c).
Proof. unfold request_gateway_version. ti1. apply ti_data. Qed.
Lemma ti_command X pl mr c : ti (command_request X pl mr c) (command_request X pl mr c). Proof. unfold command_request. ti_r. Qed.
Lemma ti_date mr c : ti (request_date_time mr c) (request_date_time mr c). Proof. unfold request_date_time. ti_r. Qed.
Lemma introduced a : 0 <= a < 4294967296 -> pack_Is [VInt 0; VInt a] = Ok (introduction a).
Proof.
  intros H. unfold pack_Is, pack_I, pack_u. replace ((0 <=? a) && (a <? 256 ^ Z.of_nat 4)) with true by (change (256 ^ Z.of_nat 4) with 4294967296; lia).
  change ((0 <=? 0) && (0 <? 256 ^ Z.of_nat 4)) with true. cbn [rbind]. rewrite app_nil_r. reflexivity.
Qed.
Lemma ti_intro X mr c : X = 12522 \/ X = 12524 -> ti (command_request X (pack_Is [VInt 0; VInt a0]) mr c) (command_request X (pack_Is [VInt 0; VInt b0]) mr c).
Proof.
  intros H. unfold command_request. rewrite !introduced by assumption. cbn [mlift].
  intros w t w1 o R E. rewrite bind_ret in E. rewrite bind_ret. revert w t w1 o R E. change (ti (mbind (make_request c X (introduction a0) mr) (fun r => match r with Some [] => mret tt | _ => mraise ESLResponse end))
    (mbind (make_request c X (introduction b0) mr) (fun r => match r with Some [] => mret tt | _ => mraise ESLResponse end))).
  ti1; [apply ti_request2; right; auto|]. repeat ti1.
Qed.
Lemma ti_close c force : ti (async_close c force) (async_close c force). Proof. unfold async_close. ti_r. Qed.
Lemma ti_mproto : ti m_proto_or_fail m_proto_or_fail. Proof. unfold m_proto_or_fail. ti_r. Qed.
Lemma ti_proto : ti proto_or_fail proto_or_fail. Proof. unfold proto_or_fail. ti_r. Qed.
Lemma ti_lock {A} (m : M A) : ti m m -> ti (with_lock m) (with_lock m).
Proof. intros H. unfold with_lock. ti1. ti1; [ti1|]. ti1; [ti1|]. apply ti_finally; [exact H|intros; reflexivity|intros; reflexivity]. Qed.
Lemma ti_remove : ti remove_client remove_client.
Proof. unfold remove_client. apply ti_catch; [|intros; ti1]. ti1; [apply ti_mproto|]. ti1. apply ti_intro. right. reflexivity. Qed.
Lemma ti_unsubscribe : ti unsubscribe_gateway unsubscribe_gateway.
Proof.
  unfold unsubscribe_gateway. ti1. ti1; [ti1|]. apply ti_lock. ti1. ti1; [|ti1]. ti1; [ti1|]. ti1; [apply ti_mproto|].
  ti1; [ti1|]. ti1; [ti1|]. apply ti_remove.
Qed.
Lemma ti_disconnect force : ti (async_disconnect force) (async_disconnect force).
Proof. unfold async_disconnect. ti1. ti1; [ti1; [apply ti_unsubscribe|ti1]|]. ti1; [apply ti_proto|apply ti_close]. Qed.
Lemma ti_attempt {A} connect (method method' : Z -> nat -> M A) mr : ti connect connect -> (forall mr c, ti (method mr c) (method' mr c)) -> ti (attempt_request connect method mr) (attempt_request connect method' mr).
Proof. intros C Mt. unfold attempt_request. ti1; [exact C|]. ti1; [ti1|]. ti1; [apply ti_proto|apply Mt]. Qed.
Lemma ti_connected {A} connect (method method' : Z -> nat -> M A) delay : ti connect connect -> (forall mr c, ti (method mr c) (method' mr c)) -> ti (connected_request connect method delay) (connected_request connect method' delay).
Proof.
  intros C Mt. unfold connected_request. ti1. apply ti_catch; [apply ti_attempt; assumption|].
  intros e. ti1; [apply ti_disconnect|]. ti1; [apply ti_sleep|]. apply ti_attempt; assumption.
Qed.
Lemma ti_subscribe connect : ti connect connect -> ti (subscribe_gateway connect) (subscribe_gateway connect).
Proof.
  intros C. unfold subscribe_gateway. ti1. ti1; [ti1|]. apply ti_lock. ti1. ti1; [|ti1]. ti1.
  ti1; [apply ti_connected; [exact C|intros; apply ti_intro; left; reflexivity]|]. ti1; [ti1|]. ti1; [apply ti_mproto|ti1].
Qed.
Lemma ti_attach connect c mr : ti connect connect -> ti (attach connect c mr) (attach connect c mr).
Proof.
  intros C. unfold attach. ti1; [ti1|]. ti1. ti1; [|ti1]. ti1; [ti1|]. ti1; [|apply ti_subscribe, C].
  assert (K : forall l w, m_id (w_cm (fold_left (fun w code => register c code (HClient code) w) l w)) = m_id (w_cm w) /\
    fold_left (fun w code => register c code (HClient code) w) l (ren w) = ren (fold_left (fun w code => register c code (HClient code) w) l w)).
  { induction l as [|y l IH]; intros v; cbn [fold_left]; [auto|]. split; [rewrite (proj1 (IH _)); reflexivity|].
    change (register c y (HClient y) (ren v)) with (ren (register c y (HClient y) v)). apply IH. }
  apply ti_put; intros; change (m_listeners (w_cm (ren w))) with (m_listeners (w_cm w)); apply K.
Qed.
Lemma ti_poll connect q (method : Z -> nat -> M (option bytes)) : ti connect connect -> (forall mr c, ti (method mr c) (method mr c)) -> ti (poll connect q method) (poll connect q method).
Proof. intros C Mt. unfold poll. ti1; [apply ti_connected; assumption|]. repeat ti1. Qed.
Lemma ti_create ip port : ti (create_connection ip port) (create_connection ip port).
Proof.
  unfold create_connection. ti1. ti1; [|repeat ti1]. apply ti_ask; intros r w'; destruct (r_kind r); reflexivity.
Qed.
Lemma ti_gateway_connect c mr : ti (gateway_connect c mr) (gateway_connect c mr). Proof. unfold gateway_connect. ti_r. Qed.
Lemma ti_login c mr : ti (gateway_login c mr) (gateway_login c mr). Proof. unfold gateway_login. ti_r. Qed.
Lemma ti_connect_to ip port mr : ti (connect_to_gateway ip port mr) (connect_to_gateway ip port mr).
Proof. unfold connect_to_gateway. ti1; [apply ti_create|]. ti1; [apply ti_gateway_connect|]. ti1; [apply ti_login|]. repeat ti1. Qed.
Lemma ti_connect n : forall x, ti (async_connect n x) (async_connect n x).
Proof.
  induction n as [|n IH]; intros x; cbn [async_connect]; [apply ti_stuck|]. ti1. ti1; [ti1|]. ti1; [ti1|]. ti1. ti1; [ti1|].
  ti1. ti1. ti1. ti1; [apply ti_connect_to|]. ti1; [|ti1]. destruct p as [c mac]. ti1; [ti1|]. ti1.
  ti1; [apply ti_version|]. ti1; [ti1|]. ti1. ti1; [|ti1]. ti1; [apply ti_poll; [apply IH|intros; apply ti_data]|].
  ti1; [apply ti_proto|]. ti1. ti1; [apply ti_attach, IH|]. ti1.
Qed.
Lemma ti_cmd {A} n (method : Z -> nat -> M A) delay : (forall mr c, ti (method mr c) (method mr c)) -> ti (command n method delay) (command n method delay).
Proof. intros Mt. unfold command. apply ti_connected; [apply ti_connect|exact Mt]. Qed.
Lemma ti_get_one n q (method : Z -> nat -> M (option bytes)) : (forall mr c, ti (method mr c) (method mr c)) -> ti (poll (async_connect n no_args) q method) (poll (async_connect n no_args) q method).
Proof. intros Mt. apply ti_poll; [apply ti_connect|exact Mt]. Qed.
Lemma ti_status n : ti (async_get_status n) (async_get_status n). Proof. apply ti_get_one. intros; apply ti_data. Qed.
Lemma ti_config n : ti (async_get_config n) (async_get_config n). Proof. apply ti_get_one. intros; apply ti_data. Qed.
Lemma ti_chem n : ti (async_get_chemistry n) (async_get_chemistry n). Proof. apply ti_get_one. intros; apply ti_data. Qed.
Lemma ti_scg n : ti (async_get_scg n) (async_get_scg n). Proof. apply ti_get_one. intros; apply ti_data. Qed.
Lemma ti_pumps n ids : ti (pumps_loop n ids) (pumps_loop n ids).
Proof.
  induction ids as [|i ids IH]; cbn [pumps_loop]; [ti1|]. ti1. ti1; [ti1|]. ti1; [|exact IH]. ti1; [ti1|].
  ti1; [apply ti_put; intros; unfold pumps_entry; change (w_last (ren w)) with (w_last w); destruct (din _ _); reflexivity|].
  ti1; [apply ti_cmd; intros; apply ti_pump|]. ti1; [|ti1].
  apply ti_put; intros; unfold store_pump; change (w_last (ren w)) with (w_last w); destruct (dget _ _) as [[]|]; reflexivity.
Qed.
Lemma ti_perform n call : ti (perform n call) (perform n call).
Proof.
  destruct call; cbn [perform]; unfold ignore.
  - ti1; [apply ti_connect|ti1].
  - apply ti_disconnect.
  - apply ti_config.
  - apply ti_status.
  - apply ti_chem.
  - apply ti_scg.
  - apply ti_get_one. intros; apply ti_date.
  - apply ti_pumps.
  - unfold async_update. ti1. ti1; [ti1|]. ti1; [apply ti_status|]. ti1; [apply ti_pumps|]. ti1; [apply ti_chem|]. ti1; [apply ti_scg|]. apply ti_get_one. intros; apply ti_date.
  - unfold set_max_retries. ti_r.
  - unfold async_set_circuit. repeat ti1. apply ti_cmd; intros; apply ti_command.
  - unfold async_set_heat_temp. repeat ti1. apply ti_cmd; intros; apply ti_command.
  - unfold async_set_heat_mode. repeat ti1. apply ti_cmd; intros; apply ti_command.
  - unfold async_set_color_lights. repeat ti1. apply ti_cmd; intros; apply ti_command.
  - unfold async_set_scg_config. ti1. ti1; [ti1|]. repeat match goal with x : (_ * _)%type |- _ => destruct x end. apply ti_cmd; intros; apply ti_command.
  - unfold async_set_chem_data. ti1. ti1; [ti1|]. repeat match goal with x : (_ * _)%type |- _ => destruct x end. apply ti_cmd; intros; apply ti_command.
  - unfold async_set_date_time. ti1. ti1. ti1; [ti1|]. repeat match goal with x : (_ * _)%type |- _ => destruct x end. apply ti_cmd; intros; apply ti_command.
  - unfold async_synchronize_date_time, async_set_date_time. ti1. ti1. ti1; [ti1|]. repeat match goal with x : (_ * _)%type |- _ => destruct x end. apply ti_cmd; intros; apply ti_command.
  - ti1; [|ti1]. unfold async_send_message. apply ti_cmd. intros mr c. apply ti_request.
  - unfold register_handler. repeat ti1.
  - unfold remove_handler. repeat ti1.
  - ti1; [|ti1]. unfold async_subscribe_client. ti1. ti1; [ti1|]. ti1; [ti1|]. ti1; [apply ti_mproto|]. ti1; [ti1|]. ti1.
    ti1; [|ti1]. ti1; [|ti1]. apply ti_subscribe, ti_connect.
  - unfold remove_subscription. ti1. ti1; [ti1|]. ti1; [ti1|]. ti1. ti1. ti1; [|ti1]. ti1; [apply ti_mproto|ti1].
  - apply ti_unsubscribe.
  - unfold async_ping. apply ti_catch; [|intros; ti1]. ti1; [apply ti_mproto|]. apply ti_command.
Qed.

End Id.
