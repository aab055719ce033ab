(** Proofs for Prop_Slow.v: every public call. *)
From Verif Require Import Py F64 Struct Utf Utility Const Enum Decode World Request Gateway Traces Api P_Base P_Util P_Monad P_Request SpecSlow P_Slow.
Open Scope m_scope.

Section Slow.
Variable lim : Z -> Z.
Hypothesis Once16 : lim 16 <= 0.
Hypothesis Once12524 : lim 12524 <= 0.
Local Notation tol := (tol lim).
Local Notation J := (J lim).

Lemma tol_if {A} (b : bool) (m n : M A) : tol m -> tol n -> tol (if b then m else n).
Proof. destruct b; auto. Qed.
Lemma tol_decode (m : DM unit) : tol (mdecode m).
Proof.
  intros w t w1 o E N K. unfold mdecode in *. destruct (m (w_data w)) as [d r] eqn:D. injection E as <- <- <-. split; [exact K|]. split; [constructor|].
  intros e t' tl S. apply slower_nil in S. destruct S as (-> & ->). cbn [app set_env w_data]. rewrite D. reflexivity.
Qed.
Ltac tol1 := lazymatch goal with
  | |- P_Slow.tol _ (mbind (mget _) _) => apply tol_get; [intros; reflexivity|intros ? ?]
  | |- P_Slow.tol _ (mbind _ _) => apply tol_bind; [|intros ?]
  | |- P_Slow.tol _ (mret _) => apply tol_ret
  | |- P_Slow.tol _ (mraise _) => apply tol_raise
  | |- P_Slow.tol _ (mstuck _) => apply tol_stuck
  | |- P_Slow.tol _ (mlift _) => apply tol_lift
  | |- P_Slow.tol _ (mput _) => apply tol_put; [intros; reflexivity|intros; reflexivity]
  | |- P_Slow.tol _ (memit _) => apply tol_emit; exact Logic.I
  | |- P_Slow.tol _ (mdecode _) => apply tol_decode
  | |- P_Slow.tol _ (ask _ nopre) => apply tol_ask; [exact Logic.I|intros; reflexivity|intros; reflexivity]
  | |- P_Slow.tol _ (require _) => unfold require
  | |- P_Slow.tol _ (match ?x with _ => _ end) => destruct x
  end.

Lemma tol_sleep ms : tol (msleep ms). Proof. unfold msleep. repeat tol1. Qed.
Lemma tol_data X p dec mr c : lim X <= mr -> tol (data_request X p dec mr c).
Proof. intros L. unfold data_request. tol1; [apply tol_request, L|]. repeat tol1. Qed.
Lemma tol_date mr c : lim 8110 <= mr -> tol (request_date_time mr c).
Proof. intros L. unfold request_date_time. tol1; [apply tol_request, L|]. repeat tol1. Qed.
Lemma tol_pump i mr c : lim 12584 <= mr -> tol (request_pump_status i mr c).
Proof. intros L. unfold request_pump_status. tol1; [tol1|]. apply tol_data, L. Qed.
Lemma tol_version mr c : lim 8120 <= mr -> tol (request_gateway_version mr c).
Proof. intros L. unfold request_gateway_version. tol1. apply tol_data, L. Qed.
Lemma tol_command X pl mr c : lim X <= mr -> tol (command_request X pl mr c).
Proof. intros L. unfold command_request. tol1; [tol1|]. tol1; [apply tol_request, L|]. repeat tol1. Qed.

Lemma tol_close c force : tol (async_close c force).
Proof. unfold async_close. repeat tol1; apply tol_lose. Qed.
Lemma tol_mproto : tol m_proto_or_fail. Proof. unfold m_proto_or_fail. repeat tol1. Qed.
Lemma tol_proto : tol proto_or_fail. Proof. unfold proto_or_fail. repeat tol1. Qed.
Lemma tol_lock {A} (m : M A) : tol m -> tol (with_lock m).
Proof.
  intros H. unfold with_lock. tol1. tol1; [tol1|]. tol1; [tol1|]. apply tol_finally; [exact H|intros; reflexivity|intros; reflexivity].
Qed.
Lemma tol_remove : tol remove_client.
Proof.
  unfold remove_client. apply tol_catch; [|intros; tol1]. tol1; [apply tol_mproto|]. tol1. apply tol_command. exact Once12524.
Qed.
Lemma tol_unsubscribe : tol unsubscribe_gateway.
Proof.
  unfold unsubscribe_gateway. tol1. tol1; [tol1|]. apply tol_lock. tol1. tol1; [|tol1]. tol1; [tol1|]. tol1; [apply tol_mproto|].
  tol1; [tol1|]. tol1; [tol1|]. apply tol_remove.
Qed.
Lemma tol_disconnect force : tol (async_disconnect force).
Proof. unfold async_disconnect. tol1. tol1; [tol1; [apply tol_unsubscribe|tol1]|]. tol1; [apply tol_proto|apply tol_close]. Qed.
Lemma tol_attempt {A} connect (method : Z -> nat -> M A) mr : tol connect -> (forall c, tol (method mr c)) -> tol (attempt_request connect method mr).
Proof. intros C Mt. unfold attempt_request. tol1; [exact C|]. tol1; [tol1|]. tol1; [apply tol_proto|apply Mt]. Qed.
Definition fits {A} (method : Z -> nat -> M A) : Prop := forall mr c, (forall X, lim X <= mr) -> tol (method mr c).
Lemma tol_connected {A} connect (method : Z -> nat -> M A) delay : tol connect -> fits method -> tol (connected_request connect method delay).
Proof.
  intros C Mt. unfold connected_request. tol1. apply tol_catch; [apply tol_attempt; [exact C|intros; apply Mt; assumption]|].
  intros e. tol1; [apply tol_disconnect|]. tol1; [apply tol_sleep|]. apply tol_attempt; [exact C|intros; apply Mt; assumption].
Qed.
Lemma tol_subscribe connect : tol connect -> tol (subscribe_gateway connect).
Proof.
  intros C. unfold subscribe_gateway. tol1. tol1; [tol1|]. apply tol_lock. tol1. tol1; [|tol1]. tol1.
  tol1; [apply tol_connected; [exact C|]; intros ? ? L; apply tol_command, L|]. tol1; [tol1|]. tol1; [apply tol_mproto|tol1].
Qed.
Lemma register_env e c X h w : register c X h (set_env e w) = set_env e (register c X h w). Proof. reflexivity. Qed.
Lemma tol_attach connect c mr : tol connect -> tol (attach connect c mr).
Proof.
  intros C. unfold attach. tol1; [tol1|]. tol1. tol1; [|tol1]. tol1; [tol1|]. tol1; [|apply tol_subscribe, C].
  assert (K : forall l w, w_retries (fold_left (fun w code => register c code (HClient code) w) l w) = w_retries w /\
    forall e, fold_left (fun w code => register c code (HClient code) w) l (set_env e w) = set_env e (fold_left (fun w code => register c code (HClient code) w) l w)).
  { induction l as [|x l IH]; intros v; cbn [fold_left]; [auto|]. split; [rewrite (proj1 (IH _)); reflexivity|]. intros e. rewrite register_env. apply IH. }
  apply tol_put; intros; cbn [set_env w_cm]; apply K.
Qed.
Lemma tol_poll connect k (method : Z -> nat -> M (option bytes)) : tol connect -> fits method -> tol (poll connect k method).
Proof. intros C Mt. unfold poll. tol1; [apply tol_connected; assumption|]. repeat tol1. Qed.
Lemma tol_create ip port : tol (create_connection ip port).
Proof.
  unfold create_connection. tol1. tol1; [|repeat tol1]. apply tol_ask; [exact Logic.I| |].
  - intros r e w'. destruct (r_kind r); reflexivity.
  - intros r w'. destruct (r_kind r); reflexivity.
Qed.
Lemma tol_gateway_connect c mr : lim 14 <= mr -> tol (gateway_connect c mr).
Proof.
  intros L. unfold gateway_connect. tol1. tol1; [repeat tol1|]. tol1; [apply tol_sleep|]. tol1. tol1; [tol1|].
  tol1; [apply tol_request, L|]. repeat tol1.
Qed.
Lemma tol_login c mr : lim 27 <= mr -> tol (gateway_login c mr).
Proof. intros L. unfold gateway_login. tol1; [tol1|]. tol1; [apply tol_request, L|]. repeat tol1. Qed.
Lemma tol_connect_to ip port mr : (forall X, lim X <= mr) -> tol (connect_to_gateway ip port mr).
Proof.
  intros L. unfold connect_to_gateway. tol1; [apply tol_create|]. tol1; [apply tol_gateway_connect, L|]. tol1; [apply tol_login, L|]. repeat tol1.
Qed.
Lemma fits_data X p dec : fits (data_request X p dec). Proof. intros mr c L. apply tol_data, L. Qed.
Lemma fits_command X pl : fits (command_request X pl). Proof. intros mr c L. apply tol_command, L. Qed.
Lemma tol_connect n : forall x, tol (async_connect n x).
Proof.
  induction n as [|n IH]; intros x; cbn [async_connect]; [apply tol_stuck|]. tol1. tol1; [tol1|]. tol1; [tol1|]. tol1. tol1; [tol1|].
  tol1. tol1. tol1. tol1; [apply tol_connect_to; assumption|]. tol1; [|tol1]. destruct p as [c mac]. tol1; [tol1|]. tol1.
  tol1; [apply tol_version; auto|]. tol1; [tol1|]. tol1. tol1; [|tol1]. tol1; [apply tol_poll; [apply IH|apply fits_data]|].
  tol1; [apply tol_proto|]. tol1. tol1; [apply tol_attach, IH|]. tol1.
Qed.
Lemma tol_cmd {A} n (method : Z -> nat -> M A) delay : fits method -> tol (command n method delay).
Proof. intros Mt. unfold command. apply tol_connected; [apply tol_connect|exact Mt]. Qed.
Lemma tol_get_one n k (method : Z -> nat -> M (option bytes)) : fits method -> tol (poll (async_connect n no_args) k method).
Proof. intros Mt. apply tol_poll; [apply tol_connect|exact Mt]. Qed.
Lemma tol_status n : tol (async_get_status n). Proof. apply tol_get_one, fits_data. Qed.
Lemma tol_config n : tol (async_get_config n). Proof. apply tol_get_one, fits_data. Qed.
Lemma tol_chem n : tol (async_get_chemistry n). Proof. apply tol_get_one, fits_data. Qed.
Lemma tol_scg n : tol (async_get_scg n). Proof. apply tol_get_one, fits_data. Qed.
Lemma tol_datetime n : tol (async_get_datetime n). Proof. apply tol_get_one. intros mr c L. apply tol_date, L. Qed.
Lemma tol_pumps n ids : tol (pumps_loop n ids).
Proof.
  induction ids as [|i ids IH]; cbn [pumps_loop]; [tol1|]. tol1. tol1; [tol1|]. tol1; [|exact IH]. tol1; [tol1|].
  tol1; [apply tol_put; intros; unfold pumps_entry; cbn [set_env w_last]; destruct (din _ _); reflexivity|].
  tol1; [apply tol_cmd; intros mr c L; apply tol_pump, L|]. tol1; [|tol1].
  apply tol_put; intros; unfold store_pump; cbn [set_env w_last]; destruct (dget _ _) as [[]|]; reflexivity.
Qed.
Lemma tol_perform n call : (forall k, call <> SetMaxRetries k) -> tol (perform n call).
Proof.
  intros Ns. destruct call; cbn [perform]; unfold ignore.
  - tol1; [apply tol_connect|tol1].
  - apply tol_disconnect.
  - apply tol_config.
  - apply tol_status.
  - apply tol_chem.
  - apply tol_scg.
  - apply tol_datetime.
  - apply tol_pumps.
  - unfold async_update. tol1. tol1; [tol1|]. tol1; [apply tol_status|]. tol1; [apply tol_pumps|]. tol1; [apply tol_chem|]. tol1; [apply tol_scg|apply tol_datetime].
  - destruct (Ns k eq_refl).
  - unfold async_set_circuit. repeat tol1. apply tol_cmd, fits_command.
  - unfold async_set_heat_temp. repeat tol1. apply tol_cmd, fits_command.
  - unfold async_set_heat_mode. repeat tol1. apply tol_cmd, fits_command.
  - unfold async_set_color_lights. repeat tol1. apply tol_cmd, fits_command.
  - unfold async_set_scg_config. tol1. tol1; [tol1|]. destruct a as [[[? ?] ?] ?]. apply tol_cmd, fits_command.
  - unfold async_set_chem_data. tol1. tol1; [tol1|]. destruct a as [[[[[? ?] ?] ?] ?] ?]. apply tol_cmd, fits_command.
  - unfold async_set_date_time. tol1. tol1. tol1; [tol1|]. destruct a as [? ?]. apply tol_cmd, fits_command.
  - unfold async_synchronize_date_time, async_set_date_time. tol1. tol1. tol1; [tol1|]. destruct a as [? ?]. apply tol_cmd, fits_command.
  - tol1; [|tol1]. unfold async_send_message. apply tol_cmd. intros mr c L. apply tol_request, L.
  - unfold register_handler. repeat tol1.
  - unfold remove_handler. repeat tol1.
  - tol1; [|tol1]. unfold async_subscribe_client. tol1. tol1; [tol1|]. tol1; [tol1|]. tol1; [apply tol_mproto|]. tol1; [tol1|]. tol1.
    tol1; [|tol1]. tol1; [|tol1]. apply tol_subscribe, tol_connect.
  - unfold remove_subscription. tol1. tol1; [tol1|]. tol1; [tol1|]. tol1. tol1. tol1; [|tol1]. tol1; [apply tol_mproto|tol1].
  - apply tol_unsubscribe.
  - unfold async_ping. apply tol_catch; [|intros; tol1]. tol1; [apply tol_mproto|]. apply tol_command. exact Once16.
Qed.
End Slow.

Lemma late_more_tries n n' c X b r j l t : (forall i, 1 <= i <= n -> i <= n') -> late n c X b r j l t -> 1 <= j -> late n' c X b r j l t.
Proof. intros L. induction 1 as [j|j q p l t Lj F P S IH]; intros J1; constructor; auto. - apply IH. lia. Qed.
Lemma slower_more_tries n n' t e t' : (forall X i, 1 <= i <= n X -> i <= n' X) -> slower n t e t' -> slower n' t e t'.
Proof.
  intros L. induction 1; try (econstructor; eassumption).
  econstructor; [eassumption| |assumption]. eapply late_more_tries; [|eassumption|lia]. apply L.
Qed.
Lemma is_limit_call call : (exists k, call = SetMaxRetries k) \/ forall k, call <> SetMaxRetries k.
Proof. destruct call; try (right; discriminate). left. eauto. Qed.
