(** More about the client manager in one task: lock, termination, reconnecting. *)
From Verif Require Import Py F64 Struct Utf Utility Const Spec Enum Decode World Request Gateway Traces Paths Api P_Base P_Util P_Monad P_Request P_Sat P_Paths P_Frame P_Gw1 P_Gw6 P_Gw7 P_Calm P_Gw8 P_Gw9 P_Gw10 P_Gw11 P_Cm.
Open Scope m_scope.

(** ** sessions *)
Definition sess (w w' : world) : Prop :=
  m_locked (w_cm w') = m_locked (w_cm w) /\ m_id (w_cm w') = m_id (w_cm w) /\ mono w w' /\ (follows w -> follows w').
Lemma sess_refl w : sess w w. Proof. unfold sess. repeat split; auto; apply H. Qed.
Lemma sess_trans a b c : sess a b -> sess b c -> sess a c.
Proof. intros (A2 & A3 & A4 & A5) (B2 & B3 & B4 & B5). repeat (split; [congruence|]). split; [eapply mono_trans; eassumption|auto]. Qed.
Lemma high_sess a b : high a b -> sess a b. Proof. intros (A1 & A2 & A3 & A4 & A5). repeat (split; [assumption|]). assumption. Qed.
Lemma low_sess a b : low a b -> sess a b. Proof. intros H. apply high_sess, low_high, H. Qed.

Ltac sess1 := lazymatch goal with
  | |- Rel sess (mbind _ _) => apply rel_bind; [apply sess_trans| |intros ?]
  | |- Rel sess (mret _) => apply rel_ret, sess_refl
  | |- Rel sess (mraise _) => apply rel_raise, sess_refl
  | |- Rel sess (mstuck _) => apply rel_stuck, sess_refl
  | |- Rel sess (mget _) => apply rel_get, sess_refl
  | |- Rel sess (mlift _) => apply rel_lift, sess_refl
  | |- Rel sess (if _ then _ else _) => apply rel_if
  | |- Rel sess (require _) => unfold require
  end.
Lemma connect_sess n x : Rel sess (async_connect n x).
Proof. eapply rel_weak; [apply high_sess|apply connect_high]. Qed.
Lemma command_sess {A} n X good (method : Z -> nat -> M A) delay : one_request X good method -> Rel sess (command n method delay).
Proof.
  intros Q. eapply rel_weak; [apply high_sess|]. apply connected_high; [apply connect_high|]. intros. eapply once_low, Q.
Qed.
Lemma poll_sess n k X good (method : Z -> nat -> M (option bytes)) : one_request X good method -> Rel sess (poll (async_connect n no_args) k method).
Proof.
  intros Q. eapply rel_weak; [apply high_sess|]. apply poll_high; [apply connect_high|]. intros. eapply once_low, Q.
Qed.
Lemma set_last_sess d w : sess w (set_last d w). Proof. apply high_sess, high_last. Qed.
Lemma pumps_sess n ids : Rel sess (pumps_loop n ids).
Proof.
  induction ids as [|i ids IH]; cbn [pumps_loop]; [sess1|]. sess1; [sess1|]. sess1; [sess1|]. sess1; [|exact IH]. sess1; [sess1|].
  sess1; [apply rel_put; intros w; unfold pumps_entry; destruct (din K_PUMPS (w_last w)); [apply sess_refl|apply set_last_sess]|].
  sess1; [eapply command_sess, pump_once|]. destruct a2; [|sess1]. apply rel_put. intros w. unfold store_pump.
  destruct (dget K_PUMPS (w_last w)) as [[]|]; try apply sess_refl; apply set_last_sess.
Qed.
Lemma status_sess n : Rel sess (async_get_status n).
Proof. unfold async_get_status. eapply poll_sess, data_once, ca_status. Qed.
Lemma config_sess n : Rel sess (async_get_config n).
Proof. unfold async_get_config. eapply poll_sess, data_once, ca_config. Qed.
Lemma chem_sess n : Rel sess (async_get_chemistry n).
Proof. unfold async_get_chemistry. eapply poll_sess, data_once, ca_chem. Qed.
Lemma scg_sess n : Rel sess (async_get_scg n).
Proof. unfold async_get_scg. eapply poll_sess, data_once, ca_scg. Qed.
Lemma date_sess n : Rel sess (async_get_datetime n).
Proof. unfold async_get_datetime. eapply poll_sess, time_once. Qed.
Lemma sub_sess n cb code : Rel sess (async_subscribe_client n cb code).
Proof.
  unfold async_subscribe_client. sess1; [sess1|]. apply rel_if; [sess1|].
  sess1; [apply rel_put; intros w; repeat split; auto; apply H|].
  sess1; [eapply rel_weak; [intros ? ? H; apply high_sess, mid_high, H|apply mproto_mid]|].
  sess1; [apply rel_put; intros w; apply low_sess, low_upd; intros ?; cbn; auto|]. sess1; [sess1|].
  sess1; [|sess1]. apply rel_if; [|sess1]. eapply rel_weak; [apply high_sess|]. apply subscribe_high, connect_high.
Qed.
Lemma reg_sess code h : Rel sess (register_handler code h).
Proof. unfold register_handler. sess1; [sess1|]. destruct a; [|sess1]. apply rel_put; intros w; apply low_sess, low_upd; intros ?; cbn; auto. Qed.
Lemma unreg_sess code : Rel sess (remove_handler code).
Proof. unfold remove_handler. sess1; [sess1|]. destruct a; [|sess1]. apply rel_put; intros w; apply low_sess, low_upd; intros ?; cbn; auto. Qed.
Lemma perform_sess n c : Rel sess (perform n c).
Proof.
  destruct c; cbn [perform]; unfold ignore.
  - sess1; [apply connect_sess|sess1].
  - eapply rel_weak; [intros ? ? H; apply high_sess, mid_high, H|apply disconnect_mid].
  - apply config_sess.
  - apply status_sess.
  - apply chem_sess.
  - apply scg_sess.
  - apply date_sess.
  - apply pumps_sess.
  - unfold async_update. sess1; [sess1|]. destruct a; [sess1|]. sess1; [apply status_sess|]. sess1; [apply pumps_sess|]. sess1; [apply chem_sess|]. sess1; [apply scg_sess|apply date_sess].
  - unfold set_max_retries. sess1; [|sess1]. apply rel_put. intros w. repeat split; auto; apply H.
  - unfold async_set_circuit. repeat sess1. eapply command_sess, command_once.
  - unfold async_set_heat_temp. repeat sess1. eapply command_sess, command_once.
  - unfold async_set_heat_mode. repeat sess1. eapply command_sess, command_once.
  - unfold async_set_color_lights. repeat sess1. eapply command_sess, command_once.
  - unfold async_set_scg_config. sess1; [sess1|]. sess1; [sess1|]. destruct a0 as [[[? ?] ?] ?]. eapply command_sess, command_once.
  - unfold async_set_chem_data. sess1; [sess1|]. sess1; [sess1|]. destruct a0 as [[[[[? ?] ?] ?] ?] ?]. eapply command_sess, command_once.
  - unfold async_set_date_time. sess1; [sess1|]. sess1; [sess1|]. sess1; [sess1|]. destruct a1 as [? ?]. eapply command_sess, command_once.
  - unfold async_synchronize_date_time, async_set_date_time. sess1; [sess1|]. sess1; [sess1|]. sess1; [sess1|]. destruct a1 as [? ?]. eapply command_sess, command_once.
  - sess1; [|sess1]. unfold async_send_message. eapply command_sess. exact (request_once _ _).
  - apply reg_sess.
  - apply unreg_sess.
  - sess1; [apply sub_sess|sess1].
  - unfold remove_subscription. sess1; [sess1|]. apply rel_if; [sess1|].
    sess1; [apply rel_put; intros w; repeat split; auto; apply H|]. sess1; [sess1|]. sess1; [sess1|]. apply rel_if; [|sess1].
    sess1; [eapply rel_weak; [intros ? ? H; apply high_sess, mid_high, H|apply mproto_mid]|].
    apply rel_put; intros w; apply low_sess, low_upd; intros ?; cbn; auto.
  - eapply rel_weak; [intros ? ? H; apply high_sess, mid_high, H|apply unsubscribe_mid].
  - unfold async_ping. apply rel_catch; [apply sess_trans| |intros; sess1].
    sess1; [eapply rel_weak; [intros ? ? H; apply high_sess, mid_high, H|apply mproto_mid]|].
    eapply rel_weak; [apply low_sess|]. unfold request_ping. eapply once_low, command_once.
Qed.
Lemma interfere_sess r w l w1 : interfere r w = (l, w1) -> sess w w1.
Proof.
  intros I. pose proof (hist_mono _ _ _ (hist_interfere _ _ _ _ I)) as D. apply interfere_fields in I.
  apply low_sess. split; [apply I|]. split; [apply I|exact D].
Qed.
Lemma session_sess n w l w' : session n w l w' -> sess w w'.
Proof.
  induction 1 as [w|w c t w1 o l w2 E N S IH|w r t w1 l w2 E S IH]; [apply sess_refl| |].
  - apply (sess_trans _ w1); [|exact IH]. eapply perform_sess; [exact E|exact N].
  - apply (sess_trans _ w1); [|exact IH]. eapply interfere_sess; exact E.
Qed.
Lemma new_follows a b r e h w : new_gateway a b r e h = Ok w -> follows w /\ m_locked (w_cm w) = false.
Proof.
  unfold new_gateway. destruct (_ && _); [|discriminate]. intros E. injection E as <-. split; [|reflexivity].
  repeat split; cbn; discriminate.
Qed.
Lemma session_follows n a b r e h w l w' : new_gateway a b r e h = Ok w -> session n w l w' -> follows w' /\ m_locked (w_cm w') = false.
Proof.
  intros E S. apply new_follows in E. destruct E as (F & L). apply session_sess in S. destruct S as (A & _ & _ & B). rewrite A. auto.
Qed.
Lemma not_attached w : follows w -> is_connected w = false -> attached w = false.
Proof.
  intros (_ & _ & F) U. unfold attached. destruct (m_proto (w_cm w)) as [c|] eqn:P; [|reflexivity].
  destruct (connected c w) eqn:C; [|reflexivity]. specialize (F c eq_refl C). unfold is_connected in U. rewrite F in U. congruence.
Qed.

(** ** what waits only for the environment *)
Definition env_only {A} (m : M A) : Prop := forall w t w' y, m w = (t, w', Stuck y) -> y = Waiting \/ y = Unfit.
Lemma eo_bind {A B} (m : M A) (f : A -> M B) : env_only m -> (forall a, env_only (f a)) -> env_only (mbind m f).
Proof.
  intros Hm Hf w t w' y E. apply bind_inv in E. destruct E as [(t1 & w1 & a & t2 & E1 & E2 & ->)|[(e & E1 & X)|(z & E1 & X)]].
  - eapply Hf; exact E2.
  - discriminate.
  - injection X as ->. eapply Hm; exact E1.
Qed.
Lemma eo_ret {A} (a : A) : env_only (mret a). Proof. intros w t w' y E. discriminate. Qed.
Lemma eo_raise {A} e : env_only (@mraise A e). Proof. intros w t w' y E. discriminate. Qed.
Lemma eo_unfit {A} : env_only (@mstuck A Unfit). Proof. intros w t w' y E. injection E as _ _ <-. auto. Qed.
Lemma eo_get {A} (f : world -> A) : env_only (mget f). Proof. intros w t w' y E. discriminate. Qed.
Lemma eo_put f : env_only (mput f). Proof. intros w t w' y E. discriminate. Qed.
Lemma eo_emit e : env_only (memit e). Proof. intros w t w' y E. discriminate. Qed.
Lemma eo_lift {A} (r : res A) : env_only (mlift r). Proof. destruct r; [apply eo_ret|apply eo_raise]. Qed.
Lemma eo_ask e pre : env_only (ask e pre).
Proof. intros w t w' y E. unfold ask in E. destruct (w_env w); [injection E as _ _ <-; auto|]. destruct (interfere _ _). discriminate. Qed.
Lemma eo_lose c : env_only (fun w => let '(t, w') := lose c w in (t, w', Val tt)).
Proof. intros w t w' y E. destruct (lose c w). discriminate. Qed.
Ltac eo := repeat first
  [ apply eo_bind; [|intros ?] | apply eo_ret | apply eo_raise | apply eo_get | apply eo_put | apply eo_emit | apply eo_lift
  | apply eo_ask | apply eo_lose | apply eo_unfit
  | match goal with
    | |- env_only (if ?c then _ else _) => destruct c
    | |- env_only (match ?x with _ => _ end) => destruct x
    end ].
Lemma eo_sleep ms : env_only (msleep ms). Proof. unfold msleep. eo. Qed.
Lemma eo_loop n : forall a mr c code p, env_only (request_loop n a mr c code p).
Proof.
  induction n as [|n IH]; intros; cbn [request_loop]; [apply eo_ret|]. unfold send. cbv zeta. eo; try apply eo_sleep; try apply IH.
Qed.
Lemma eo_command code pl mr c : env_only (command_request code pl mr c).
Proof. unfold command_request, make_request. apply eo_bind; [apply eo_lift|]. intros p. apply eo_bind; [apply eo_loop|]. intros r. eo. Qed.
Lemma eo_close c force : env_only (async_close c force). Proof. unfold async_close. eo. Qed.

Lemma attempt_noopen {A} n (method : Z -> nat -> M A) mr w t w' o : (forall mr c, Rel low (method mr c)) -> (forall mr c, env_only (method mr c)) ->
  attempt_request (async_connect (S n) no_args) method mr w = (t, w', o) -> opens t = [] ->
  (forall y, o = Stuck y -> y = Waiting \/ y = Unfit) /\ (forall e, o = Exc e -> is_comm_error e = true -> low w w').
Proof.
  intros L E0 E O. unfold attempt_request in E. apply bind_inv in E.
  destruct E as [(t1 & w1 & a & t2 & E1 & E2 & ->)|[(e & E1 & ->)|(y & E1 & ->)]].
  - rewrite opens_app in O. apply app_eq_nil in O. destruct O as [O1 O2]. apply connect_noopen in E1; [|exact O1].
    destruct E1 as (_ & -> & U & ->). cbn [negb] in E2. unfold is_connected in U. destruct (w_proto w) as [c|] eqn:P; [|discriminate].
    unfold proto_or_fail in E2. rewrite bind_assoc, bind_get, P, bind_ret in E2.
    split; [intros y ->; eapply E0; exact E2|]. intros e -> _. eapply L; [exact E2|discriminate].
  - apply connect_noopen in E1; [|exact O]. destruct E1 as (_ & -> & _). split; [discriminate|]. intros e X. injection X as <-. discriminate.
  - exfalso. pose proof E1 as F. apply connect_noopen in E1; [|exact O]. destruct E1 as (_ & X & _). discriminate.
Qed.
Lemma subscribe_noopen n w t w' y : subscribe_gateway (async_connect (S n) no_args) w = (t, w', Stuck y) -> m_locked (w_cm w) = false -> opens t = [] ->
  y = Waiting \/ y = Unfit.
Proof.
  unfold subscribe_gateway. rewrite bind_get. destruct (attached w) eqn:At; cbn [negb]; [|discriminate].
  unfold with_lock. rewrite bind_get. intros E L O. rewrite L, bind_put in E. unfold mfinally in E.
  match type of E with (let '(_, _) := ?m ?w1 in _) = _ => set (w0 := w1) in E; destruct (m w0) as [[t1 w1'] o1] eqn:E1 end.
  destruct o1 as [a|e|y1]; try discriminate. injection E as <- <- <-. rename w1' into w1.
  rewrite bind_get in E1. destruct (is_client w0) eqn:Ic; cbn [negb] in E1; [discriminate|].
  assert (Mc : m_is_client (w_cm w0) = false).
  { unfold is_client in Ic. unfold w0 in Ic |- *. cbn [put_cm set_cm w_cm cmset_locked m_is_client] in Ic |- *. unfold attached in At, Ic.
    cbn [put_cm set_cm w_cm cmset_locked m_proto] in Ic. destruct (m_is_client (w_cm w)); [|reflexivity]. cbn [andb] in Ic.
    exfalso. assert (X : true = false) by (etransitivity; [symmetry; exact At|exact Ic]). discriminate. }
  rewrite bind_get in E1. apply bind_inv in E1. destruct E1 as [(s1 & v1 & a & s2 & E1 & E2 & ->)|[(e & E1 & X)|(z & E1 & X)]].
  - exfalso. rewrite bind_put in E2. unfold m_proto_or_fail in E2. rewrite bind_assoc, bind_get in E2. destruct (m_proto _); discriminate.
  - discriminate.
  - injection X as ->. unfold connected_request in E1. rewrite bind_get in E1. unfold mcatch in E1.
    destruct (attempt_request _ _ _ _) as [[s1 v1] o1] eqn:A1. destruct o1 as [a|e|z1].
    + discriminate.
    + destruct (is_comm_error e) eqn:Ce; [|discriminate].
      match type of E1 with (let '(_, _) := ?m ?w1 in _) = _ => destruct (m w1) as [[s2 v2] o2] eqn:E2 end.
      injection E1 as Xa Xb Xc; subst. rewrite opens_app in O. apply app_eq_nil in O. destruct O as [O1 O2].
      apply attempt_noopen in A1; [|intros; apply add_low|intros; apply eo_command|exact O1]. destruct A1 as (_ & A1). specialize (A1 e eq_refl Ce).
      destruct A1 as (P1 & C1 & M1). rewrite <- C1 in Mc.
      apply bind_inv in E2. destruct E2 as [(s3 & v3 & a3 & s4 & F1 & F2 & ->)|[(e3 & F1 & X)|(z3 & F1 & X)]]; [|discriminate|].
      * rewrite opens_app in O2. apply app_eq_nil in O2. destruct O2 as [O2 O3].
        apply bind_inv in F2. destruct F2 as [(s5 & v5 & a5 & s6 & G1 & G2 & ->)|[(e3 & G1 & X)|(z3 & G1 & X)]]; [|discriminate|].
        -- rewrite opens_app in O3. apply app_eq_nil in O3. destruct O3 as [O3 O4].
           apply attempt_noopen in G2; [|intros; apply add_low|intros; apply eo_command|exact O4]. apply G2. reflexivity.
        -- injection X as ->. eapply eo_sleep; exact G1.
      * injection X as ->. unfold async_disconnect in F1. rewrite bind_get in F1. unfold is_client in F1. rewrite Mc in F1. cbn [andb] in F1.
        rewrite bind_ret in F1. unfold proto_or_fail in F1. rewrite bind_assoc, bind_get in F1. destruct (w_proto v1); [|discriminate].
        rewrite bind_ret in F1. eapply eo_close; exact F1.
    + injection E1 as Xa Xb Xc; subst. apply attempt_noopen in A1; [|intros; apply add_low|intros; apply eo_command|exact O]. apply A1. reflexivity.
Qed.
Lemma sub_noopen n cb code w t w' y : async_subscribe_client (S n) cb code w = (t, w', Stuck y) -> m_locked (w_cm w) = false -> opens t = [] ->
  y = Waiting \/ y = Unfit.
Proof.
  unfold async_subscribe_client. rewrite bind_get. destruct (attached w) eqn:At; cbn [negb]; [|discriminate].
  intros E L O. rewrite bind_put in E. unfold m_proto_or_fail in E. rewrite bind_assoc, bind_get in E.
  destruct (m_proto _) as [c|]; [|discriminate]. rewrite bind_ret, bind_put, bind_get in E.
  match type of E with context [client_needed ?v] => set (w1 := v) in E end.
  destruct (client_needed w1); [|rewrite bind_ret in E; discriminate].
  apply bind_inv in E. destruct E as [(s1 & v1 & a & s2 & E1 & E2 & ->)|[(e & E1 & X)|(z & E1 & X)]]; try discriminate.
  injection X as ->. eapply subscribe_noopen; [exact E1|exact L|exact O].
Qed.
