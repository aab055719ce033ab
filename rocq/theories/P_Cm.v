(** Proofs about the client manager in one task: what connecting and subscribing keep. *)
From Verif Require Import Py F64 Struct Utf Utility Const Spec Enum Decode World Request Gateway Traces Paths Api P_Base P_Util P_Monad P_Request P_Sat P_Paths P_Gw1 P_Gw6 P_Gw7 P_Calm P_Gw8 P_Gw9.
Open Scope m_scope.

Definition ends {A} (o : out A) : Prop := forall y, o <> Stuck y.
(** [m], when it ends, relates the worlds before and after *)
Definition Rel (R : world -> world -> Prop) {A} (m : M A) : Prop := forall w t w' o, m w = (t, w', o) -> ends o -> R w w'.

Section Pre.
Variable R : world -> world -> Prop.
Hypothesis Rr : forall w, R w w.
Hypothesis Rt : forall a b c, R a b -> R b c -> R a c.
Lemma rel_ret {A} (a : A) : Rel R (mret a). Proof. intros w t w' o E _. injection E as _ <- _. apply Rr. Qed.
Lemma rel_raise {A} e : Rel R (@mraise A e). Proof. intros w t w' o E _. injection E as _ <- _. apply Rr. Qed.
Lemma rel_stuck {A} e : Rel R (@mstuck A e). Proof. intros w t w' o E _. injection E as _ <- _. apply Rr. Qed.
Lemma rel_get {A} (f : world -> A) : Rel R (mget f). Proof. intros w t w' o E _. injection E as _ <- _. apply Rr. Qed.
Lemma rel_lift {A} (r : res A) : Rel R (mlift r). Proof. destruct r; [apply rel_ret|apply rel_raise]. Qed.
Lemma rel_put f : (forall w, R w (f w)) -> Rel R (mput f). Proof. intros H w t w' o E _. injection E as _ <- _. apply H. Qed.
Lemma rel_emit e : Rel R (memit e). Proof. intros w t w' o E _. injection E as _ <- _. apply Rr. Qed.
Lemma rel_if {A} (b : bool) (m1 m2 : M A) : Rel R m1 -> Rel R m2 -> Rel R (if b then m1 else m2). Proof. destruct b; auto. Qed.
Lemma rel_bind {A B} (m : M A) (f : A -> M B) : Rel R m -> (forall a, Rel R (f a)) -> Rel R (mbind m f).
Proof.
  intros Hm Hf w t w' o E N. unfold mbind in E. destruct (m w) as [[t1 w1] o1] eqn:E1. destruct o1 as [a|e|y].
  - destruct (f a w1) as [[t2 w2] o2] eqn:E2. injection E as <- <- <-. apply (Rt _ w1); [eapply Hm; [exact E1|discriminate]|eapply Hf; [exact E2|exact N]].
  - injection E as <- <- <-. eapply Hm; [exact E1|discriminate].
  - injection E as <- <- <-. exfalso. apply (N y). reflexivity.
Qed.
(** a read, known in what follows *)
Lemma rel_get_bind {A B} (f : world -> A) (k : A -> M B) :
  (forall w t w' o, k (f w) w = (t, w', o) -> ends o -> R w w') -> Rel R (mbind (mget f) k).
Proof. intros H w t w' o E N. rewrite bind_get in E. eapply H; eassumption. Qed.
Lemma rel_catch {A} (m : M A) p h : Rel R m -> (forall e, Rel R (h e)) -> Rel R (mcatch m p h).
Proof.
  intros Hm Hf w t w' o E N. unfold mcatch in E. destruct (m w) as [[t1 w1] o1] eqn:E1. destruct o1 as [a|e|y].
  - injection E as <- <- <-. eapply Hm; [exact E1|discriminate].
  - destruct (p e).
    + destruct (h e w1) as [[t2 w2] o2] eqn:E2. injection E as <- <- <-. apply (Rt _ w1); [eapply Hm; [exact E1|discriminate]|eapply Hf; [exact E2|exact N]].
    + injection E as <- <- <-. eapply Hm; [exact E1|discriminate].
  - injection E as <- <- <-. exfalso. apply (N y). reflexivity.
Qed.
End Pre.
Lemma rel_weak (R S : world -> world -> Prop) {A} (m : M A) : (forall a b, R a b -> S a b) -> Rel R m -> Rel S m.
Proof. intros H K w t w' o E N. eapply H, K; eassumption. Qed.

(** ** connections: none disappears, a dead one stays dead *)
Definition mono (w w' : world) : Prop :=
  (List.length (w_conns w) <= List.length (w_conns w'))%nat /\
  forall c, (c < List.length (w_conns w))%nat -> connected c w = false -> connected c w' = false.
Lemma mono_refl w : mono w w. Proof. split; [apply Nat.le_refl|auto]. Qed.
Lemma mono_trans a b c : mono a b -> mono b c -> mono a c.
Proof. intros [A1 A2] [B1 B2]. split; [lia|]. intros k L D. apply B2; [lia|]. apply A2; assumption. Qed.
Lemma hist_mono w t w' : conn_hist w t w' -> mono w w'. Proof. intros (A & B & _). split; assumption. Qed.

(** what requests keep *)
Definition low (w w' : world) : Prop := w_proto w' = w_proto w /\ w_cm w' = w_cm w /\ mono w w'.
Lemma low_refl w : low w w. Proof. repeat split; auto. Qed.
Lemma low_trans a b c : low a b -> low b c -> low a c.
Proof. intros (A1 & A2 & A3) (B1 & B2 & B3). split; [congruence|]. split; [congruence|]. eapply mono_trans; eassumption. Qed.
Lemma kept_low w t w' : kept w w' -> conn_hist w t w' -> low w w'.
Proof. intros (_ & _ & P & _ & _ & C & _) H. repeat split; auto; apply (hist_mono _ _ _ H). Qed.
Lemma once_low {A} X good (method : Z -> nat -> M A) mr c : one_request X good method -> Rel low (method mr c).
Proof. intros Q w t w' o E _. eapply kept_low; [eapply q_kept; eassumption|eapply q_hist; eassumption]. Qed.
Lemma request_low c X p mr : Rel low (make_request c X p mr).
Proof. exact (once_low X _ (fun mr c => make_request c X p mr) mr c (request_once X p)). Qed.
Lemma ask_low e pre : (forall r w, low w (pre r w)) -> Rel low (ask e pre).
Proof.
  intros P w t w' o E _. unfold ask in E. destruct (w_env w) as [|r rest]; [injection E as _ <- _; apply low_refl|].
  destruct (interfere r (pre r (set_env rest w))) as [l w1] eqn:I. injection E as _ <- _.
  pose proof (P r (set_env rest w)) as (A & B & C). pose proof (hist_mono _ _ _ (hist_interfere _ _ _ _ I)) as D.
  apply interfere_fields in I. cbn [set_env w_proto w_cm] in *. destruct I as (_ & _ & I1 & I2 & I3 & I4 & _).
  split; [congruence|]. split; [|eapply mono_trans; [|exact D]; exact C]. intuition congruence.
Qed.
Lemma sleep_low ms : Rel low (msleep ms).
Proof.
  unfold msleep. apply rel_bind; [apply low_trans|apply ask_low; intros; apply low_refl|]. intros r.
  destruct (r_kind r); auto using rel_ret, rel_raise, rel_stuck, low_refl.
Qed.
Lemma opened_low r w : low w (match r_kind r with KDone => set_conns (w_conns w ++ [new_conn]) w | _ => w end).
Proof.
  destruct (r_kind r) eqn:K; try apply low_refl. split; [reflexivity|]. split; [reflexivity|].
  pose proof (hist_mono _ _ _ (hist_opened r w)) as H. unfold opened in H. rewrite K in H. exact H.
Qed.
Ltac low1 := lazymatch goal with
  | |- Rel low (mbind _ _) => apply rel_bind; [apply low_trans| |intros ?]
  | |- Rel low (mret _) => apply rel_ret, low_refl
  | |- Rel low (mraise _) => apply rel_raise, low_refl
  | |- Rel low (mstuck _) => apply rel_stuck, low_refl
  | |- Rel low (mget _) => apply rel_get, low_refl
  | |- Rel low (mlift _) => apply rel_lift, low_refl
  | |- Rel low (memit _) => apply rel_emit, low_refl
  | |- Rel low (msleep _) => apply sleep_low
  | |- Rel low (make_request _ _ _ _) => apply request_low
  | |- Rel low (if _ then _ else _) => apply rel_if
  | |- Rel low (match ?x with _ => _ end) => destruct x
  end.
Lemma connect_to_low ip port mr : Rel low (connect_to_gateway ip port mr).
Proof.
  unfold connect_to_gateway, create_connection, gateway_connect, gateway_login.
  repeat first [low1 | apply ask_low; intros; apply opened_low].
Qed.
Lemma version_low mr c : Rel low (request_gateway_version mr c).
Proof. unfold request_gateway_version. low1; [low1|]. exact (once_low _ _ _ mr c (data_once 8120 [] (decode_version a) (ca_version a))). Qed.

(** what disconnecting keeps *)
Definition mid (w w' : world) : Prop :=
  w_proto w' = w_proto w /\ m_proto (w_cm w') = m_proto (w_cm w) /\ m_listeners (w_cm w') = m_listeners (w_cm w) /\
  m_locked (w_cm w') = m_locked (w_cm w) /\ m_id (w_cm w') = m_id (w_cm w) /\ mono w w'.
Lemma mid_refl w : mid w w. Proof. repeat split; auto. Qed.
Lemma mid_trans a b c : mid a b -> mid b c -> mid a c.
Proof.
  intros (A1 & A2 & A3 & A4 & A5 & A6) (B1 & B2 & B3 & B4 & B5 & B6). repeat (split; [congruence|]). eapply mono_trans; eassumption.
Qed.
Lemma low_mid a b : low a b -> mid a b.
Proof. intros (A & B & C). unfold mid. rewrite B. auto 10. Qed.
Lemma mono_upd c f w : mild f -> mono w (upd_conn c f w).
Proof. intros Hf. apply (hist_mono _ [] _). apply (R_conn _ _ hist_closed). exact Hf. Qed.
Lemma low_upd c f w : mild f -> low w (upd_conn c f w).
Proof. intros Hf. split; [reflexivity|]. split; [reflexivity|]. apply mono_upd, Hf. Qed.
Lemma mono_cm f w : mono w (put_cm f w). Proof. split; [apply Nat.le_refl|auto]. Qed.
Lemma mid_client b w : mid w (put_cm (cmset_client b) w). Proof. repeat split; auto. Qed.

Lemma close_low c force : Rel low (async_close c force).
Proof.
  unfold async_close.
  assert (M1 : mild (fun k => mkConn (c_connected k) true (c_open k) (c_handlers k) (c_keepalive k))) by (intros k; cbn; auto).
  assert (M2 : mild (fun k => mkConn (c_connected k) (c_closing k) false (c_handlers k) (c_keepalive k))) by (intros k; cbn; split; [reflexivity|split; [discriminate|auto]]).
  assert (L : Rel low (fun w => let '(t, w') := lose c w in (t, w', Val tt))).
  { intros w t w' o E _. destruct (lose c w) as [l w1] eqn:E1. injection E as _ <- _.
    pose proof (hist_mono _ _ _ (R_lose _ _ hist_closed _ _ _ _ E1)) as H. apply lose_fields in E1. split; [apply E1|]. split; [apply E1|exact H]. }
  low1; [apply rel_put; intros w; apply low_upd, M1|]. low1; [apply ask_low; intros; apply low_refl|].
  assert (K : Rel low (
      k <- mget (get_conn c) ;;
      (if c_open k then memit (CloseTransport c) ;;; mput (mark_shut c) else mret tt) ;;;
      still <- mget (connected c) ;;
      if negb still then mret tt
      else
        r2 <- ask (AwaitClosed c) nopre ;;
        match r_kind r2 with
        | KDone => fun w => let '(t, w') := lose c w in (t, w', Val tt)
        | KCancelTask => mraise ECancelled
        | _ => mstuck Unfit
        end)).
  { low1; [low1|]. low1; [apply rel_if; [low1; [low1|apply rel_put; intros w; apply low_upd, M2]|low1]|].
    low1; [low1|]. apply rel_if; [low1|]. low1; [apply ask_low; intros; apply low_refl|].
    destruct (r_kind a4); first [exact L | apply rel_raise, low_refl | apply rel_stuck, low_refl]. }
  destruct (r_kind a0); first [exact K | apply rel_stuck, low_refl].
Qed.

Lemma with_lock_rel (R : world -> world -> Prop) {A} (m : M A) :
  (forall w w', R (put_cm (cmset_locked true) w) w' -> m_locked (w_cm w) = false -> R w (put_cm (cmset_locked false) w')) ->
  Rel R m -> forall w t w' o, with_lock m w = (t, w', o) -> ends o -> R w w'.
Proof.
  intros H Hm w t w' o E N. unfold with_lock in E. rewrite bind_get in E. destruct (m_locked (w_cm w)) eqn:L.
  - injection E as _ _ <-. exfalso. apply (N Blocked). reflexivity.
  - rewrite bind_put in E. unfold mfinally in E. destruct (m (put_cm (cmset_locked true) w)) as [[t1 w1] o1] eqn:E1.
    destruct o1 as [a|e|y]; injection E as <- <- <-; [| |exfalso; apply (N y); reflexivity]; apply H; auto; eapply Hm; try exact E1; discriminate.
Qed.
Lemma mid_unlock w w' : mid (put_cm (cmset_locked true) w) w' -> m_locked (w_cm w) = false -> mid w (put_cm (cmset_locked false) w').
Proof.
  intros (A1 & A2 & A3 & A4 & A5 & A6) L. cbn [put_cm set_cm w_cm w_proto cmset_locked m_proto m_listeners m_id m_locked] in *.
  unfold mid. cbn [put_cm set_cm w_cm w_proto cmset_locked m_proto m_listeners m_id m_locked]. auto 10.
Qed.
Ltac mid1 := lazymatch goal with
  | |- Rel mid (mbind _ _) => apply rel_bind; [apply mid_trans| |intros ?]
  | |- Rel mid (mret _) => apply rel_ret, mid_refl
  | |- Rel mid (mraise _) => apply rel_raise, mid_refl
  | |- Rel mid (mstuck _) => apply rel_stuck, mid_refl
  | |- Rel mid (mget _) => apply rel_get, mid_refl
  | |- Rel mid (if _ then _ else _) => apply rel_if
  | |- Rel mid (mput (put_cm (cmset_client _))) => apply rel_put; intros; apply mid_client
  | |- Rel mid (mput (keepalive _ _)) => apply rel_put; intros; apply low_mid, low_upd; intros ?; cbn; auto
  | |- Rel mid (mput (unregister_all _)) => apply rel_put; intros; apply low_mid, low_upd; intros ?; cbn; auto
  end.
Lemma mproto_mid : Rel mid m_proto_or_fail.
Proof. unfold m_proto_or_fail. mid1; [mid1|]. destruct a; mid1. Qed.
Lemma proto_mid : Rel mid proto_or_fail.
Proof. unfold proto_or_fail. mid1; [mid1|]. destruct a; mid1. Qed.
Lemma remove_mid : Rel mid remove_client.
Proof.
  unfold remove_client. apply rel_catch; [apply mid_trans| |intros; mid1]. mid1; [apply mproto_mid|]. mid1; [mid1|].
  eapply rel_weak; [apply low_mid|]. unfold request_remove_client. eapply once_low, command_once.
Qed.
Lemma unsubscribe_mid : Rel mid unsubscribe_gateway.
Proof.
  unfold unsubscribe_gateway. mid1; [mid1|]. apply rel_if; [mid1|]. intros w t w' o. apply with_lock_rel; [apply mid_unlock|].
  mid1; [mid1|]. mid1; [|mid1]. mid1; [mid1|]. mid1; [apply mproto_mid|]. mid1; [mid1|]. mid1; [mid1|]. apply remove_mid.
Qed.
Lemma disconnect_mid force : Rel mid (async_disconnect force).
Proof.
  unfold async_disconnect. mid1; [mid1|]. mid1; [apply rel_if; [apply unsubscribe_mid|mid1]|]. mid1; [apply proto_mid|].
  eapply rel_weak; [apply low_mid|apply close_low].
Qed.

(** ** the client manager follows the gateway: if its connection is up, it is the gateway's *)
Definition follows (w : world) : Prop :=
  (forall c, m_proto (w_cm w) = Some c -> (c < List.length (w_conns w))%nat) /\
  (forall c, w_proto w = Some c -> (c < List.length (w_conns w))%nat) /\
  (forall c, m_proto (w_cm w) = Some c -> connected c w = true -> w_proto w = Some c).
Definition high (w w' : world) : Prop :=
  m_listeners (w_cm w') = m_listeners (w_cm w) /\ m_locked (w_cm w') = m_locked (w_cm w) /\ m_id (w_cm w') = m_id (w_cm w) /\
  mono w w' /\ (follows w -> follows w').
Lemma high_refl w : high w w. Proof. unfold high. repeat split; auto; apply H. Qed.
Lemma high_trans a b c : high a b -> high b c -> high a c.
Proof.
  intros (A1 & A2 & A3 & A4 & A5) (B1 & B2 & B3 & B4 & B5). repeat (split; [congruence|]). split; [eapply mono_trans; eassumption|auto].
Qed.
Lemma mid_high a b : mid a b -> high a b.
Proof.
  intros (A1 & A2 & A3 & A4 & A5 & A6 & A7). repeat (split; [assumption|]). split; [split; assumption|]. intros (F1 & F2 & F3).
  split; [|split].
  - intros c E. rewrite A2 in E. apply F1 in E. lia.
  - intros c E. rewrite A1 in E. apply F2 in E. lia.
  - intros c E C. rewrite A2 in E. rewrite A1. apply F3; [exact E|]. destruct (connected c a) eqn:D; [reflexivity|].
    rewrite (A7 c (F1 c E) D) in C. discriminate.
Qed.
Lemma low_high a b : low a b -> high a b. Proof. intros H. apply mid_high, low_mid, H. Qed.
Lemma high_unlock w w' : high (put_cm (cmset_locked true) w) w' -> m_locked (w_cm w) = false -> high w (put_cm (cmset_locked false) w').
Proof.
  intros (A1 & A2 & A3 & A4 & A5) L. cbn [put_cm set_cm w_cm cmset_locked m_listeners m_id m_locked] in *.
  unfold high. cbn [put_cm set_cm w_cm cmset_locked m_listeners m_id m_locked]. split; [exact A1|]. split; [symmetry; exact L|]. split; [exact A3|]. split; [exact A4|exact A5].
Qed.
Ltac high1 := lazymatch goal with
  | |- Rel high (mbind _ _) => apply rel_bind; [apply high_trans| |intros ?]
  | |- Rel high (mret _) => apply rel_ret, high_refl
  | |- Rel high (mraise _) => apply rel_raise, high_refl
  | |- Rel high (mstuck _) => apply rel_stuck, high_refl
  | |- Rel high (mget _) => apply rel_get, high_refl
  | |- Rel high (if _ then _ else _) => apply rel_if
  | |- Rel high (mput (put_cm (cmset_client _))) => apply rel_put; intros; apply mid_high, mid_client
  | |- Rel high (mput (keepalive _ _)) => apply rel_put; intros; apply low_high, low_upd; intros ?; cbn; auto
  | |- Rel high (mput (unregister_all _)) => apply rel_put; intros; apply low_high, low_upd; intros ?; cbn; auto
  | |- Rel high (msleep _) => eapply rel_weak; [apply low_high|apply sleep_low]
  | |- Rel high m_proto_or_fail => eapply rel_weak; [apply mid_high|apply mproto_mid]
  | |- Rel high proto_or_fail => eapply rel_weak; [apply mid_high|apply proto_mid]
  | |- Rel high (async_disconnect _) => eapply rel_weak; [apply mid_high|apply disconnect_mid]
  end.
Lemma high_last d w : high w (set_last d w).
Proof. repeat split; auto; apply H. Qed.

Section Connect.
Variable connect : M bool.
Hypothesis Hc : Rel high connect.
Lemma attempt_high {A} (method : Z -> nat -> M A) mr : (forall mr c, Rel low (method mr c)) -> Rel high (attempt_request connect method mr).
Proof.
  intros K. unfold attempt_request. high1; [exact Hc|]. apply rel_if; [high1|]. high1; [high1|].
  eapply rel_weak; [apply low_high|apply K].
Qed.
Lemma connected_high {A} (method : Z -> nat -> M A) delay : (forall mr c, Rel low (method mr c)) -> Rel high (connected_request connect method delay).
Proof.
  intros K. unfold connected_request. high1; [high1|]. apply rel_catch; [apply high_trans|apply attempt_high, K|]. intros e.
  high1; [high1|]. high1; [high1|]. apply attempt_high, K.
Qed.
Lemma add_low id mr c : Rel low (request_add_client id mr c).
Proof. unfold request_add_client. eapply once_low, command_once. Qed.
Lemma subscribe_high : Rel high (subscribe_gateway connect).
Proof.
  unfold subscribe_gateway. high1; [high1|]. apply rel_if; [high1|]. intros w t w' o. apply with_lock_rel; [apply high_unlock|].
  high1; [high1|]. apply rel_if; [|high1]. high1; [high1|]. high1; [apply connected_high; intros; apply add_low|].
  high1; [high1|]. high1; [high1|]. high1.
Qed.
Lemma fold_register_low c codes : forall w, low w (fold_left (fun w code => register c code (HClient code) w) codes w).
Proof.
  induction codes as [|k codes IH]; intros w; [apply low_refl|]. cbn [fold_left]. eapply low_trans; [|apply IH]. apply low_upd. intros ?; cbn; auto.
Qed.
(** [attach] is given the gateway's own connection *)
Lemma attach_high c mr w t w' o : w_proto w = Some c -> attach connect c mr w = (t, w', o) -> ends o -> high w w'.
Proof.
  intros P E N. unfold attach in E. rewrite bind_put in E.
  set (w0 := put_cm _ w) in E.
  assert (H0 : high w w0).
  { unfold w0. split; [reflexivity|]. split; [reflexivity|]. split; [reflexivity|]. split; [apply mono_cm|]. intros (F1 & F2 & F3).
    split; [|split]; cbn [put_cm set_cm w_cm cmset_client cmset_retries cmset_proto m_proto w_proto]; intros x Ex.
    - injection Ex as <-. apply F2, P.
    - apply F2, Ex.
    - intros _. injection Ex as <-. exact P. }
  apply (high_trans _ _ _ H0). clearbody w0. revert E N. revert w0 t w' o H0.
  assert (K : Rel high (need <- mget client_needed ;; if need then
    mput (unregister_all c) ;;; mput (fun w => fold_left (fun w code => register c code (HClient code) w) (map fst (m_listeners (w_cm w))) w) ;;;
    subscribe_gateway connect else mret tt)).
  { high1; [high1|]. apply rel_if; [|high1]. high1; [high1|]. high1; [apply rel_put; intros; apply low_high, fold_register_low|]. apply subscribe_high. }
  intros w0 t w' o _ E N. eapply K; eassumption.
Qed.
Lemma poll_high k (method : Z -> nat -> M (option bytes)) : (forall mr c, Rel low (method mr c)) -> Rel high (poll connect k method).
Proof.
  intros K. unfold poll. high1; [apply connected_high, K|]. destruct a; [apply rel_put; intros; apply high_last|high1].
Qed.
End Connect.

Lemma config_low mr c : Rel low (request_pool_config mr c).
Proof. exact (once_low _ _ _ mr c (data_once 12532 (le_enc 4 0 ++ le_enc 4 0) decode_pool_config ca_config)). Qed.

Lemma connect_to_index ip port mr w t w' c mac : connect_to_gateway ip port mr w = (t, w', Val (Some (c, mac))) ->
  c = List.length (w_conns w) /\ (c < List.length (w_conns w'))%nat.
Proof.
  unfold connect_to_gateway. intros E. apply bind_inv in E. destruct E as [(s1 & v1 & k & s2 & F1 & F2 & _)|[(e & _ & X)|(y & _ & X)]]; try discriminate.
  assert (I : k = List.length (w_conns w) /\ (k < List.length (w_conns v1))%nat).
  { unfold create_connection in F1. rewrite bind_get in F1. unfold mbind, ask in F1. destruct (w_env w) as [|r rest]; [discriminate|].
    destruct (interfere r _) as [l u1] eqn:I. destruct (r_kind r) eqn:K; try discriminate.
    injection F1 as _ <- <-.
    apply interfere_fields in I. destruct I as (_ & _ & _ & _ & _ & _ & _ & _ & I & _). rewrite I. cbn [set_conns w_conns set_env]. rewrite app_length. cbn. lia. }
  apply bind_inv in F2. destruct F2 as [(s3 & v3 & m3 & s4 & G1 & G2 & _)|[(e & _ & X)|(y & _ & X)]]; try discriminate.
  assert (L1 : low v1 v3).
  { eapply (rel_weak low low (gateway_connect k mr) (fun _ _ h => h)); [|exact G1|discriminate]. unfold gateway_connect. repeat low1. }
  apply bind_inv in G2. destruct G2 as [(s5 & v5 & m5 & s6 & H1 & H2 & _)|[(e & _ & X)|(y & _ & X)]]; try discriminate.
  assert (L2 : low v3 v5).
  { eapply (rel_weak low low (gateway_login k mr) (fun _ _ h => h)); [|exact H1|discriminate]. unfold gateway_login. repeat low1. }
  destruct m5; [|discriminate]. injection H2 as _ <- <- _.
  destruct L1 as (_ & _ & L1 & _), L2 as (_ & _ & L2 & _). lia.
Qed.

Lemma connect_high n : forall x, Rel high (async_connect n x).
Proof.
  induction n as [|n IH]; intros x; [apply rel_stuck, high_refl|]. intros w t w' o E N. cbn [async_connect] in E.
  rewrite bind_get in E. destruct (is_connected w) eqn:U; [injection E as _ <- _; apply high_refl|].
  rewrite bind_put, bind_get in E.
  assert (H0 : high w (store_args x w)) by (repeat split; auto; apply H). apply (high_trans _ _ _ H0).
  assert (U0 : is_connected (store_args x w) = false) by exact U. clear H0 U. revert U0 E. generalize (store_args x w) as v. clear w. intros w U E.
  destruct (no_address w); [injection E as _ <- _; apply high_refl|].
  rewrite !bind_get in E. apply bind_inv in E.
  destruct E as [(t1 & w1 & a & t2 & E1 & E2 & ->)|[(e & E1 & ->)|(y & E1 & ->)]].
  2: { apply low_high. eapply connect_to_low; [exact E1|discriminate]. }
  2: { exfalso. apply (N y). reflexivity. }
  assert (L1 : low w w1) by (eapply connect_to_low; [exact E1|discriminate]).
  destruct a as [[c mac]|]; [|injection E2 as _ <- _; apply low_high, L1].
  assert (Cl : (c < List.length (w_conns w1))%nat) by (eapply connect_to_index; exact E1).
  rewrite bind_put in E2.
  set (w2 := store_connection c mac w1) in E2.
  assert (H2 : high w w2).
  { destruct L1 as (L1 & L2 & L3 & L4). unfold high. unfold w2; cbn [store_connection set_proto set_addr w_cm w_proto w_conns].
    rewrite L2. split; [reflexivity|]. split; [reflexivity|]. split; [reflexivity|].
    split; [split; [exact L3|exact L4]|].
    intros (F1 & F2 & F3). split; [|split]; cbn [store_connection set_proto set_addr w_cm w_proto w_conns].
    - intros k Ek. rewrite L2 in Ek. apply F1 in Ek. lia.
    - intros k Ek. injection Ek as <-. exact Cl.
    - intros k Ek Ck. exfalso. rewrite L2 in Ek. assert (D : connected k w = false).
      { destruct (connected k w) eqn:D; [|reflexivity]. specialize (F3 k Ek D). unfold is_connected in U. rewrite F3 in U. congruence. }
      pose proof (L4 k (F1 k Ek) D) as Q. unfold connected, get_conn in Q, Ck. cbn [store_connection set_proto set_addr w_conns] in Ck. congruence. }
  apply (high_trans _ _ _ H2). clearbody w2. clear -E2 N IH.
  rewrite bind_get in E2. revert E2 N. revert w2 t2 w' o.
  match goal with |- forall w2 t2 w' o, ?m w2 = _ -> _ -> _ => idtac end.
  intros w2 t2 w' o E N. apply bind_inv in E.
  destruct E as [(s1 & w3 & v & s2 & E1 & E2 & ->)|[(e & E1 & ->)|(y & E1 & ->)]].
  2: { apply low_high. eapply version_low; [exact E1|discriminate]. }
  2: { exfalso. apply (N y). reflexivity. }
  apply (high_trans _ w3); [apply low_high; eapply version_low; [exact E1|discriminate]|].
  rewrite bind_put, bind_get in E2.
  match type of E2 with context [set_last ?d w3] => apply (high_trans _ (set_last d w3)); [apply high_last|]; generalize dependent (set_last d w3) end.
  intros w4 E. destruct (truthy _); [|injection E as _ <- _; apply high_refl].
  apply bind_inv in E. destruct E as [(s3 & w5 & v5 & s4 & F1 & F2 & ->)|[(e & F1 & ->)|(y & F1 & ->)]].
  2: { eapply poll_high; [apply IH|apply config_low|exact F1|discriminate]. }
  2: { exfalso. apply (N y). reflexivity. }
  apply (high_trans _ w5); [eapply poll_high; [apply IH|apply config_low|exact F1|discriminate]|].
  unfold proto_or_fail in F2. rewrite bind_assoc, bind_get in F2. destruct (w_proto w5) as [c2|] eqn:P.
  - rewrite bind_ret, bind_get in F2. apply bind_inv in F2.
    destruct F2 as [(s5 & w6 & v6 & s6 & G1 & G2 & ->)|[(e & G1 & ->)|(y & G1 & ->)]].
    + injection G2 as _ <- _. eapply attach_high; [apply IH|exact P|exact G1|discriminate].
    + eapply attach_high; [apply IH|exact P|exact G1|discriminate].
    + exfalso. apply (N y). reflexivity.
  - injection F2 as _ <- _. apply high_refl.
Qed.
