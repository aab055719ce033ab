(** The debug entry of the configuration, through every reconnect (C66). *)
From Verif Require Import Py F64 Struct Utf Utility Const Spec Enum Decode World Request Gateway Traces Paths Api P_Base P_Util P_Dict P_Monad P_Request P_Sat P_Paths P_Frame P_Gw1 P_Gw6 P_Gw7 P_Calm P_Gw8 P_Gw9 P_Gw10 P_Gw13 P_Gw16.
Open Scope m_scope.

Definition X := 12532.
Definition e (w : world) : option pv := dget (KS "config") (w_last w).
(** kept, or a good answer came in *)
Definition upto (w : world) (t : trace) (w' : world) : Prop := e w' = e w \/ exists b, came_in X t b /\ e w' = Some (VBytes b).
(** the last good answer is [b] *)
Definition latest (t : trace) (b : bytes) : Prop := latest_answer X b t.
Definition recent (t : trace) (w' : world) : Prop := forall b, latest t b -> e w' = Some (VBytes b).
Definition settled {A} (o : out A) : Prop := match o with Val _ => True | Exc x => is_comm_error x = true | Stuck _ => False end.
Definition QQ {A} (m : M A) : Prop := forall w t w' o, m w = (t, w', o) -> upto w t w' /\ (settled o -> dangle t /\ recent t w').

Lemma came_nil b : ~ came_in X [] b. Proof. intros (_ & q & [] & _). Qed.
Lemma came_split a b x : came_in X (a ++ b) x -> came_in X a x \/ came_in X b x.
Proof. intros (N & q & I & A). apply in_app_or in I. destruct I; [left|right]; (split; [exact N|]); eauto. Qed.
Lemma upto_refl w t w' : e w' = e w -> upto w t w'. Proof. left. exact H. Qed.
Lemma upto_trans w t1 w1 t2 w2 : upto w t1 w1 -> upto w1 t2 w2 -> upto w (t1 ++ t2) w2.
Proof.
  intros [A|(b & C & A)] [B|(b' & C' & B)].
  - left. congruence.
  - right. exists b'. split; [apply came_app2; exact C'|exact B].
  - right. exists b. split; [apply came_app; exact C|congruence].
  - right. exists b'. split; [apply came_app2; exact C'|exact B].
Qed.
Lemma latest_split t1 t2 b : dangle t1 -> latest (t1 ++ t2) b -> (latest t1 b /\ forall b', ~ came_in X t2 b') \/ latest t2 b.
Proof.
  intros D (a & c & p & ms & q & z & E & A & N & Q). destruct (split_app _ _ _ _ _ E) as [(a3 & E1 & E2)|(b1 & _ & E1)].
  - left. destruct (D _ _ _ _ _ E1) as (c' & ms' & r & a4 & ->). cbn [app] in E2. injection E2 as Q1 Q2 Q3 Q4. subst.
    split; [|intros b' C; apply (Q b'); apply came_app2; exact C]. exists a, c', p, ms', r, a4.
    split; [reflexivity|]. split; [exact A|]. split; [exact N|]. intros b' C. apply (Q b'). apply came_app. exact C.
  - right. exists b1, c, p, ms, q, z. auto.
Qed.
Lemma recent_trans w1 t1 t2 w2 : dangle t1 -> recent t1 w1 -> upto w1 t2 w2 -> recent t2 w2 -> recent (t1 ++ t2) w2.
Proof.
  intros D R1 U R2 b L. apply latest_split in L; [|exact D]. destruct L as [(L & Q)|L]; [|apply R2; exact L].
  destruct U as [U|(b' & C & _)]; [rewrite U; apply R1; exact L|destruct (Q b' C)].
Qed.
Lemma latest_silent t b : (forall c p, ~ In (Send c X p) t) -> ~ latest t b.
Proof. intros S (a & c & p & ms & q & z & -> & _). eapply S. apply in_or_app. right. left. reflexivity. Qed.
(** a leaf: the entry is kept and nothing asks for the configuration *)
Lemma q_leaf {A} (m : M A) : (forall w t w' o, m w = (t, w', o) -> e w' = e w /\ (forall c p, ~ In (Send c X p) t) /\ (settled o -> dangle t)) -> QQ m.
Proof.
  intros L w t w' o E. destruct (L _ _ _ _ E) as (K & S & D). split; [left; exact K|]. intros O. split; [apply D; exact O|].
  intros b La. destruct (latest_silent t b S La).
Qed.
Lemma dangle_nil : dangle []. Proof. apply dangle_none. intros ? ? ? []. Qed.
Lemma q_ret {A} (a : A) : QQ (mret a).
Proof. apply q_leaf. intros w t w' o E. injection E as <- <- <-. split; [reflexivity|]. split; [intros ? ? []|intros _; apply dangle_nil]. Qed.
Lemma q_raise {A} x : QQ (@mraise A x).
Proof. apply q_leaf. intros w t w' o E. injection E as <- <- <-. split; [reflexivity|]. split; [intros ? ? []|intros _; apply dangle_nil]. Qed.
Lemma q_stuck {A} y : QQ (@mstuck A y).
Proof. apply q_leaf. intros w t w' o E. injection E as <- <- <-. split; [reflexivity|]. split; [intros ? ? []|intros []]. Qed.
Lemma q_get {A} (f : world -> A) : QQ (mget f).
Proof. apply q_leaf. intros w t w' o E. injection E as <- <- <-. split; [reflexivity|]. split; [intros ? ? []|intros _; apply dangle_nil]. Qed.
Lemma q_put f : (forall w, e (f w) = e w) -> QQ (mput f).
Proof. intros K. apply q_leaf. intros w t w' o E. injection E as <- <- <-. split; [apply K|]. split; [intros ? ? []|intros _; apply dangle_nil]. Qed.
Lemma q_lift {A} (r : res A) : QQ (mlift r).
Proof. destruct r; [apply q_ret|apply q_raise]. Qed.
Lemma q_decode d : QQ (mdecode d).
Proof.
  apply q_leaf. intros w t w' o E. unfold mdecode in E. destruct (d (w_data w)) as [d1 r]. injection E as <- <- _.
  split; [reflexivity|]. split; [intros ? ? []|intros _; apply dangle_nil].
Qed.
Lemma q_if {A} (b : bool) (m1 m2 : M A) : QQ m1 -> QQ m2 -> QQ (if b then m1 else m2).
Proof. destruct b; auto. Qed.
Lemma q_bind {A B} (m : M A) (f : A -> M B) : QQ m -> (forall a, QQ (f a)) -> QQ (mbind m f).
Proof.
  intros Hm Hf w t w' o E. apply bind_inv in E.
  destruct E as [(t1 & w1 & a & t2 & E1 & E2 & ->)|[(x & E1 & ->)|(y & E1 & ->)]]; apply Hm in E1; destruct E1 as (U1 & R1).
  - apply Hf in E2. destruct E2 as (U2 & R2). split; [eapply upto_trans; eassumption|]. intros S. destruct (R1 Logic.I) as (D1 & R1'). destruct (R2 S) as (D2 & R2').
    split; [apply dangle_app; assumption|]. eapply recent_trans; eassumption.
  - split; [exact U1|exact R1].
  - split; [exact U1|exact R1].
Qed.
Lemma q_catch {A} (m : M A) p h : (forall x, p x = true -> is_comm_error x = true) -> QQ m -> (forall x, QQ (h x)) -> QQ (mcatch m p h).
Proof.
  intros P Hm Hf w t w' o E. unfold mcatch in E. destruct (m w) as [[t1 w1] o1] eqn:E1. apply Hm in E1. destruct E1 as (U1 & R1).
  destruct o1 as [a|x|y]; try (injection E as <- <- <-; split; [exact U1|exact R1]).
  destruct (p x) eqn:Px; [|injection E as <- <- <-; split; [exact U1|exact R1]].
  destruct (h x w1) as [[t2 w2] o2] eqn:E2. injection E as <- <- <-. apply Hf in E2. destruct E2 as (U2 & R2). split; [eapply upto_trans; eassumption|].
  intros S. destruct (R1 (P x Px)) as (D1 & R1'). destruct (R2 S) as (D2 & R2'). split; [apply dangle_app; assumption|]. eapply recent_trans; eassumption.
Qed.
Lemma q_finally {A} (m : M A) f : (forall w, e (f w) = e w) -> QQ m -> QQ (mfinally m f).
Proof.
  intros K Hm w t w' o E. unfold mfinally in E. destruct (m w) as [[t1 w1] o1] eqn:E1. apply Hm in E1. destruct E1 as (U1 & R1).
  assert (G : upto w t1 (f w1)) by (unfold upto; rewrite K; exact U1).
  destruct o1; injection E as <- <- <-; (split; [assumption|]); intros S; try contradiction; destruct (R1 S) as (D1 & R1'); (split; [exact D1|]); intros b L; rewrite K; apply R1'; exact L.
Qed.
Lemma interfere_e r w l w1 : interfere r w = (l, w1) -> e w1 = e w.
Proof. intros I. apply interfere_fields in I. destruct I as (_ & _ & _ & I & _). unfold e. rewrite I. reflexivity. Qed.
Lemma q_ask x pre : (forall c code p, x <> Send c code p) -> (forall r w, e (pre r w) = e w) -> QQ (ask x pre).
Proof.
  intros P K. apply q_leaf. intros w t w' o E. unfold ask in E. destruct (w_env w) as [|r rest].
  - injection E as <- <- <-. split; [reflexivity|]. split; [|intros []]. intros c p [I|[]]. exact (P _ _ _ I).
  - destruct (interfere r (pre r (set_env rest w))) as [l w1] eqn:I. injection E as <- <- <-. pose proof (interfere_e _ _ _ _ I) as Q. rewrite K in Q.
    apply interfere_l in I. assert (N : forall c code p, ~ In (Send c code p) (x :: Got r :: l)).
    { intros c code p [J|[J|J]]; [exact (P _ _ _ J)|discriminate J|eapply losses_no_send; eassumption]. }
    split; [exact Q|]. split; [intros c p; apply N|]. intros _. apply dangle_none. exact N.
Qed.
Lemma q_emit x : (forall c code p, x <> Send c code p) -> QQ (memit x).
Proof.
  intros P. apply q_leaf. intros w t w' o E. injection E as <- <- <-. assert (N : forall c code p, ~ In (Send c code p) [x]) by (intros c code p [J|[]]; exact (P _ _ _ J)).
  split; [reflexivity|]. split; [intros c p; apply N|]. intros _. apply dangle_none. exact N.
Qed.
Lemma q_sleep ms : QQ (msleep ms).
Proof. unfold msleep. apply q_bind; [apply q_ask; [discriminate|reflexivity]|]. intros r. destruct (r_kind r); auto using q_ret, q_raise, q_stuck. Qed.
Lemma q_request c code p mr : code <> X -> QQ (make_request c code p mr).
Proof.
  intros N. apply q_leaf. intros w t w' o E.
  assert (S : silent X w t w') by (eapply sat_request; [apply silent_closed|exact N|exact E]).
  apply request_run in E. split; [|split; [exact S|]].
  - apply run_kept in E. destruct E as (_ & _ & _ & E & _). unfold e. rewrite E. reflexivity.
  - intros O. eapply run_dangle; [exact E|]. intros y ->. destruct O.
Qed.
Lemma q_data code p dec mr c : code <> X -> QQ (data_request code p dec mr c).
Proof.
  intros N. unfold data_request. apply q_bind; [apply q_request; exact N|]. intros r. destruct (nonempty r); [|apply q_ret].
  apply q_bind; [apply q_decode|intros _; apply q_ret].
Qed.
Lemma q_pump i mr c : QQ (request_pump_status i mr c).
Proof. unfold request_pump_status. apply q_bind; [apply q_lift|]. intros p. apply q_data. discriminate. Qed.
Lemma q_version mr c : QQ (request_gateway_version mr c).
Proof. unfold request_gateway_version. apply q_bind; [apply q_get|]. intros f. apply q_data. discriminate. Qed.
Lemma q_date_time mr c : QQ (request_date_time mr c).
Proof.
  unfold request_date_time. apply q_bind; [apply q_request; discriminate|]. intros r. destruct (nonempty r); [|apply q_ret].
  apply q_bind; [apply q_get|intros now]. apply q_bind; [apply q_decode|intros _; apply q_ret].
Qed.
Lemma q_command code p mr c : code <> X -> QQ (command_request code p mr c).
Proof.
  intros N. unfold command_request. apply q_bind; [apply q_lift|]. intros b. apply q_bind; [apply q_request; exact N|]. intros [[|]|]; auto using q_ret, q_raise.
Qed.
Lemma q_create ip port : QQ (create_connection ip port).
Proof.
  unfold create_connection. apply q_bind; [apply q_get|]. intros c. apply q_bind.
  - apply q_ask; [discriminate|]. intros r w. destruct (r_kind r); reflexivity.
  - intros r. destruct (r_kind r); auto using q_ret, q_raise, q_stuck.
Qed.
Lemma q_connect_to ip port mr : QQ (connect_to_gateway ip port mr).
Proof.
  unfold connect_to_gateway, gateway_connect, gateway_login. apply q_bind; [apply q_create|]. intros c. apply q_bind.
  - apply q_bind; [apply q_get|]. intros k. apply q_bind; [apply q_if; [apply q_emit; discriminate|apply q_ret]|]. intros _.
    apply q_bind; [apply q_sleep|]. intros _. apply q_bind; [apply q_get|]. intros up. apply q_if; [apply q_raise|].
    apply q_bind; [apply q_request; discriminate|]. intros [b|]; auto using q_lift, q_raise.
  - intros mac. apply q_bind; [|intros ok; apply q_ret]. apply q_bind; [apply q_lift|]. intros m. apply q_bind; [apply q_request; discriminate|]. intros r. apply q_ret.
Qed.
Lemma q_lock {A} (m : M A) : QQ m -> QQ (with_lock m).
Proof.
  intros Hm. unfold with_lock. apply q_bind; [apply q_get|]. intros b. apply q_if; [apply q_stuck|].
  apply q_bind; [apply q_put; reflexivity|]. intros _. apply q_finally; [reflexivity|exact Hm].
Qed.
Lemma q_mproto : QQ m_proto_or_fail.
Proof. unfold m_proto_or_fail. apply q_bind; [apply q_get|]. intros [c|]; auto using q_ret, q_raise. Qed.
Lemma q_proto : QQ proto_or_fail.
Proof. unfold proto_or_fail. apply q_bind; [apply q_get|]. intros [c|]; auto using q_ret, q_raise. Qed.
Lemma q_lose c : QQ (fun w => let '(t, w') := lose c w in (t, w', Val tt)).
Proof.
  apply q_leaf. intros w t w' o E. destruct (lose c w) as [l w1] eqn:L. injection E as <- <- <-.
  assert (N : forall c code p, ~ In (Send c code p) l).
  { unfold lose in L. destruct (connected c w); [|injection L as <- _; intros ? ? ? []]. injection L as <- _. intros c0 code p [J|J]; [discriminate J|].
    destruct (w_cb w); [destruct J as [J|[]]; discriminate J|destruct J]. }
  split; [apply lose_fields in L; destruct L as (_ & _ & _ & _ & L & _); unfold e; rewrite L; reflexivity|]. split; [intros; apply N|]. intros _. apply dangle_none. exact N.
Qed.
Lemma q_close c force : QQ (async_close c force).
Proof.
  unfold async_close. apply q_bind; [apply q_put; reflexivity|]. intros _. apply q_bind; [apply q_ask; [discriminate|reflexivity]|]. intros r.
  assert (G : QQ (k <- mget (get_conn c) ;;
      (if c_open k then memit (CloseTransport c) ;;; mput (mark_shut c) else mret tt) ;;;
      still <- mget (connected c) ;;
      if negb still then mret tt
      else
        r2 <- ask (AwaitClosed c) nopre ;;
        match r_kind r2 with
        | KDone => fun w => let '(t, w') := lose c w in (t, w', Val tt)
        | KCancelTask => mraise ECancelled
        | _ => mstuck Unfit
        end)).
  { apply q_bind; [apply q_get|]. intros k. apply q_bind.
    - apply q_if; [|apply q_ret]. apply q_bind; [apply q_emit; discriminate|intros _; apply q_put; reflexivity].
    - intros _. apply q_bind; [apply q_get|]. intros still. apply q_if; [apply q_ret|].
      apply q_bind; [apply q_ask; [discriminate|reflexivity]|]. intros r2. destruct (r_kind r2); auto using q_stuck, q_raise, q_lose. }
  destruct (r_kind r); auto using q_stuck.
Qed.
Lemma q_remove : QQ remove_client.
Proof.
  unfold remove_client. apply q_catch; [auto| |intros; apply q_ret]. apply q_bind; [apply q_mproto|]. intros c. apply q_bind; [apply q_get|]. intros id.
  apply q_command. discriminate.
Qed.
Lemma q_unsubscribe : QQ unsubscribe_gateway.
Proof.
  unfold unsubscribe_gateway. apply q_bind; [apply q_get|]. intros a. apply q_if; [apply q_ret|]. apply q_lock. apply q_bind; [apply q_get|]. intros b.
  apply q_if; [|apply q_ret]. apply q_bind; [apply q_put; reflexivity|]. intros _. apply q_bind; [apply q_mproto|]. intros c.
  apply q_bind; [apply q_put; reflexivity|]. intros _. apply q_bind; [apply q_put; reflexivity|]. intros _. apply q_remove.
Qed.
Lemma q_disconnect force : QQ (async_disconnect force).
Proof.
  unfold async_disconnect. apply q_bind; [apply q_get|]. intros b. apply q_bind; [apply q_if; [apply q_unsubscribe|apply q_ret]|].
  intros _. apply q_bind; [apply q_proto|]. intros c. apply q_close.
Qed.

(** Asking for the configuration: on success the last good answer is what is returned. *)
Definition QV (m : M (option bytes)) : Prop := forall w t w' o, m w = (t, w', o) -> upto w t w' /\
  (forall b, o = Val (Some b) -> came_in X t b) /\
  (settled o -> dangle t /\ match o with Val (Some b) => forall b', latest t b' -> b' = b | _ => recent t w' end).
Lemma v_bind {A} (m : M A) f : QQ m -> (forall a, QV (f a)) -> QV (mbind m f).
Proof.
  intros Hm Hf w t w' o E. apply bind_inv in E.
  destruct E as [(t1 & w1 & a & t2 & E1 & E2 & ->)|[(x & E1 & ->)|(y & E1 & ->)]]; apply Hm in E1; destruct E1 as (U1 & R1).
  - apply Hf in E2. destruct E2 as (U2 & C2 & R2). split; [eapply upto_trans; eassumption|]. split; [intros b Ob; apply came_app2; apply C2; exact Ob|].
    intros S. destruct (R1 Logic.I) as (D1 & R1'). destruct (R2 S) as (D2 & R2').
    split; [apply dangle_app; assumption|]. destruct o as [[b|]|x|y]; try (eapply recent_trans; eassumption).
    intros b' L. apply latest_split in L; [|exact D1]. destruct L as [(_ & Q)|L]; [destruct (Q b (C2 b eq_refl))|apply R2'; exact L].
  - split; [exact U1|]. split; [discriminate|]. exact R1.
  - split; [exact U1|]. split; [discriminate|]. exact R1.
Qed.
Lemma v_raise x : QV (mraise x).
Proof.
  intros w t w' o E. destruct (q_raise x _ _ _ _ E) as (U & R). split; [exact U|]. injection E as <- <- <-. split; [discriminate|exact R].
Qed.
Lemma v_catch m p h : (forall x, p x = true -> is_comm_error x = true) -> QV m -> (forall x, QV (h x)) -> QV (mcatch m p h).
Proof.
  intros P Hm Hf w t w' o E. unfold mcatch in E. destruct (m w) as [[t1 w1] o1] eqn:E1. apply Hm in E1. destruct E1 as (U1 & C1 & R1).
  destruct o1 as [a|x|y]; try (injection E as <- <- <-; split; [exact U1|split; [exact C1|exact R1]]).
  destruct (p x) eqn:Px; [|injection E as <- <- <-; split; [exact U1|split; [exact C1|exact R1]]].
  destruct (h x w1) as [[t2 w2] o2] eqn:E2. injection E as <- <- <-. apply Hf in E2. destruct E2 as (U2 & C2 & R2). split; [eapply upto_trans; eassumption|].
  split; [intros b Ob; apply came_app2; apply C2; exact Ob|].
  intros S. destruct (R1 (P x Px)) as (D1 & R1'). destruct (R2 S) as (D2 & R2').
  split; [apply dangle_app; assumption|]. destruct o2 as [[b|]|z|y]; try (eapply recent_trans; eassumption).
  intros b' L. apply latest_split in L; [|exact D1]. destruct L as [(_ & Q)|L]; [destruct (Q b (C2 b eq_refl))|apply R2'; exact L].
Qed.
Lemma v_config mr c : QV (request_pool_config mr c).
Proof.
  intros w t w' o E. rewrite (reading_data X (le_enc 4 0 ++ le_enc 4 0) decode_pool_config) in E. change CODE_CTRLCONFIG_QUERY with X in E || idtac.
  assert (K : e w' = e w) by (apply reading_kept in E; destruct E as (_ & _ & _ & E & _); unfold e; rewrite E; reflexivity).
  assert (La : forall b, latest t b -> exists q, In q (replies t) /\ answer_of q = Some (X + 1, b) /\ b <> []).
  { intros b (a & c0 & p & ms & q & z & Et & A & N & _). exists q. split; [|split; [exact A|exact N]]. apply (answered_replies X). exists a, c0, p, ms, z. exact Et. }
  split; [left; exact K|]. split.
  - intros b ->. split; [|apply reading_val in E; destruct E as (_ & E); destruct (E b eq_refl) as (q & I & A); exists q; auto].
    intros ->. apply reading_inv in E. destruct E as (w1 & o1 & _ & E). destruct o1 as [r|x|y]; [|destruct E; discriminate..].
    destruct r as [[|z b]|]; cbn [nonempty] in E; destruct E as (_ & E); try discriminate. destruct (snd _); discriminate.
  - intros S. split; [eapply reading_dangle; [exact E|]; intros y ->; destruct S|]. destruct o as [r|x|y]; [| |destruct S].
    + apply reading_val in E. destruct E as (V & _). destruct r as [b|].
      * intros b' L. destruct (La b' L) as (q & I & A & N). specialize (V q b' I A). destruct b'; [congruence|]. injection V as ->. reflexivity.
      * intros b' L. destruct (La b' L) as (q & I & A & N). specialize (V q b' I A). destruct b'; [congruence|discriminate].
    + intros b' L. destruct (La b' L) as (q & I & A & N). exfalso.
      refine (q_bad X _ _ (reading_once X (le_enc 4 0 ++ le_enc 4 0) (fun _ => decode_pool_config) (fun _ => ca_config)) _ _ _ _ _ _ E S q b' I A Logic.I).
Qed.

Section Connect.
Variable connect : M bool.
Hypothesis HC : QQ connect.
Lemma q_attempt {A} (method : Z -> nat -> M A) mr : (forall mr c, QQ (method mr c)) -> QQ (attempt_request connect method mr).
Proof.
  intros K. unfold attempt_request. apply q_bind; [exact HC|]. intros b. apply q_if; [apply q_raise|]. apply q_bind; [apply q_proto|]. intros c. apply K.
Qed.
Lemma q_connected {A} (method : Z -> nat -> M A) delay : (forall mr c, QQ (method mr c)) -> QQ (connected_request connect method delay).
Proof.
  intros K. unfold connected_request. apply q_bind; [apply q_get|]. intros mr. apply q_catch; [auto|apply q_attempt; exact K|].
  intros x. apply q_bind; [apply q_disconnect|]. intros _. apply q_bind; [apply q_sleep|]. intros _. apply q_attempt; exact K.
Qed.
Lemma v_attempt (method : Z -> nat -> M (option bytes)) mr : (forall mr c, QV (method mr c)) -> QV (attempt_request connect method mr).
Proof.
  intros K. unfold attempt_request. apply v_bind; [exact HC|]. intros b. destruct b; cbn [negb]; [|apply v_raise]. apply v_bind; [apply q_proto|]. intros c. apply K.
Qed.
Lemma v_connected (method : Z -> nat -> M (option bytes)) delay : (forall mr c, QV (method mr c)) -> QV (connected_request connect method delay).
Proof.
  intros K. unfold connected_request. apply v_bind; [apply q_get|]. intros mr. apply v_catch; [auto|apply v_attempt; exact K|].
  intros x. apply v_bind; [apply q_disconnect|]. intros _. apply v_bind; [apply q_sleep|]. intros _. apply v_attempt; exact K.
Qed.
Lemma q_poll k (method : Z -> nat -> M (option bytes)) : k <> K_CONFIG -> (forall mr c, QQ (method mr c)) -> QQ (poll connect k method).
Proof.
  intros N K. unfold poll. apply q_bind; [apply q_connected; exact K|]. intros [b|]; [|apply q_ret]. apply q_put. intros w. unfold e.
  cbn [set_last w_last]. rewrite dget_dset. change (KS "config") with K_CONFIG. destruct (key_eqb K_CONFIG k) eqn:Y; [|reflexivity]. apply key_eqb_eq in Y. congruence.
Qed.
Lemma q_poll_config : QQ (poll connect K_CONFIG request_pool_config).
Proof.
  intros w t w' o E. unfold poll in E. apply bind_inv in E.
  destruct E as [(t1 & w1 & r & t2 & E1 & E2 & ->)|[(x & E1 & ->)|(y & E1 & ->)]]; apply (v_connected _ _ v_config) in E1; destruct E1 as (U1 & C1 & R1).
  - destruct r as [b|]; injection E2 as <- <- <-; rewrite app_nil_r.
    + assert (Ev : e (set_last (dset K_CONFIG (VBytes b) (w_last w1)) w1) = Some (VBytes b)).
      { unfold e. cbn [set_last w_last]. rewrite dget_dset. change (KS "config") with K_CONFIG. replace (key_eqb K_CONFIG K_CONFIG) with true by (symmetry; apply key_eqb_eq; reflexivity). reflexivity. }
      split; [right; exists b; split; [apply C1; reflexivity|exact Ev]|]. intros _. destruct (R1 Logic.I) as (D & L). split; [exact D|].
      intros b' L'. rewrite (L b' L'). exact Ev.
    + split; [exact U1|]. exact R1.
  - split; [exact U1|exact R1].
  - split; [exact U1|exact R1].
Qed.
Lemma q_subscribe : QQ (subscribe_gateway connect).
Proof.
  unfold subscribe_gateway. apply q_bind; [apply q_get|]. intros a. apply q_if; [apply q_ret|]. apply q_lock. apply q_bind; [apply q_get|]. intros b.
  apply q_if; [|apply q_ret]. apply q_bind; [apply q_get|]. intros id. apply q_bind; [apply q_connected; intros; apply q_command; discriminate|]. intros _.
  apply q_bind; [apply q_put; reflexivity|]. intros _. apply q_bind; [apply q_mproto|]. intros c. apply q_put. reflexivity.
Qed.
Lemma fold_e c codes : forall w, e (fold_left (fun w code => register c code (HClient code) w) codes w) = e w.
Proof. induction codes as [|k codes IH]; intros w; cbn [fold_left]; [reflexivity|]. rewrite IH. reflexivity. Qed.
Lemma q_attach c mr : QQ (attach connect c mr).
Proof.
  unfold attach. apply q_bind; [apply q_put; reflexivity|]. intros _. apply q_bind; [apply q_get|]. intros need. apply q_if; [|apply q_ret].
  apply q_bind; [apply q_put; reflexivity|]. intros _. apply q_bind; [apply q_put; intros w; apply fold_e|]. intros _. apply q_subscribe.
Qed.
End Connect.
Lemma q_connect n : forall x, QQ (async_connect n x).
Proof.
  induction n as [|n IH]; intros x; [apply q_stuck|]. cbn [async_connect].
  apply q_bind; [apply q_get|]. intros up. apply q_if; [apply q_ret|]. apply q_bind; [apply q_put; reflexivity|]. intros _.
  apply q_bind; [apply q_get|]. intros no. apply q_if; [apply q_raise|]. apply q_bind; [apply q_get|]. intros ip. apply q_bind; [apply q_get|]. intros port.
  apply q_bind; [apply q_get|]. intros mr. apply q_bind; [apply q_connect_to|]. intros [[c mac]|]; [|apply q_ret].
  apply q_bind; [apply q_put; reflexivity|]. intros _. apply q_bind; [apply q_get|]. intros mr1. apply q_bind; [apply q_version|]. intros v.
  apply q_bind; [apply q_put|]. { intros w. unfold e. cbn [set_last w_last]. rewrite dget_dset. reflexivity. } intros _.
  apply q_bind; [apply q_get|]. intros d. apply q_if; [|apply q_ret]. apply q_bind; [apply q_poll_config; apply IH|]. intros _.
  apply q_bind; [apply q_proto|]. intros c2. apply q_bind; [apply q_get|]. intros mr2. apply q_bind; [apply q_attach; apply IH|]. intros _. apply q_ret.
Qed.
Lemma q_api {A} n (method : Z -> nat -> M A) delay : (forall mr c, QQ (method mr c)) -> QQ (command n method delay).
Proof. apply q_connected. apply q_connect. Qed.
Lemma q_require b : QQ (require b).
Proof. unfold require. apply q_bind; [apply q_lift|]. intros x. apply q_if; [apply q_ret|apply q_raise]. Qed.
Lemma q_pumps n ids : QQ (pumps_loop n ids).
Proof.
  induction ids as [|i ids IH]; cbn [pumps_loop]; [apply q_ret|]. apply q_bind; [apply q_get|]. intros f. apply q_bind; [apply q_lift|]. intros flags.
  apply q_bind; [|intros _; exact IH]. apply q_if; [apply q_ret|]. apply q_bind.
  - apply q_put. intros w. unfold pumps_entry, e. destruct (din K_PUMPS (w_last w)); [reflexivity|]. cbn [set_last w_last]. rewrite dget_dset. reflexivity.
  - intros _. apply q_bind; [apply q_api; intros; apply q_pump|]. intros [b|]; [|apply q_ret]. apply q_put. intros w. unfold store_pump, e.
    destruct (dget K_PUMPS (w_last w)) as [[]|]; try reflexivity. cbn [set_last w_last]. rewrite dget_dset. reflexivity.
Qed.
Lemma q_ignore {A} (m : M A) : QQ m -> QQ (ignore m).
Proof. intros H. unfold ignore. apply q_bind; [exact H|]. intros _. apply q_ret. Qed.
Lemma q_perform n c : (forall p, c <> SendMessage X p) -> QQ (perform n c).
Proof.
  assert (P : forall k m, k <> K_CONFIG -> (forall mr c, QQ (m mr c)) -> QQ (poll (async_connect n no_args) k m)) by (intros; apply q_poll; auto; apply q_connect).
  assert (P1 : QQ (async_get_status n)) by (apply P; [discriminate|intros; apply q_data; discriminate]).
  assert (P2 : QQ (async_get_chemistry n)) by (apply P; [discriminate|intros; apply q_data; discriminate]).
  assert (P3 : QQ (async_get_scg n)) by (apply P; [discriminate|intros; apply q_data; discriminate]).
  assert (P4 : QQ (async_get_datetime n)) by (apply P; [discriminate|intros; apply q_date_time]).
  assert (P5 : QQ (async_get_pumps n)) by apply q_pumps.
  assert (D : forall t a, QQ (async_set_date_time n t a)).
  { intros t a. unfold async_set_date_time. apply q_bind; [apply q_get|]. intros d. apply q_bind; [apply q_get|]. intros tz. apply q_bind; [apply q_lift|]. intros [t' dst].
    apply q_api. intros. apply q_command. discriminate. }
  intros NX. destruct c; cbn [perform].
  - apply q_ignore, q_connect.
  - apply q_disconnect.
  - apply q_poll_config, q_connect.
  - exact P1. - exact P2. - exact P3. - exact P4. - exact P5.
  - unfold async_update. apply q_bind; [apply q_get|]. intros d. destruct d; [apply q_raise|]. repeat (apply q_bind; [assumption|intros _]). exact P4.
  - unfold set_max_retries. apply q_if; [apply q_put; reflexivity|apply q_raise].
  - unfold async_set_circuit. apply q_bind; [apply q_get|]. intros d. apply q_bind; [apply q_require|]. intros _. apply q_bind; [apply q_require|]. intros _. apply q_api. intros; apply q_command. discriminate.
  - unfold async_set_heat_temp. apply q_bind; [apply q_get|]. intros d. apply q_bind; [apply q_require|]. intros _. apply q_bind; [apply q_require|]. intros _. apply q_api. intros; apply q_command. discriminate.
  - unfold async_set_heat_mode. apply q_bind; [apply q_get|]. intros d. apply q_bind; [apply q_require|]. intros _. apply q_bind; [apply q_require|]. intros _. apply q_api. intros; apply q_command. discriminate.
  - unfold async_set_color_lights. apply q_bind; [apply q_require|]. intros _. apply q_api. intros; apply q_command. discriminate.
  - unfold async_set_scg_config. apply q_bind; [apply q_get|]. intros d0. apply q_bind; [apply q_lift|]. intros [[[? ?] ?] ?]. apply q_api. intros; apply q_command. discriminate.
  - unfold async_set_chem_data. apply q_bind; [apply q_get|]. intros d0. apply q_bind; [apply q_lift|]. intros [[[[[? ?] ?] ?] ?] ?]. apply q_api. intros; apply q_command. discriminate.
  - apply D.
  - apply D.
  - apply q_ignore. unfold async_send_message. apply q_api. intros. apply q_request. intros ->. eapply NX. reflexivity.
  - unfold register_handler. apply q_bind; [apply q_get|]. intros [c|]; [apply q_put; reflexivity|apply q_raise].
  - unfold remove_handler. apply q_bind; [apply q_get|]. intros [c|]; [apply q_put; reflexivity|apply q_ret].
  - apply q_ignore. unfold async_subscribe_client. apply q_bind; [apply q_get|]. intros a. apply q_if; [apply q_ret|].
    apply q_bind; [apply q_put; reflexivity|]. intros _. apply q_bind; [apply q_mproto|]. intros c. apply q_bind; [apply q_put; reflexivity|]. intros _.
    apply q_bind; [apply q_get|]. intros need. apply q_bind; [apply q_if; [apply q_subscribe, q_connect|apply q_ret]|]. intros _. apply q_ret.
  - unfold remove_subscription. apply q_bind; [apply q_get|]. intros on. apply q_if; [apply q_ret|]. apply q_bind; [apply q_put; reflexivity|]. intros _.
    apply q_bind; [apply q_get|]. intros more. apply q_bind; [apply q_get|]. intros a. apply q_if; [|apply q_ret].
    apply q_bind; [apply q_mproto|]. intros c. apply q_put; reflexivity.
  - apply q_unsubscribe.
  - unfold async_ping. apply q_catch; [auto| |intros; apply q_ret]. apply q_bind; [apply q_mproto|]. intros c. apply q_command. discriminate.
Qed.

(** the same without what is last, for every call *)
Definition UU {A} (m : M A) : Prop := forall w t w' o, m w = (t, w', o) -> upto w t w'.
Lemma qu {A} (m : M A) : QQ m -> UU m. Proof. intros Q w t w' o E. apply Q in E. tauto. Qed.
Lemma u_bind {A B} (m : M A) (f : A -> M B) : UU m -> (forall a, UU (f a)) -> UU (mbind m f).
Proof.
  intros Hm Hf w t w' o E. apply bind_inv in E.
  destruct E as [(t1 & w1 & a & t2 & E1 & E2 & ->)|[(x & E1 & ->)|(y & E1 & ->)]]; apply Hm in E1; try exact E1. apply Hf in E2. eapply upto_trans; eassumption.
Qed.
Lemma u_catch {A} (m : M A) p h : UU m -> (forall x, UU (h x)) -> UU (mcatch m p h).
Proof.
  intros Hm Hf w t w' o E. unfold mcatch in E. destruct (m w) as [[t1 w1] o1] eqn:E1. apply Hm in E1.
  destruct o1 as [a|x|y]; try (injection E as <- <- <-; exact E1). destruct (p x); [|injection E as <- <- <-; exact E1].
  destruct (h x w1) as [[t2 w2] o2] eqn:E2. injection E as <- <- <-. apply Hf in E2. eapply upto_trans; eassumption.
Qed.
Lemma u_perform n c : UU (perform n c).
Proof.
  assert (D : (forall p, c <> SendMessage X p) \/ exists p, c = SendMessage X p).
  { destruct c; try (left; intros p K; discriminate K). destruct (Z.eq_dec code X) as [->|N]; [right; eauto|left; intros p K; congruence]. }
  destruct D as [D|(p & ->)]; [apply qu, q_perform; exact D|]. cbn [perform]. unfold ignore, async_send_message, command, connected_request.
  assert (G : forall mr, UU (attempt_request (async_connect n no_args) (fun (mr : Z) (c : nat) => make_request c X p mr) mr)).
  { intros mr. unfold attempt_request. apply u_bind; [apply qu, q_connect|]. intros b. destruct (negb b); [apply qu, q_raise|].
    apply u_bind; [apply qu, q_proto|]. intros c w t w' o E. apply request_run, run_kept in E. destruct E as (_ & _ & _ & E & _). left. unfold e. rewrite E. reflexivity. }
  apply u_bind; [|intros _; apply qu, q_ret]. apply u_bind; [apply qu, q_get|]. intros mr. apply u_catch; [apply G|]. intros x.
  apply u_bind; [apply qu, q_disconnect|]. intros _. apply u_bind; [apply qu, q_sleep|]. intros _. apply G.
Qed.
Lemma u_session n w l w' : session n w l w' -> upto w (history_trace l) w'.
Proof.
  intros H. induction H as [w|w c t w1 o l w2 E _ _ IH|w r t w1 l w2 E _ IH]; [left; reflexivity|..].
  - apply u_perform in E. exact (upto_trans _ _ _ _ _ E IH).
  - assert (U : upto w t w1) by (left; eapply interfere_e; exact E). exact (upto_trans _ _ _ _ _ U IH).
Qed.
