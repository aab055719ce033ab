(** Proofs for Prop_Limit.v: runs with another retry setting. *)
From Verif Require Import Py F64 Struct Utf Utility Const Enum Decode World Request Gateway Traces Api P_Base P_Util P_Monad P_Request SpecSlow P_Slow P_Slow2.
Open Scope m_scope.

Section Limit.
Variable k : Z.
Hypothesis K0 : 0 <= k.
Definition none : Z -> Z := fun _ => 0.
Local Notation dress := (limits k).

Lemma lose_dress j c w : lose c (dress j w) = (fst (lose c w), dress j (snd (lose c w))).
Proof. unfold lose. change (connected c (dress j w)) with (connected c w). destruct (connected c w); reflexivity. Qed.
Lemma interfere_dress j r w l w1 : interfere r w = (l, w1) -> interfere r (dress j w) = (l, dress j w1).
Proof.
  unfold interfere. 
  match goal with |- lose_all _ ?a = _ -> lose_all _ ?b = _ => set (w0 := a); replace b with (dress j w0) by (subst w0; destruct (r_data r); reflexivity) end.
  clearbody w0. revert w0 l w1. induction (r_lost r) as [|c cs IH]; intros w0 l w1 E; cbn [lose_all] in *; [injection E as <- <-; reflexivity|].
  rewrite lose_dress. destruct (lose c w0) as [l1 w2]. cbn [fst snd]. destruct (lose_all cs w2) as [l2 w3] eqn:E2. rewrite (IH _ _ _ E2).
  injection E as <- <-. reflexivity.
Qed.

Definition tw {A} (m m' : M A) : Prop := forall w t w1 o, m w = (t, w1, o) -> ends o -> 0 <= w_retries w ->
  0 <= w_retries w1 /\ fin t /\ forall e t', slower none t e t' -> forall j, exists j', m' (dress j w) = (t, dress j' w1, o).

Lemma tw_ret {A} (a : A) : tw (mret a) (mret a).
Proof. intros w t w1 o E N K. injection E as <- <- <-. split; [exact K|]. split; [constructor|]. intros e t' S j. exists j. reflexivity. Qed.
Lemma tw_raise {A} e : tw (@mraise A e) (mraise e).
Proof. intros w t w1 o E N K. injection E as <- <- <-. split; [exact K|]. split; [constructor|]. intros e' t' S j. exists j. reflexivity. Qed.
Lemma tw_stuck {A} y : tw (@mstuck A y) (mstuck y).
Proof. intros w t w1 o E N K. injection E as <- <- <-. destruct (N y eq_refl). Qed.
Lemma tw_lift {A} (r : res A) : tw (mlift r) (mlift r). Proof. destruct r; [apply tw_ret|apply tw_raise]. Qed.
Lemma tw_put (f f' : world -> world) : (forall j w, exists j', f' (dress j w) = dress j' (f w)) -> (forall w, w_retries (f w) = w_retries w) -> tw (mput f) (mput f').
Proof.
  intros C Rt w t w1 o E N K. injection E as <- <- <-. split; [rewrite Rt; exact K|]. split; [constructor|].
  intros e t' S j. destruct (C j w) as (j' & C'). exists j'. unfold mput. rewrite C'. reflexivity.
Qed.
Lemma tw_emit x : at_once x -> tw (memit x) (memit x).
Proof.
  intros W w t w1 o E N K. injection E as <- <- <-. split; [exact K|]. split; [apply (fin_last []); destruct x; cbn in *; tauto|].
  intros e t' S j. exists j. reflexivity.
Qed.
Lemma tw_bind {A B} (m m' : M A) (h h' : A -> M B) : tw m m' -> (forall a, tw (h a) (h' a)) -> tw (mbind m h) (mbind m' h').
Proof.
  intros Hm Hk w t w1 o E N K. apply bind_inv in E. destruct E as [(t1 & w2 & a & t2 & E1 & E2 & ->)|[(x & E1 & ->)|(y & E1 & ->)]].
  - destruct (Hm _ _ _ _ E1 ltac:(discriminate) K) as (K1 & F1 & S1). destruct (Hk a _ _ _ _ E2 N K1) as (K2 & F2 & S2).
    split; [exact K2|]. split; [apply fin_app; assumption|]. intros e t' S j.
    destruct (slower_split _ _ _ _ S t1 t2 eq_refl F1) as (e1 & e2 & s1 & s2 & -> & -> & Sa & Sb).
    destruct (S1 _ _ Sa j) as (j1 & R1). destruct (S2 _ _ Sb j1) as (j2 & R2). exists j2.
    rewrite (bind_val _ _ _ _ _ _ R1), R2. reflexivity.
  - destruct (Hm _ _ _ _ E1 ltac:(discriminate) K) as (K1 & F1 & S1). split; [exact K1|]. split; [exact F1|].
    intros e t' S j. destruct (S1 _ _ S j) as (j1 & R1). exists j1. apply bind_exc, R1.
  - destruct (N y eq_refl).
Qed.
Lemma tw_get {A B} (f : world -> A) (h h' : A -> M B) : (forall j w, f (dress j w) = f w) -> (forall a, tw (h a) (h' a)) -> tw (mbind (mget f) h) (mbind (mget f) h').
Proof.
  intros C Hk w t w1 o E N K. rewrite bind_get in E. destruct (Hk (f w) _ _ _ _ E N K) as (K1 & F & S). split; [exact K1|]. split; [exact F|].
  intros e t' P j. rewrite bind_get, C. eapply S, P.
Qed.
(** reading the retry setting *)
Lemma tw_setting {B} (h h' : Z -> M B) : (forall mr, 0 <= mr -> tw (h mr) (h' k)) -> tw (mbind (mget w_retries) h) (mbind (mget w_retries) h').
Proof.
  intros Hk w t w1 o E N K. rewrite bind_get in E. destruct (Hk _ K _ _ _ _ E N K) as (K1 & F & S). split; [exact K1|]. split; [exact F|].
  intros e t' P j. rewrite bind_get. change (w_retries (dress j w)) with k. eapply S, P.
Qed.
Lemma tw_catch {A} (m m' : M A) p h h' : tw m m' -> (forall e, tw (h e) (h' e)) -> tw (mcatch m p h) (mcatch m' p h').
Proof.
  intros Hm Hh w t w1 o E N K. unfold mcatch in E. destruct (m w) as [[t1 w2] o1] eqn:E1. destruct o1 as [a|x|y].
  - injection E as <- <- <-. destruct (Hm _ _ _ _ E1 N K) as (K1 & F1 & S1). split; [exact K1|]. split; [exact F1|].
    intros e t' S j. destruct (S1 _ _ S j) as (j1 & R1). exists j1. unfold mcatch. rewrite R1. reflexivity.
  - destruct (Hm _ _ _ _ E1 ltac:(discriminate) K) as (K1 & F1 & S1). destruct (p x) eqn:P.
    + destruct (h x w2) as [[t2 w3] o2] eqn:E2. injection E as <- <- <-. destruct (Hh x _ _ _ _ E2 N K1) as (K2 & F2 & S2).
      split; [exact K2|]. split; [apply fin_app; assumption|]. intros e t' S j.
      destruct (slower_split _ _ _ _ S t1 t2 eq_refl F1) as (e1 & e2 & s1 & s2 & -> & -> & Sa & Sb).
      destruct (S1 _ _ Sa j) as (j1 & R1). destruct (S2 _ _ Sb j1) as (j2 & R2). exists j2. unfold mcatch. rewrite R1, P, R2. reflexivity.
    + injection E as <- <- <-. split; [exact K1|]. split; [exact F1|]. intros e t' S j. destruct (S1 _ _ S j) as (j1 & R1). exists j1.
      unfold mcatch. rewrite R1, P. reflexivity.
  - injection E as <- <- <-. destruct (N y eq_refl).
Qed.
Lemma tw_finally {A} (m m' : M A) f : tw m m' -> (forall j w, f (dress j w) = dress j (f w)) -> (forall w, w_retries (f w) = w_retries w) -> tw (mfinally m f) (mfinally m' f).
Proof.
  intros Hm C Rt w t w1 o E N K. unfold mfinally in E. destruct (m w) as [[t1 w2] o1] eqn:E1.
  assert (N1 : ends o1 /\ t = t1 /\ w1 = f w2 /\ o = o1).
  { destruct o1; injection E as <- <- <-; [auto|auto|destruct (N y eq_refl)]. }
  clear E. destruct N1 as (_ & -> & -> & ->).
  destruct (Hm _ _ _ _ E1 N K) as (K1 & F1 & S1). split; [rewrite Rt; exact K1|]. split; [exact F1|].
  intros e t' S j. destruct (S1 _ _ S j) as (j1 & R1). exists j1. unfold mfinally. rewrite R1. destruct o1; [rewrite C; reflexivity|rewrite C; reflexivity|destruct (N y eq_refl)].
Qed.
Lemma tw_ask x pre : waits_else x -> (forall r j w, pre r (dress j w) = dress j (pre r w)) -> (forall r w, w_retries (pre r w) = w_retries w) -> tw (ask x pre) (ask x pre).
Proof.
  intros W C Rt w t w1 o E N K. unfold ask in E. destruct (w_env w) as [|r rest] eqn:Ew; [injection E as <- <- <-; destruct (N _ eq_refl)|].
  destruct (interfere r (pre r (set_env rest w))) as [l w2] eqn:I. injection E as <- <- <-. pose proof (interfere_l _ _ _ _ I) as O.
  split; [rewrite (interfere_J _ _ _ _ I), Rt; exact K|]. split; [apply fin_got, O|].
  intros e t' S j. exists j. unfold ask. change (w_env (dress j w)) with (w_env w). rewrite Ew.
  change (set_env rest (dress j w)) with (dress j (set_env rest w)). rewrite C, (interfere_dress j _ _ _ _ I). reflexivity.
Qed.
Lemma tw_lose c : tw (fun w => let '(t, w') := lose c w in (t, w', Val tt)) (fun w => let '(t, w') := lose c w in (t, w', Val tt)).
Proof.
  intros w t w1 o E N K. destruct (lose c w) as [l w2] eqn:L. injection E as <- <- <-.
  assert (O : only_losses l) by (pose proof (lose_losses c w) as O; rewrite L in O; exact O).
  split; [unfold lose in L; destruct (connected c w); injection L as _ <-; exact K|]. split; [apply fin_losses, O|].
  intros e t' S j. exists j. rewrite lose_dress, L. reflexivity.
Qed.

(** ** one message *)
Lemma loop_dress n n' j : forall c X b mr mr' a w w' o, request_loop (Datatypes.S n) a mr c X b w = ([], w', o) -> ends o ->
  request_loop (Datatypes.S n') a mr' c X b (dress j w) = ([], dress j w', o).
Proof.
  intros c X b mr mr' a w w' o E N. cbn [request_loop] in *.
  rewrite bind_get in *. change (connected c (dress j w)) with (connected c w). destruct (connected c w) eqn:C; cbn [negb] in *;
    [|injection E as <- <-; reflexivity].
  rewrite bind_get in *. change (get_conn c (dress j w)) with (get_conn c w). destruct (c_closing (get_conn c w)).
  - rewrite bind_get in *. change (connected c (dress j w)) with (connected c w). rewrite C in *. injection E as <- <-. reflexivity.
  - unfold send in *. apply bind_inv in E. destruct E as [(t1 & w1 & x & t2 & E1 & E2 & E3)|[(x & E1 & ->)|(y & E1 & ->)]].
    + exfalso. symmetry in E3. apply app_eq_nil in E3. destruct E3 as (-> & ->). assert (Ne : forall t0 w0 o0, ask (AwaitReply c (1000 * COM_TIMEOUT)) nopre w1 = (t0, w0, o0) -> t0 <> []).
      { intros t0 w0 o0 Q. unfold ask in Q. destruct (w_env w1); [injection Q as <- _ _; discriminate|].
        destruct (interfere _ _). injection Q as <- _ _. discriminate. }
      apply bind_inv in E2. destruct E2 as [(t1 & w2 & r & t2 & E2 & _ & E3)|[(z & E2 & _)|(z & E2 & _)]]; apply Ne in E2; [|congruence|congruence].
      symmetry in E3. apply app_eq_nil in E3. tauto.
    + rewrite bind_get in E1. destruct (c_open (get_conn c w)) eqn:Op; [|discriminate E1].
      assert (Sd : mbind (mget (get_conn c)) (fun k => if c_open k then mbind (mlift (makeMessage 0 X b)) (fun _ => memit (Send c X b)) else mret tt) (dress j w)
               = ([], dress j w', Exc x)).
      { rewrite bind_get. change (get_conn c (dress j w)) with (get_conn c w). rewrite Op. destruct (makeMessage 0 X b) as [m|er]; cbn [mlift] in *; [rewrite bind_ret in E1; discriminate E1|].
        rewrite bind_raise in *. injection E1 as <- <-. reflexivity. }
      rewrite (bind_exc _ _ _ _ _ _ Sd). reflexivity.
    + destruct (N y eq_refl).
Qed.
Lemma tw_request c X b mr k' : 0 <= mr -> 0 <= k' -> tw (make_request c X b mr) (make_request c X b k').
Proof.
  intros M M' w t w1 o E N K. pose proof E as E0. apply request_run in E. destruct (lrun_fin none _ _ _ _ _ _ _ _ _ _ E N) as (F & Rt).
  split; [rewrite Rt; exact K|]. split; [exact F|]. intros e t' S j. exists j.
  destruct (Z.to_nat (mr + 1)) as [|p] eqn:P1; [exfalso; lia|]. destruct (Z.to_nat (k' + 1)) as [|p'] eqn:P2; [exfalso; lia|].
  assert (Nil : t = [] -> make_request c X b k' (dress j w) = (t, dress j w1, o)).
  { intros ->. unfold make_request in *. rewrite P1 in E0. rewrite P2. eapply loop_dress; eassumption. }
  inversion E; subst; try (apply Nil; reflexivity).
  - destruct (N _ eq_refl).
  - destruct (slower_sent _ _ _ _ _ _ _ _ _ S) as (Op & a0 & e1 & s & e2 & s2 & A & L & S2 & -> & ->).
    pose proof (interfere_l _ _ _ _ H3) as O.
    rewrite (judge_late _ _ _ A) in H4. subst o. unfold make_request. rewrite P2.
    assert (Mk : exists m, makeMessage 0 X b = Ok m).
    { destruct (makeMessage 0 X b) as [m|er] eqn:Mm; [eauto|]. exfalso. unfold make_request in E0. rewrite P1 in E0. cbn [request_loop] in E0.
      rewrite bind_get, H0 in E0. cbn [negb] in E0. rewrite bind_get, H1 in E0. unfold send in E0. rewrite bind_assoc, bind_get, Op, Mm in E0. discriminate E0. }
    pose proof (interfere_dress j _ _ _ _ H3) as I2.
    pose proof (late_run none c X b k' r a0 1 [r] _ A (late_now _ _ _ _ _ 1) M' Mk (Datatypes.S p') (dress j w) rest (dress j w1) l) as R.
    change (set_env rest (dress j w)) with (dress j (set_env rest w)) in R.
    specialize (R H0 H1 Op ltac:(clear; lia) ltac:(clear - P2 M'; lia) I2). unfold sent. rewrite Op. cbn [app] in *.
    change (1 - 1) with 0 in R. etransitivity; [|exact R]. f_equal. destruct w; cbn in *; subst; reflexivity.
  - destruct (N _ eq_refl).
  - exfalso. replace (sent c X b w ++ AwaitReply c 2000 :: Got r :: l ++ Sleep (1000 * (0 + 1)) :: Got r2 :: l2)
      with (sent c X b w ++ AwaitReply c 2000 :: Got r :: (l ++ Sleep (1000 * (0 + 1)) :: Got r2 :: l2)) in S by reflexivity.
    destruct (slower_sent _ _ _ _ _ _ _ _ _ S) as (_ & a0 & _ & _ & _ & _ & A & _). rewrite (judge_late _ _ _ A) in H4. discriminate H4.
  - exfalso. destruct (slower_sent _ _ _ _ _ _ _ _ _ S) as (_ & a0 & _ & _ & _ & _ & A & _). rewrite (judge_late _ _ _ A) in H4. discriminate H4.
Qed.

(** ** the coroutines *)
Lemma tw_decode (m : DM unit) : tw (mdecode m) (mdecode m).
Proof.
  intros w t w1 o E N K. unfold mdecode in *. destruct (m (w_data w)) as [d r] eqn:D. injection E as <- <- <-. split; [exact K|]. split; [constructor|].
  intros e t' S j. exists j. change (w_data (dress j w)) with (w_data w). rewrite D. reflexivity.
Qed.
Ltac tw1 := lazymatch goal with
  | |- tw (mbind (mget w_retries) _) _ => apply tw_setting; intros ? ?
  | |- tw (mbind (mget _) _) _ => apply tw_get; [intros; reflexivity|intros ?]
  | |- tw (mbind _ _) _ => apply tw_bind; [|intros ?]
  | |- tw (mret _) _ => apply tw_ret
  | |- tw (mraise _) _ => apply tw_raise
  | |- tw (mstuck _) _ => apply tw_stuck
  | |- tw (mlift _) _ => apply tw_lift
  | |- tw (mput _) _ => apply tw_put; [intros j ?; exists j; reflexivity|intros; reflexivity]
  | |- tw (memit _) _ => apply tw_emit; exact Logic.I
  | |- tw (mdecode _) _ => apply tw_decode
  | |- tw (ask _ nopre) _ => apply tw_ask; [exact Logic.I|intros; reflexivity|intros; reflexivity]
  | |- tw (require _) _ => unfold require
  | |- tw (match ?x with _ => _ end) _ => destruct x
  end.

Lemma tw_sleep ms : tw (msleep ms) (msleep ms). Proof. unfold msleep. repeat tw1. Qed.
Definition fitting {A} (method : Z -> nat -> M A) : Prop := forall mr mr' c, 0 <= mr -> 0 <= mr' -> tw (method mr c) (method mr' c).
Lemma tw_data X p dec : fitting (data_request X p dec).
Proof. intros mr mr' c L L'. unfold data_request. tw1; [apply tw_request; assumption|]. repeat tw1. Qed.
Lemma tw_date : fitting request_date_time.
Proof. intros mr mr' c L L'. unfold request_date_time. tw1; [apply tw_request; assumption|]. repeat tw1. Qed.
Lemma tw_pump i : fitting (request_pump_status i).
Proof. intros mr mr' c L L'. unfold request_pump_status. tw1; [tw1|]. apply tw_data; assumption. Qed.
Lemma tw_version : fitting request_gateway_version.
Proof. intros mr mr' c L L'. unfold request_gateway_version. tw1. apply tw_data; assumption. Qed.
Lemma tw_command X pl : fitting (command_request X pl).
Proof. intros mr mr' c L L'. unfold command_request. tw1; [tw1|]. tw1; [apply tw_request; assumption|]. repeat tw1. Qed.
Lemma Z0 : 0 <= 0. Proof. lia. Qed.
Lemma tw_close c force : tw (async_close c force) (async_close c force).
Proof. unfold async_close. repeat tw1; apply tw_lose. Qed.
Lemma tw_mproto : tw m_proto_or_fail m_proto_or_fail. Proof. unfold m_proto_or_fail. repeat tw1. Qed.
Lemma tw_proto : tw proto_or_fail proto_or_fail. Proof. unfold proto_or_fail. repeat tw1. Qed.
Lemma tw_lock {A} (m m' : M A) : tw m m' -> tw (with_lock m) (with_lock m').
Proof.
  intros H. unfold with_lock. tw1. tw1; [tw1|]. tw1; [tw1|]. apply tw_finally; [exact H|intros; reflexivity|intros; reflexivity].
Qed.
Lemma tw_remove : tw remove_client remove_client.
Proof.
  unfold remove_client. apply tw_catch; [|intros; tw1]. tw1; [apply tw_mproto|]. tw1. apply tw_command; exact Z0.
Qed.
Lemma tw_unsubscribe : tw unsubscribe_gateway unsubscribe_gateway.
Proof.
  unfold unsubscribe_gateway. tw1. tw1; [tw1|]. apply tw_lock. tw1. tw1; [|tw1]. tw1; [tw1|]. tw1; [apply tw_mproto|].
  tw1; [tw1|]. tw1; [tw1|]. apply tw_remove.
Qed.
Lemma tw_disconnect force : tw (async_disconnect force) (async_disconnect force).
Proof. unfold async_disconnect. tw1. tw1; [tw1; [apply tw_unsubscribe|tw1]|]. tw1; [apply tw_proto|apply tw_close]. Qed.
Lemma tw_attempt {A} connect (method : Z -> nat -> M A) mr : tw connect connect -> fitting method -> 0 <= mr ->
  tw (attempt_request connect method mr) (attempt_request connect method k).
Proof. intros C Mt L. unfold attempt_request. tw1; [exact C|]. tw1; [tw1|]. tw1; [apply tw_proto|apply Mt; assumption]. Qed.
Lemma tw_connected {A} connect (method : Z -> nat -> M A) delay : tw connect connect -> fitting method ->
  tw (connected_request connect method delay) (connected_request connect method delay).
Proof.
  intros C Mt. unfold connected_request. tw1. apply tw_catch; [apply tw_attempt; assumption|].
  intros e. tw1; [apply tw_disconnect|]. tw1; [apply tw_sleep|]. apply tw_attempt; assumption.
Qed.
Lemma tw_subscribe connect : tw connect connect -> tw (subscribe_gateway connect) (subscribe_gateway connect).
Proof.
  intros C. unfold subscribe_gateway. tw1. tw1; [tw1|]. apply tw_lock. tw1. tw1; [|tw1]. tw1.
  tw1; [apply tw_connected; [exact C|apply tw_command]|]. tw1; [tw1|]. tw1; [apply tw_mproto|tw1].
Qed.
Lemma tw_attach connect c mr : tw connect connect -> 0 <= mr -> tw (attach connect c mr) (attach connect c k).
Proof.
  intros C L. unfold attach. tw1; [apply tw_put; [intros j w; exists k; reflexivity|reflexivity]|]. tw1. tw1; [|tw1]. tw1; [tw1|]. tw1; [|apply tw_subscribe, C].
  assert (K : forall l w, w_retries (fold_left (fun w code => register c code (HClient code) w) l w) = w_retries w /\
    forall j, fold_left (fun w code => register c code (HClient code) w) l (dress j w) = dress j (fold_left (fun w code => register c code (HClient code) w) l w)).
  { induction l as [|x l IH]; intros v; cbn [fold_left]; [auto|]. split; [rewrite (proj1 (IH _)); reflexivity|]. intros j.
    change (register c x (HClient x) (dress j v)) with (dress j (register c x (HClient x) v)). apply IH. }
  apply tw_put; [|intros; apply K]. intros j w. exists j. change (m_listeners (w_cm (dress j w))) with (m_listeners (w_cm w)). apply K.
Qed.
Lemma tw_poll connect q (method : Z -> nat -> M (option bytes)) : tw connect connect -> fitting method -> tw (poll connect q method) (poll connect q method).
Proof. intros C Mt. unfold poll. tw1; [apply tw_connected; assumption|]. repeat tw1. Qed.
Lemma tw_create ip port : tw (create_connection ip port) (create_connection ip port).
Proof.
  unfold create_connection. tw1. tw1; [|repeat tw1]. apply tw_ask; [exact Logic.I| |].
  - intros r j w'. destruct (r_kind r); reflexivity.
  - intros r w'. destruct (r_kind r); reflexivity.
Qed.
Lemma tw_gateway_connect : fitting (fun mr c => gateway_connect c mr).
Proof.
  intros mr mr' c L L'. unfold gateway_connect. tw1. tw1; [repeat tw1|]. tw1; [apply tw_sleep|]. tw1. tw1; [tw1|].
  tw1; [apply tw_request; assumption|]. repeat tw1.
Qed.
Lemma tw_login : fitting (fun mr c => gateway_login c mr).
Proof. intros mr mr' c L L'. unfold gateway_login. tw1; [tw1|]. tw1; [apply tw_request; assumption|]. repeat tw1. Qed.
Lemma tw_connect_to ip port mr : 0 <= mr -> tw (connect_to_gateway ip port mr) (connect_to_gateway ip port k).
Proof.
  intros L. unfold connect_to_gateway. tw1; [apply tw_create|]. tw1; [apply tw_gateway_connect; assumption|]. tw1; [apply tw_login; assumption|]. repeat tw1.
Qed.
Lemma tw_connect n : forall x, tw (async_connect n x) (async_connect n x).
Proof.
  induction n as [|n IH]; intros x; cbn [async_connect]; [apply tw_stuck|]. tw1. tw1; [tw1|]. tw1; [tw1|]. tw1. tw1; [tw1|].
  tw1. tw1. tw1. tw1; [apply tw_connect_to; assumption|]. tw1; [|tw1]. destruct p as [c mac]. tw1; [tw1|]. tw1.
  tw1; [apply tw_version; assumption|]. tw1; [tw1|]. tw1. tw1; [|tw1]. tw1; [apply tw_poll; [apply IH|apply tw_data]|].
  tw1; [apply tw_proto|]. tw1. tw1; [apply tw_attach; [apply IH|assumption]|]. tw1.
Qed.
Lemma tw_cmd {A} n (method : Z -> nat -> M A) delay : fitting method -> tw (command n method delay) (command n method delay).
Proof. intros Mt. unfold command. apply tw_connected; [apply tw_connect|exact Mt]. Qed.
Lemma tw_get_one n q (method : Z -> nat -> M (option bytes)) : fitting method -> tw (poll (async_connect n no_args) q method) (poll (async_connect n no_args) q method).
Proof. intros Mt. apply tw_poll; [apply tw_connect|exact Mt]. Qed.
Lemma tw_status n : tw (async_get_status n) (async_get_status n). Proof. apply tw_get_one, tw_data. Qed.
Lemma tw_config n : tw (async_get_config n) (async_get_config n). Proof. apply tw_get_one, tw_data. Qed.
Lemma tw_chem n : tw (async_get_chemistry n) (async_get_chemistry n). Proof. apply tw_get_one, tw_data. Qed.
Lemma tw_scg n : tw (async_get_scg n) (async_get_scg n). Proof. apply tw_get_one, tw_data. Qed.
Lemma tw_datetime n : tw (async_get_datetime n) (async_get_datetime n). Proof. apply tw_get_one, tw_date. Qed.
Lemma tw_pumps n ids : tw (pumps_loop n ids) (pumps_loop n ids).
Proof.
  induction ids as [|i ids IH]; cbn [pumps_loop]; [tw1|]. tw1. tw1; [tw1|]. tw1; [|exact IH]. tw1; [tw1|].
  tw1; [apply tw_put; [intros j w; exists j; unfold pumps_entry; change (w_last (dress j w)) with (w_last w)|intros; unfold pumps_entry]; destruct (din _ _); reflexivity|].
  tw1; [apply tw_cmd, tw_pump|]. tw1; [|tw1].
  apply tw_put; [intros j w; exists j; unfold store_pump; change (w_last (dress j w)) with (w_last w)|intros; unfold store_pump]; destruct (dget _ _) as [[]|]; reflexivity.
Qed.
Lemma tw_perform n call : (forall q, call <> SetMaxRetries q) -> tw (perform n call) (perform n call).
Proof.
  intros Ns. destruct call; cbn [perform]; unfold ignore.
  - tw1; [apply tw_connect|tw1].
  - apply tw_disconnect.
  - apply tw_config.
  - apply tw_status.
  - apply tw_chem.
  - apply tw_scg.
  - apply tw_datetime.
  - apply tw_pumps.
  - unfold async_update. tw1. tw1; [tw1|]. tw1; [apply tw_status|]. tw1; [apply tw_pumps|]. tw1; [apply tw_chem|]. tw1; [apply tw_scg|apply tw_datetime].
  - destruct (Ns k0 eq_refl).
  - unfold async_set_circuit. repeat tw1. apply tw_cmd, tw_command.
  - unfold async_set_heat_temp. repeat tw1. apply tw_cmd, tw_command.
  - unfold async_set_heat_mode. repeat tw1. apply tw_cmd, tw_command.
  - unfold async_set_color_lights. repeat tw1. apply tw_cmd, tw_command.
  - unfold async_set_scg_config. tw1. tw1; [tw1|]. repeat match goal with x : (_ * _)%type |- _ => destruct x end. apply tw_cmd, tw_command.
  - unfold async_set_chem_data. tw1. tw1; [tw1|]. repeat match goal with x : (_ * _)%type |- _ => destruct x end. apply tw_cmd, tw_command.
  - unfold async_set_date_time. tw1. tw1. tw1; [tw1|]. repeat match goal with x : (_ * _)%type |- _ => destruct x end. apply tw_cmd, tw_command.
  - unfold async_synchronize_date_time, async_set_date_time. tw1. tw1. tw1; [tw1|]. repeat match goal with x : (_ * _)%type |- _ => destruct x end. apply tw_cmd, tw_command.
  - tw1; [|tw1]. unfold async_send_message. apply tw_cmd. intros mr mr' c L L'. apply tw_request; assumption.
  - unfold register_handler. repeat tw1.
  - unfold remove_handler. repeat tw1.
  - tw1; [|tw1]. unfold async_subscribe_client. tw1. tw1; [tw1|]. tw1; [tw1|]. tw1; [apply tw_mproto|]. tw1; [tw1|]. tw1.
    tw1; [|tw1]. tw1; [|tw1]. apply tw_subscribe, tw_connect.
  - unfold remove_subscription. tw1. tw1; [tw1|]. tw1; [tw1|]. tw1. tw1. tw1; [|tw1]. tw1; [apply tw_mproto|tw1].
  - apply tw_unsubscribe.
  - unfold async_ping. apply tw_catch; [|intros; tw1]. tw1; [apply tw_mproto|]. apply tw_command; exact Z0.
Qed.
End Limit.

(** a run in which every message is answered at once, told as a slow run that is not slow *)
Lemma slower_prompt n t e t' : slower n t e t' -> exists e0, slower none t e0 t.
Proof.
  induction 1 as [|c X b r a t e t' l s A L S [e0 IH]|w r t e t' W S [e0 IH]|x t e t' W S [e0 IH]].
  - exists []. constructor.
  - exists ([r] ++ e0). change (Send c X b :: AwaitReply c 2000 :: Got r :: t) with ([Send c X b; AwaitReply c 2000; Got r] ++ t).
    econstructor; [exact A|apply late_now|exact IH].
  - exists (r :: e0). constructor; assumption.
  - exists e0. constructor; assumption.
Qed.
