(** Proofs for Prop_Clock.v: runs at another time of the host's clock. *)
From Verif Require Import Py F64 Struct Utf Utility Const Enum Decode World Request Gateway Traces Api P_Base P_Util P_Monad P_Dict P_Calm SpecClock.
Open Scope m_scope.

Lemma same_ev_refl t : Forall2 same_ev t t.
Proof. induction t as [|[] t IH]; constructor; auto; cbn; auto. repeat split. Qed.
Lemma lose_clock x e c w : lose c (set_env e (set_clock x w)) = (fst (lose c w), set_env e (set_clock x (snd (lose c w)))).
Proof. unfold lose. change (connected c (set_env e (set_clock x w))) with (connected c w). destruct (connected c w); reflexivity. Qed.
Lemma lose_all_clock x e cs : forall w, lose_all cs (set_env e (set_clock x w)) = (fst (lose_all cs w), set_env e (set_clock x (snd (lose_all cs w)))).
Proof.
  induction cs as [|c cs IH]; intros w; cbn [lose_all]; [reflexivity|]. rewrite lose_clock. destruct (lose c w) as [t w1]. cbn [fst snd].
  rewrite IH. destruct (lose_all cs w1) as [t2 w2]. reflexivity.
Qed.
Lemma interfere_clock2 e r r' w x : retimed r r' -> 
  interfere r' (set_env e (set_clock x w)) = (fst (interfere r w), set_env e (set_clock (r_clock r') (snd (interfere r w)))).
Proof.
  intros (Ek & El & Ed). unfold interfere. rewrite El, Ed.
  set (v := set_clock (r_clock r) (match r_data r with Some d => set_data d w | None => w end)).
  replace (set_clock (r_clock r') _) with (set_env e (set_clock (r_clock r') v)) by (subst v; destruct (r_data r); reflexivity).
  apply lose_all_clock.
Qed.

(** does the same at any time *)
Definition tc {A} (m : M A) : Prop := forall w w' t w1 o, other_time w w' -> m w = (t, w1, o) ->
  exists t' w1', m w' = (t', w1', o) /\ Forall2 same_ev t t' /\ other_time w1 w1'.
Lemma tc_ret {A} (a : A) : tc (mret a).
Proof. intros w w' t w1 o R E. injection E as <- <- <-. exists [], w'. repeat split; [constructor|exact R]. Qed.
Lemma tc_raise {A} e : tc (@mraise A e).
Proof. intros w w' t w1 o R E. injection E as <- <- <-. exists [], w'. repeat split; [constructor|exact R]. Qed.
Lemma tc_stuck {A} y : tc (@mstuck A y).
Proof. intros w w' t w1 o R E. injection E as <- <- <-. exists [], w'. repeat split; [constructor|exact R]. Qed.
Lemma tc_lift {A} (r : res A) : tc (mlift r). Proof. destruct r; [apply tc_ret|apply tc_raise]. Qed.
Lemma tc_emit x : tc (memit x).
Proof. intros w w' t w1 o R E. injection E as <- <- <-. exists [x], w'. repeat split; [apply same_ev_refl|exact R]. Qed.
Lemma tc_put (f : world -> world) : (forall x e w, f (set_env e (set_clock x w)) = set_env e (set_clock x (f w))) -> (forall w, w_env (f w) = w_env w) -> tc (mput f).
Proof.
  intros C Ev w w' t w1 o (x & e & F & ->) E. injection E as <- <- <-. eexists [], _. split; [reflexivity|]. split; [constructor|].
  exists x, e. rewrite C, Ev. auto.
Qed.
Lemma tc_bind {A B} (m : M A) (k : A -> M B) : tc m -> (forall a, tc (k a)) -> tc (mbind m k).
Proof.
  intros Hm Hk w w' t w1 o R E. apply bind_inv in E. destruct E as [(t1 & w2 & a & t2 & E1 & E2 & ->)|[(x & E1 & ->)|(y & E1 & ->)]].
  - destruct (Hm _ _ _ _ _ R E1) as (s1 & v1 & M1 & S1 & R1). destruct (Hk a _ _ _ _ _ R1 E2) as (s2 & v2 & M2 & S2 & R2).
    exists (s1 ++ s2), v2. rewrite (bind_val _ _ _ _ _ _ M1), M2. repeat split; [apply Forall2_app; assumption|exact R2].
  - destruct (Hm _ _ _ _ _ R E1) as (s1 & v1 & M1 & S1 & R1). exists s1, v1. split; [apply bind_exc, M1|auto].
  - destruct (Hm _ _ _ _ _ R E1) as (s1 & v1 & M1 & S1 & R1). exists s1, v1. split; [unfold mbind; rewrite M1; reflexivity|auto].
Qed.
Lemma tc_get {A B} (f : world -> A) (k : A -> M B) : (forall x e w, f (set_env e (set_clock x w)) = f w) -> (forall a, tc (k a)) -> tc (mbind (mget f) k).
Proof.
  intros C Hk w w' t w1 o R E. rewrite bind_get in E. destruct (Hk (f w) _ _ _ _ _ R E) as (s & v & M1 & S & R1). exists s, v.
  destruct R as (x & e & F & ->). rewrite bind_get, C. auto.
Qed.
Lemma tc_catch {A} (m : M A) p h : tc m -> (forall e, tc (h e)) -> tc (mcatch m p h).
Proof.
  intros Hm Hh w w' t w1 o R E. unfold mcatch in *. destruct (m w) as [[t1 w2] o1] eqn:E1. destruct (Hm _ _ _ _ _ R E1) as (s1 & v1 & M1 & S1 & R1). rewrite M1.
  destruct o1 as [a|x|y]; [injection E as <- <- <-; eauto| |injection E as <- <- <-; eauto].
  destruct (p x); [|injection E as <- <- <-; eauto]. destruct (h x w2) as [[t2 w3] o2] eqn:E2. injection E as <- <- <-.
  destruct (Hh x _ _ _ _ _ R1 E2) as (s2 & v2 & M2 & S2 & R2). rewrite M2. eexists _, _. split; [reflexivity|]. split; [apply Forall2_app; assumption|exact R2].
Qed.
Lemma tc_finally {A} (m : M A) f : tc m -> (forall x e w, f (set_env e (set_clock x w)) = set_env e (set_clock x (f w))) -> (forall w, w_env (f w) = w_env w) -> tc (mfinally m f).
Proof.
  intros Hm C Ev w w' t w1 o R E. unfold mfinally in *. destruct (m w) as [[t1 w2] o1] eqn:E1. destruct (Hm _ _ _ _ _ R E1) as (s1 & v1 & M1 & S1 & R1). rewrite M1.
  assert (R2 : other_time (f w2) (f v1)) by (destruct R1 as (x & e & F & ->); exists x, e; rewrite C, Ev; auto).
  destruct o1; injection E as <- <- <-; eauto.
Qed.
Lemma tc_ask x pre : (forall r r' z e w, retimed r r' -> pre r' (set_env e (set_clock z w)) = set_env e (set_clock z (pre r w))) ->
  (forall r w, w_env (pre r w) = w_env w) -> forall {A} (k : resp -> M A), (forall r, tc (k r)) -> (forall r r', retimed r r' -> k r' = k r) ->
  tc (mbind (ask x pre) k).
Proof.
  intros C Ev A k Hk Kr w w' t w1 o (z & e & F & ->) E. unfold ask in E. unfold mbind in E.
  destruct (w_env w) as [|r rest] eqn:Ew.
  - injection E as <- <- <-. inversion F; subst. exists [x], (set_env [] (set_clock z w)). split; [reflexivity|]. split; [apply same_ev_refl|].
    exists z, []. rewrite Ew. auto.
  - inversion F as [|? r' ? rest' Rr F' ]; subst. destruct (interfere r (pre r (set_env rest w))) as [l w2] eqn:I.
    assert (I2 : interfere r' (pre r' (set_env rest' (set_clock z w))) = (l, set_env rest' (set_clock (r_clock r') w2))).
    { change (set_env rest' (set_clock z w)) with (set_env rest' (set_clock z (set_env rest w))). rewrite (C r r' _ _ _ Rr), (interfere_clock2 _ r r' _ _ Rr), I. reflexivity. }
    assert (Wv : w_env w2 = rest).
    { assert (Q : forall cs v, w_env (snd (lose_all cs v)) = w_env v).
      { clear. induction cs as [|c cs IH]; intros v; cbn [lose_all]; [reflexivity|]. unfold lose. destruct (connected c v).
        - destruct (lose_all cs _) as [t2 w2] eqn:E2. cbn [snd]. apply (f_equal snd) in E2. cbn [snd] in E2. rewrite <- E2, IH. reflexivity.
        - destruct (lose_all cs v) as [t2 w2] eqn:E2. cbn [snd]. apply (f_equal snd) in E2. cbn [snd] in E2. rewrite <- E2, IH. reflexivity. }
      pose proof (f_equal snd I) as I3. cbn [snd] in I3. rewrite <- I3. unfold interfere. rewrite Q.
      destruct (r_data r); cbn [set_clock set_data w_env]; rewrite Ev; reflexivity. }
    assert (R1 : other_time w2 (set_env rest' (set_clock (r_clock r') w2))) by (exists (r_clock r'), rest'; rewrite Wv; auto).
    destruct (k r w2) as [[t2 w3] o2] eqn:E2. destruct (Hk r _ _ _ _ _ R1 E2) as (s2 & v2 & M2 & S2 & R2).
    unfold mbind, ask. cbn [set_env w_env].
    change (set_env rest' (set_env (r' :: rest') (set_clock z w))) with (set_env rest' (set_clock z w)).
    match goal with |- context[interfere r' (pre r' ?v)] => change v with (set_env rest' (set_clock z w)) end.
    rewrite I2, (Kr _ _ Rr), M2. injection E as <- <- <-. exists ((x :: Got r' :: l) ++ s2), v2. split; [reflexivity|].
    split; [|exact R2]. apply (Forall2_app (l1 := x :: Got r :: l)); [|exact S2].
    constructor; [destruct x; cbn; auto; repeat split|]. constructor; [exact Rr|]. apply same_ev_refl.
Qed.
Lemma tc_lose c : tc (fun w => let '(t, w') := lose c w in (t, w', Val tt)).
Proof.
  intros w w' t w1 o (x & e & F & ->) E. rewrite lose_clock. assert (Ev : w_env (snd (lose c w)) = w_env w) by (unfold lose; destruct (connected c w); reflexivity).
  destruct (lose c w) as [l w2]. injection E as <- <- <-. cbn [fst snd] in *. eexists _, _. split; [reflexivity|]. split; [apply same_ev_refl|]. exists x, e. rewrite Ev. auto.
Qed.
Lemma tc_decode (m : DM unit) : tc (mdecode m).
Proof.
  intros w w' t w1 o (x & e & F & ->) E. unfold mdecode in *. cbn [set_env set_clock w_data]. destruct (m (w_data w)) as [d r]. injection E as <- <- <-.
  eexists _, _. split; [reflexivity|]. split; [constructor|]. exists x, e. auto.
Qed.

Ltac tc1 := lazymatch goal with
  | |- tc (mbind (mget _) _) => apply tc_get; [intros; reflexivity|intros ?]
  | |- tc (mbind (ask _ nopre) _) => apply tc_ask; [intros; reflexivity|intros; reflexivity|intros ?|intros ? ? (Ek & _); cbv beta; rewrite Ek; reflexivity]
  | |- tc (mbind _ _) => apply tc_bind; [|intros ?]
  | |- tc (mret _) => apply tc_ret
  | |- tc (mraise _) => apply tc_raise
  | |- tc (mstuck _) => apply tc_stuck
  | |- tc (mlift _) => apply tc_lift
  | |- tc (mput _) => apply tc_put; [intros; reflexivity|intros; reflexivity]
  | |- tc (memit _) => apply tc_emit
  | |- tc (mdecode _) => apply tc_decode
  | |- tc (require _) => unfold require
  | |- tc (match ?x with _ => _ end) => destruct x
  end.
Lemma tc_sleep ms : tc (msleep ms). Proof. unfold msleep. repeat tc1. Qed.
Lemma tc_loop c X b mr : forall n a, tc (request_loop n a mr c X b).
Proof.
  induction n as [|n IH]; intros a; cbn [request_loop]; [tc1|]. unfold send. 
  repeat first [apply IH | apply tc_sleep | tc1].
Qed.
Lemma tc_request c X b mr : tc (make_request c X b mr). Proof. apply tc_loop. Qed.
Ltac tcr := repeat first [apply tc_request | apply tc_sleep | apply tc_lose | tc1].
Lemma tc_data X p dec mr c : tc (data_request X p dec mr c). Proof. unfold data_request. tcr. Qed.
Lemma tc_pump i mr c : tc (request_pump_status i mr c).
Proof. unfold request_pump_status. tc1; [tc1|apply tc_data]. Qed.
Lemma tc_version mr c : tc (request_gateway_version mr c).
Proof. unfold request_gateway_version. tc1. apply tc_data. Qed.
Lemma tc_command X pl mr c : tc (command_request X pl mr c). Proof. unfold command_request. tcr. Qed.
Lemma tc_close c force : tc (async_close c force). Proof. unfold async_close. tcr. Qed.
Lemma tc_mproto : tc m_proto_or_fail. Proof. unfold m_proto_or_fail. tcr. Qed.
Lemma tc_proto : tc proto_or_fail. Proof. unfold proto_or_fail. tcr. Qed.
Lemma tc_lock {A} (m : M A) : tc m -> tc (with_lock m).
Proof. intros H. unfold with_lock. tc1. tc1; [tc1|]. tc1; [tc1|]. apply tc_finally; [exact H|intros; reflexivity|intros; reflexivity]. Qed.
Lemma tc_remove : tc remove_client.
Proof. unfold remove_client. apply tc_catch; [|intros; tc1]. tc1; [apply tc_mproto|]. tc1. apply tc_command. Qed.
Lemma tc_unsubscribe : tc unsubscribe_gateway.
Proof.
  unfold unsubscribe_gateway. tc1. tc1; [tc1|]. apply tc_lock. tc1. tc1; [|tc1]. tc1; [tc1|]. tc1; [apply tc_mproto|].
  tc1; [tc1|]. tc1; [tc1|]. apply tc_remove.
Qed.
Lemma tc_disconnect force : tc (async_disconnect force).
Proof. unfold async_disconnect. tc1. tc1; [tc1; [apply tc_unsubscribe|tc1]|]. tc1; [apply tc_proto|apply tc_close]. Qed.
Lemma tc_attempt {A} connect (method : Z -> nat -> M A) mr : tc connect -> (forall mr c, tc (method mr c)) -> tc (attempt_request connect method mr).
Proof. intros C Mt. unfold attempt_request. tc1; [exact C|]. tc1; [tc1|]. tc1; [apply tc_proto|apply Mt]. Qed.
Lemma tc_connected {A} connect (method : Z -> nat -> M A) delay : tc connect -> (forall mr c, tc (method mr c)) -> tc (connected_request connect method delay).
Proof.
  intros C Mt. unfold connected_request. tc1. apply tc_catch; [apply tc_attempt; assumption|].
  intros e. tc1; [apply tc_disconnect|]. tc1; [apply tc_sleep|]. apply tc_attempt; assumption.
Qed.
Lemma tc_subscribe connect : tc connect -> tc (subscribe_gateway connect).
Proof.
  intros C. unfold subscribe_gateway. tc1. tc1; [tc1|]. apply tc_lock. tc1. tc1; [|tc1]. tc1.
  tc1; [apply tc_connected; [exact C|intros; apply tc_command]|]. tc1; [tc1|]. tc1; [apply tc_mproto|tc1].
Qed.
Lemma tc_attach connect c mr : tc connect -> tc (attach connect c mr).
Proof.
  intros C. unfold attach. tc1; [tc1|]. tc1. tc1; [|tc1]. tc1; [tc1|]. tc1; [|apply tc_subscribe, C].
  assert (K : forall l w, w_env (fold_left (fun w code => register c code (HClient code) w) l w) = w_env w /\
    forall x e, fold_left (fun w code => register c code (HClient code) w) l (set_env e (set_clock x w)) = set_env e (set_clock x (fold_left (fun w code => register c code (HClient code) w) l w))).
  { induction l as [|y l IH]; intros v; cbn [fold_left]; [auto|]. split; [rewrite (proj1 (IH _)); reflexivity|]. intros x e.
    change (register c y (HClient y) (set_env e (set_clock x v))) with (set_env e (set_clock x (register c y (HClient y) v))). apply IH. }
  apply tc_put; intros; cbn [set_env set_clock w_cm]; apply K.
Qed.
Lemma tc_poll connect q (method : Z -> nat -> M (option bytes)) : tc connect -> (forall mr c, tc (method mr c)) -> tc (poll connect q method).
Proof. intros C Mt. unfold poll. tc1; [apply tc_connected; assumption|]. repeat tc1. Qed.
Lemma tc_create ip port : tc (create_connection ip port).
Proof.
  unfold create_connection. tc1. apply tc_ask; [| |intros r; repeat tc1|intros ? ? (Ek & _); cbv beta; rewrite Ek; reflexivity].
  - intros r r' z e w' (Ek & _). rewrite Ek. destruct (r_kind r); reflexivity.
  - intros r w'. destruct (r_kind r); reflexivity.
Qed.
Lemma tc_gateway_connect c mr : tc (gateway_connect c mr). Proof. unfold gateway_connect. tcr. Qed.
Lemma tc_login c mr : tc (gateway_login c mr). Proof. unfold gateway_login. tcr. Qed.
Lemma tc_connect_to ip port mr : tc (connect_to_gateway ip port mr).
Proof. unfold connect_to_gateway. tc1; [apply tc_create|]. tc1; [apply tc_gateway_connect|]. tc1; [apply tc_login|]. repeat tc1. Qed.
Lemma tc_connect n : forall x, tc (async_connect n x).
Proof.
  induction n as [|n IH]; intros x; cbn [async_connect]; [apply tc_stuck|]. tc1. tc1; [tc1|]. tc1; [tc1|]. tc1. tc1; [tc1|].
  tc1. tc1. tc1. tc1; [apply tc_connect_to|]. tc1; [|tc1]. destruct p as [c mac]. tc1; [tc1|]. tc1.
  tc1; [apply tc_version|]. tc1; [tc1|]. tc1. tc1; [|tc1]. tc1; [apply tc_poll; [apply IH|intros; apply tc_data]|].
  tc1; [apply tc_proto|]. tc1. tc1; [apply tc_attach, IH|]. tc1.
Qed.
Lemma tc_cmd {A} n (method : Z -> nat -> M A) delay : (forall mr c, tc (method mr c)) -> tc (command n method delay).
Proof. intros Mt. unfold command. apply tc_connected; [apply tc_connect|exact Mt]. Qed.
Lemma tc_get_one n q (method : Z -> nat -> M (option bytes)) : (forall mr c, tc (method mr c)) -> tc (poll (async_connect n no_args) q method).
Proof. intros Mt. apply tc_poll; [apply tc_connect|exact Mt]. Qed.
Lemma tc_status n : tc (async_get_status n). Proof. apply tc_get_one. intros; apply tc_data. Qed.
Lemma tc_config n : tc (async_get_config n). Proof. apply tc_get_one. intros; apply tc_data. Qed.
Lemma tc_chem n : tc (async_get_chemistry n). Proof. apply tc_get_one. intros; apply tc_data. Qed.
Lemma tc_scg n : tc (async_get_scg n). Proof. apply tc_get_one. intros; apply tc_data. Qed.
Lemma tc_pumps n ids : tc (pumps_loop n ids).
Proof.
  induction ids as [|i ids IH]; cbn [pumps_loop]; [tc1|]. tc1. tc1; [tc1|]. tc1; [|exact IH]. tc1; [tc1|].
  tc1; [apply tc_put; intros; unfold pumps_entry; cbn [set_env set_clock w_last]; destruct (din _ _); reflexivity|].
  tc1; [apply tc_cmd; intros; apply tc_pump|]. tc1; [|tc1].
  apply tc_put; intros; unfold store_pump; cbn [set_env set_clock w_last]; destruct (dget _ _) as [[]|]; reflexivity.
Qed.
Lemma tc_perform n call : call <> GetDatetime -> call <> Update -> tc (perform n call).
Proof.
  intros Ns Nu. destruct call; cbn [perform]; unfold ignore.
  - tc1; [apply tc_connect|tc1].
  - apply tc_disconnect.
  - apply tc_config.
  - apply tc_status.
  - apply tc_chem.
  - apply tc_scg.
  - destruct (Ns eq_refl).
  - apply tc_pumps.
  - destruct (Nu eq_refl).
  - unfold set_max_retries. tcr.
  - unfold async_set_circuit. repeat tc1. apply tc_cmd; intros; apply tc_command.
  - unfold async_set_heat_temp. repeat tc1. apply tc_cmd; intros; apply tc_command.
  - unfold async_set_heat_mode. repeat tc1. apply tc_cmd; intros; apply tc_command.
  - unfold async_set_color_lights. repeat tc1. apply tc_cmd; intros; apply tc_command.
  - unfold async_set_scg_config. tc1. tc1; [tc1|]. repeat match goal with x : (_ * _)%type |- _ => destruct x end. apply tc_cmd; intros; apply tc_command.
  - unfold async_set_chem_data. tc1. tc1; [tc1|]. repeat match goal with x : (_ * _)%type |- _ => destruct x end. apply tc_cmd; intros; apply tc_command.
  - unfold async_set_date_time. tc1. tc1. tc1; [tc1|]. repeat match goal with x : (_ * _)%type |- _ => destruct x end. apply tc_cmd; intros; apply tc_command.
  - unfold async_synchronize_date_time, async_set_date_time. tc1. tc1. tc1; [tc1|]. repeat match goal with x : (_ * _)%type |- _ => destruct x end. apply tc_cmd; intros; apply tc_command.
  - tc1; [|tc1]. unfold async_send_message. apply tc_cmd. intros mr c. apply tc_request.
  - unfold register_handler. repeat tc1.
  - unfold remove_handler. repeat tc1.
  - tc1; [|tc1]. unfold async_subscribe_client. tc1. tc1; [tc1|]. tc1; [tc1|]. tc1; [apply tc_mproto|]. tc1; [tc1|]. tc1.
    tc1; [|tc1]. tc1; [|tc1]. apply tc_subscribe, tc_connect.
  - unfold remove_subscription. tc1. tc1; [tc1|]. tc1; [tc1|]. tc1. tc1. tc1; [|tc1]. tc1; [apply tc_mproto|tc1].
  - apply tc_unsubscribe.
  - unfold async_ping. apply tc_catch; [|intros; tc1]. tc1; [apply tc_mproto|]. apply tc_command.
Qed.

(** ** the host time in the data *)
Lemma bf_cons p x d d' : but_for p d d' -> but_for p (x :: d) (x :: d').
Proof. intros B. inversion B; subst; [constructor|apply (bf_here _ _ _ (x :: l))|apply (bf_in _ _ _ _ (x :: l)); assumption]. Qed.
Lemma bf_set k v v' d : but_for [k] (dset k v d) (dset k v' d).
Proof.
  induction d as [|[k' y] d IH]; cbn [dset]; [apply (bf_here k v v' [] [])|]. destruct (key_eqb k k') eqn:K.
  - apply key_eqb_eq in K. subst k'. apply (bf_here k v v' [] d).
  - apply bf_cons, IH.
Qed.
Lemma bf_set_in k p a b d : but_for p a b -> but_for (k :: p) (dset k (VDict a) d) (dset k (VDict b) d).
Proof.
  intros B. induction d as [|[k' y] d IH]; cbn [dset]; [apply (bf_in k p a b [] []), B|]. destruct (key_eqb k k') eqn:K.
  - apply key_eqb_eq in K. subst k'. apply (bf_in k p a b [] d), B.
  - apply bf_cons, IH.
Qed.
Lemma dget_app k v l r : dget k (l ++ (k, v) :: r) = match dget k l with Some x => Some x | None => Some v end.
Proof. induction l as [|[k' y] l IH]; cbn [app dget]; [rewrite P_Dict.key_eqb_refl; reflexivity|]. destruct (key_eqb k k'); auto. Qed.
Lemma dset_app k v x l r : dset k x (l ++ (k, v) :: r) = match dget k l with Some _ => dset k x l ++ (k, v) :: r | None => l ++ (k, x) :: r end.
Proof.
  induction l as [|[k' y] l IH]; cbn [app dget dset]; [rewrite P_Dict.key_eqb_refl; reflexivity|]. destruct (key_eqb k k'); [reflexivity|].
  rewrite IH. destruct (dget k l); reflexivity.
Qed.
(** setting another key keeps the difference where it is *)
Lemma bf_other k x q d d' : but_for [q] d d' -> k <> q -> but_for [q] (dset k x d) (dset k x d').
Proof.
  intros B N. inversion B as [|? v v' l r|? ? ? ? ? ? B']; subst; [constructor| |inversion B'; subst; constructor].
  clear B. induction l as [|[k' y] l IH]; cbn [app dset].
  - destruct (key_eqb k q) eqn:K; [apply key_eqb_eq in K; contradiction|]. apply (bf_here q v v' []).
  - destruct (key_eqb k k'); [apply (bf_here q v v' ((k', x) :: l))|apply bf_cons, IH].
Qed.
Definition orel (p : list key) (a b : option dict) : Prop :=
  match a, b with Some d, Some d' => but_for p d d' | None, None => True | _, _ => False end.
Lemma upd_differ q f f' : (forall d, orel q (f d) (f' d)) -> forall p d, orel (p ++ q) (upd_at p f d) (upd_at p f' d).
Proof.
  intros H. induction p as [|k p IH]; intros d; cbn [upd_at app]; [apply H|]. destruct (dget k d) as [[]|]; try exact Logic.I.
  specialize (IH d0). destruct (upd_at p f d0), (upd_at p f' d0); cbn [orel] in *; try tauto. apply bf_set_in, IH.
Qed.
Lemma orel_refl p a : orel p a a. Proof. destruct a; cbn; [constructor|exact Logic.I]. Qed.
Lemma upd_same q f : q <> [] -> (forall d d', but_for q d d' -> orel q (f d) (f d')) -> forall p d d', but_for (p ++ q) d d' -> orel (p ++ q) (upd_at p f d) (upd_at p f d').
Proof.
  intros Q H. induction p as [|k p IH]; intros d d' B; cbn [upd_at app] in *; [apply H, B|].
  inversion B as [|k0 v v' l r Ek|k0 p0 a a' l r B' E1]; subst; [apply orel_refl| |].
  - match goal with Z : [] = _ ++ _ |- _ => symmetry in Z; apply app_eq_nil in Z; destruct Z; contradiction | Z : _ ++ _ = [] |- _ => apply app_eq_nil in Z; destruct Z; contradiction end.
  - rewrite !dget_app. destruct (dget k l) as [y|] eqn:L.
    + destruct y; try exact Logic.I. destruct (upd_at p f d) as [z|]; [|exact Logic.I]. cbn [orel]. rewrite !dset_app, L. apply bf_in, B'.
    + specialize (IH _ _ B'). destruct (upd_at p f a), (upd_at p f a'); cbn [orel] in *; try tauto. rewrite !dset_app, L. apply bf_in, IH.
Qed.
Lemma assign_differ v v' d : exists r, snd (assign pDATETIME VALUE_TIMESTAMP_HOST v d) = r /\ snd (assign pDATETIME VALUE_TIMESTAMP_HOST v' d) = r /\
  but_for host_time (fst (assign pDATETIME VALUE_TIMESTAMP_HOST v d)) (fst (assign pDATETIME VALUE_TIMESTAMP_HOST v' d)).
Proof.
  unfold assign. pose proof (upd_differ [VALUE_TIMESTAMP_HOST] (fun d1 => Some (dset VALUE_TIMESTAMP_HOST v d1)) (fun d1 => Some (dset VALUE_TIMESTAMP_HOST v' d1))
    (fun d1 => bf_set _ v v' d1) pDATETIME d) as B.
  destruct (upd_at _ _ d), (upd_at _ _ d); cbn [orel fst snd] in *; try tauto; eexists; repeat split; [exact B|constructor].
Qed.
Lemma assign_same v d d' : but_for host_time d d' -> exists r, snd (assign pDATETIME VALUE_AUTO_DST v d) = r /\ snd (assign pDATETIME VALUE_AUTO_DST v d') = r /\
  but_for host_time (fst (assign pDATETIME VALUE_AUTO_DST v d)) (fst (assign pDATETIME VALUE_AUTO_DST v d')).
Proof.
  intros B0. unfold assign. pose proof (upd_same [VALUE_TIMESTAMP_HOST] (fun d1 => Some (dset VALUE_AUTO_DST v d1)) ltac:(discriminate)
    (fun a b B1 => bf_other VALUE_AUTO_DST v VALUE_TIMESTAMP_HOST a b B1 ltac:(discriminate)) pDATETIME d d' B0) as B.
  destruct (upd_at _ _ d), (upd_at _ _ d'); cbn [orel fst snd] in *; try tauto; eexists; repeat split; assumption.
Qed.
Definition bent {A} (x y : dict * res A) : Prop := exists r, snd x = r /\ snd y = r /\ but_for host_time (fst x) (fst y).
Lemma bent_first {A B} (m : DM A) (k k' : A -> DM B) d : (forall a d1, bent (k a d1) (k' a d1)) -> bent (dbind m k d) (dbind m k' d).
Proof. intros H. unfold dbind. destruct (m d) as [d1 [a|e]]; [apply H|]. exists (Err e). repeat split. apply bf_same. Qed.
Lemma bent_bind {A B} (m m' : DM A) (k k' : A -> DM B) d d' : bent (m d) (m' d') -> (forall a d1 d2, but_for host_time d1 d2 -> bent (k a d1) (k' a d2)) -> bent (dbind m k d) (dbind m' k' d').
Proof.
  intros (r & R1 & R2 & B0) H. unfold dbind. destruct (m d) as [d1 r1], (m' d') as [d2 r2]. cbn [fst snd] in *. subst r1 r2.
  destruct r as [a|e]; [apply H, B0|]. exists (Err e). repeat split. exact B0.
Qed.
Lemma decode_time h h' b d : bent (decode_date_time h b d) (decode_date_time h' b d).
Proof.
  unfold decode_date_time, dunit. apply bent_bind; [|intros a d1 d2 B; exists (Ok tt); repeat split; exact B]. unfold datetime_body.
  apply bent_first. intros _ d1. apply bent_first. intros _ d2. apply bent_first. intros [dt off] d3. apply bent_first. intros _ d4.
  apply bent_bind; [apply assign_differ|]. intros _ d5 d5' B. apply bent_bind.
  - unfold rd, dlift. eexists. split; [reflexivity|]. split; [reflexivity|exact B].
  - intros [ad off2] d6 d6' B6. apply bent_bind; [apply assign_same, B6|]. intros _ d7 d7' B7. exists (Ok off2). repeat split. exact B7.
Qed.

(** does the same at any time, but for the host time in the data *)
Definition te {A} (m : M A) : Prop := forall w w' t w1 o, other_time w w' -> m w = (t, w1, o) ->
  exists t' w1', m w' = (t', w1', o) /\ Forall2 same_ev t t' /\ other_time_data w1 w1' /\
    (forall x, o = Exc x -> is_comm_error x = true -> other_time w1 w1').
Lemma time_data w w' : other_time w w' -> other_time_data w w'.
Proof. intros (x & e & F & ->). exists x, e, (w_data w). repeat split; [exact F|constructor]. Qed.
Lemma te_tc {A} (m : M A) : tc m -> te m.
Proof. intros H w w' t w1 o R E. destruct (H _ _ _ _ _ R E) as (t' & v & M1 & S & R1). exists t', v. repeat split; auto using time_data. Qed.
Lemma te_bind {A B} (m : M A) (k : A -> M B) : tc m -> (forall a, te (k a)) -> te (mbind m k).
Proof.
  intros Hm Hk w w' t w1 o R E. apply bind_inv in E. destruct E as [(t1 & w2 & a & t2 & E1 & E2 & ->)|[(x & E1 & ->)|(y & E1 & ->)]].
  - destruct (Hm _ _ _ _ _ R E1) as (s1 & v1 & M1 & S1 & R1). destruct (Hk a _ _ _ _ _ R1 E2) as (s2 & v2 & M2 & S2 & R2).
    exists (s1 ++ s2), v2. rewrite (bind_val _ _ _ _ _ _ M1), M2. repeat split; [apply Forall2_app; assumption|apply R2..].
  - destruct (Hm _ _ _ _ _ R E1) as (s1 & v1 & M1 & S1 & R1). exists s1, v1. split; [apply bind_exc, M1|]. auto using time_data.
  - destruct (Hm _ _ _ _ _ R E1) as (s1 & v1 & M1 & S1 & R1). exists s1, v1. split; [unfold mbind; rewrite M1; reflexivity|]. auto using time_data.
Qed.
Lemma te_get {A B} (f : world -> A) (k : A -> M B) : (forall x e w, f (set_env e (set_clock x w)) = f w) -> (forall a, te (k a)) -> te (mbind (mget f) k).
Proof.
  intros C Hk w w' t w1 o R E. rewrite bind_get in E. destruct (Hk (f w) _ _ _ _ _ R E) as (s & v & M1 & S). exists s, v.
  destruct R as (x & e & F & ->). rewrite bind_get, C. auto.
Qed.
Lemma te_catch {A} (m : M A) h : te m -> (forall e, te (h e)) -> te (mcatch m is_comm_error h).
Proof.
  intros Hm Hh w w' t w1 o R E. unfold mcatch in *. destruct (m w) as [[t1 w2] o1] eqn:E1. destruct (Hm _ _ _ _ _ R E1) as (s1 & v1 & M1 & S1 & R1 & C1). rewrite M1.
  destruct o1 as [a|x|y]; [injection E as <- <- <-; exists s1, v1; auto| |injection E as <- <- <-; exists s1, v1; auto].
  destruct (is_comm_error x) eqn:P; [|injection E as <- <- <-; exists s1, v1; auto]. destruct (h x w2) as [[t2 w3] o2] eqn:E2. injection E as <- <- <-.
  destruct (Hh x _ _ _ _ _ (C1 x eq_refl P) E2) as (s2 & v2 & M2 & S2 & R2). rewrite M2. eexists _, _. split; [reflexivity|]. split; [apply Forall2_app; assumption|exact R2].
Qed.
Lemma te_tail b : te (now <- mget w_clock ;; mdecode (decode_date_time now b) ;;; mret (Some b)).
Proof.
  intros w w' t w1 o (x & e & F & ->) E. rewrite bind_get in *. unfold mdecode, mbind in *. cbn [set_env set_clock w_data w_clock].
  destruct (decode_time (w_clock w) x b (w_data w)) as (r & R1 & R2 & B).
  pose proof (ca_datetime (w_clock w) b (w_data w)) as Ca.
  destruct (decode_date_time (w_clock w) b (w_data w)) as [d1 r1], (decode_date_time x b (w_data w)) as [d2 r2]. cbn [fst snd] in *. subst r1 r2.
  assert (D : other_time_data (set_data d1 w) (set_data d2 (set_env e (set_clock x w)))) by (exists x, e, d2; repeat split; assumption).
  destruct r as [[]|er]; injection E as <- <- <-; eexists _, _; (split; [reflexivity|]); (split; [constructor|]); (split; [exact D|]);
    intros z Z Cz; [discriminate Z|]. injection Z as <-. rewrite (foreign_comm _ Ca) in Cz. discriminate Cz.
Qed.
Lemma te_date mr c : te (request_date_time mr c).
Proof.
  unfold request_date_time. apply te_bind; [apply tc_request|]. intros r. destruct (nonempty r); [apply te_tail|apply te_tc, tc_ret].
Qed.
Lemma te_attempt {A} connect (method : Z -> nat -> M A) mr : tc connect -> (forall mr c, te (method mr c)) -> te (attempt_request connect method mr).
Proof. intros C Mt. unfold attempt_request. apply te_bind; [exact C|]. intros a. destruct (negb a); [apply te_tc, tc_raise|]. apply te_bind; [apply tc_proto|intros; apply Mt]. Qed.
Lemma te_connected {A} connect (method : Z -> nat -> M A) delay : tc connect -> (forall mr c, te (method mr c)) -> te (connected_request connect method delay).
Proof.
  intros C Mt. unfold connected_request. apply te_get; [reflexivity|]. intros mr. apply te_catch; [apply te_attempt; assumption|].
  intros e. apply te_bind; [apply tc_disconnect|]. intros _. apply te_bind; [apply tc_sleep|]. intros _. apply te_attempt; assumption.
Qed.
Lemma te_datetime n : te (async_get_datetime n).
Proof.
  unfold async_get_datetime, poll. intros w w' t w1 o R E.
  assert (Tc : te (connected_request (async_connect n no_args) request_date_time 1)) by (apply te_connected; [apply tc_connect|apply te_date]).
  apply bind_inv in E. destruct E as [(t1 & w2 & a & t2 & E1 & E2 & ->)|[(x & E1 & ->)|(y & E1 & ->)]].
  - destruct (Tc _ _ _ _ _ R E1) as (s1 & v1 & M1 & S1 & (z & e & d & F & B & ->) & _). destruct a as [b|]; injection E2 as <- <- <-; cbv beta.
    + eexists _, _. rewrite (bind_val _ _ _ _ _ _ M1). split; [reflexivity|]. split; [rewrite !app_nil_r; exact S1|]. split; [|discriminate].
      exists z, e, d. repeat split; assumption.
    + eexists _, _. rewrite (bind_val _ _ _ _ _ _ M1). split; [reflexivity|]. split; [rewrite !app_nil_r; exact S1|]. split; [|discriminate].
      exists z, e, d. repeat split; assumption.
  - destruct (Tc _ _ _ _ _ R E1) as (s1 & v1 & M1 & S1 & R1). exists s1, v1. split; [apply bind_exc, M1|]. split; [exact S1|]. split; [apply R1|].
    intros x0 X0. apply R1. congruence.
  - destruct (Tc _ _ _ _ _ R E1) as (s1 & v1 & M1 & S1 & R1 & _). exists s1, v1. split; [unfold mbind; rewrite M1; reflexivity|]. split; [exact S1|]. split; [apply R1|discriminate].
Qed.
Lemma te_perform n call : te (perform n call).
Proof.
  destruct call; try (apply te_tc, tc_perform; discriminate); cbn [perform]; [apply te_datetime|].
  unfold async_update. apply te_get; [reflexivity|]. intros d. destruct d; [apply te_tc, tc_raise|]. 
  apply te_bind; [apply tc_status|]. intros _. apply te_bind; [apply tc_pumps|]. intros _.
  apply te_bind; [apply tc_chem|]. intros _. apply te_bind; [apply tc_scg|]. intros _. apply te_datetime.
Qed.
