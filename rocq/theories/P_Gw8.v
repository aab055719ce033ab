(** One command: at most two rounds of its request, the second on another connection. *)
From Verif Require Import Py F64 Struct Utf Utility Const Spec Enum Decode World Request Gateway Traces Paths Api P_Base P_Util P_Monad P_Request P_Sat P_Paths P_Gw1 P_Gw6 P_Gw7 P_Calm.
Open Scope m_scope.

(** a request changes nothing of the gateway but data, clock, script and connections *)
Definition kept (w w' : world) : Prop :=
  w_addr w' = w_addr w /\ w_cb w' = w_cb w /\ w_proto w' = w_proto w /\ w_last w' = w_last w /\
  w_retries w' = w_retries w /\ w_cm w' = w_cm w /\ w_host w' = w_host w.
Lemma kept_refl w : kept w w. Proof. repeat split. Qed.
Lemma kept_trans a b c : kept a b -> kept b c -> kept a c.
Proof. unfold kept. intuition congruence. Qed.
Lemma kept_interfere r rest w l w1 : interfere r (set_env rest w) = (l, w1) -> kept w w1.
Proof. intros I. apply interfere_fields in I. cbn [set_env w_addr w_cb w_proto w_last w_retries w_cm w_host] in I. unfold kept. intuition. Qed.
Lemma kept_upd c f w : kept w (upd_conn c f w). Proof. repeat split. Qed.
Lemma kept_lose c w l w1 : lose c w = (l, w1) -> kept w w1.
Proof. intros I. apply lose_fields in I. unfold kept. intuition. Qed.

Lemma run_kept c code data mr n a w t w' o : lrun c code data mr n a w t w' o -> kept w w'.
Proof.
  induction 1; try apply kept_refl.
  - eapply kept_interfere; eassumption.
  - eapply kept_interfere; eassumption.
  - eapply kept_trans; eapply kept_interfere; eassumption.
  - eapply kept_trans; [eapply kept_trans; eapply kept_interfere; eassumption|exact IHlrun].
Qed.

(** what a coroutine that makes one request with code X does; [good] are the payloads it
    accepts *)
Record one_request {A} (X : Z) (good : bytes -> Prop) (method : Z -> nat -> M A) : Prop := {
  q_sends : forall mr c w t w' o, method mr c w = (t, w', o) ->
    Forall (fun x => fst (fst x) = c /\ snd (fst x) = X) (sends t) /\ (List.length (sends t) <= Z.to_nat (mr + 1))%nat;
  q_up : forall mr c w t w' o, method mr c w = (t, w', o) -> sends t <> [] -> connected c w = true;
  q_kept : forall mr c w t w' o, method mr c w = (t, w', o) -> kept w w';
  q_hist : forall mr c, Sat conn_hist (method mr c);
  q_bad : forall mr c w t w' e, method mr c w = (t, w', Exc e) -> is_comm_error e = true ->
    forall q b, In q (replies t) -> answer_of q = Some (X + 1, b) -> ~ good b }.

Lemma request_once X p : one_request X (fun _ => True) (fun mr c => make_request c X p mr).
Proof.
  constructor.
  - intros mr c w t w' o E. apply request_run, run_sends in E. destruct E as (F & L & _). split; [|exact L].
    eapply Forall_impl; [|exact F]. intros x ->. cbn. auto.
  - intros mr c w t w' o E N. apply request_run in E. destruct (connected c w) eqn:C; [reflexivity|]. exfalso. apply N.
    rewrite (run_down _ _ _ _ _ _ _ _ _ _ E C). reflexivity.
  - intros mr c w t w' o E. apply request_run in E. eapply run_kept; exact E.
  - intros mr c. eapply sat_request; [apply hist_closed|exact Logic.I].
  - intros mr c w t w' e E _ q b I A. apply request_run in E. destruct (run_final _ _ _ _ _ _ _ _ _ _ _ E I) as [(x & J)|(J & _)];
      apply judge_answer in A; [congruence|]. unfold ends in J. rewrite A in J. discriminate.
Qed.

Lemma command_once X pl : one_request X (fun b => b = []) (command_request X pl).
Proof.
  assert (G : forall mr c w t w' o, command_request X pl mr c w = (t, w', o) ->
    (t = [] /\ w' = w /\ exists e, o = Exc e /\ pl = Err e) \/
    exists p o1, pl = Ok p /\ make_request c X p mr w = (t, w', o1) /\
      o = match o1 with Val (Some []) => Val tt | Val _ => Exc ESLResponse | Exc e => Exc e | Stuck y => Stuck y end).
  { intros mr c w t w' o. unfold command_request. destruct pl as [p|e]; cbn [mlift].
    - rewrite bind_ret. intros E. right. exists p. apply bind_inv in E.
      destruct E as [(t1 & w1 & a & t2 & E1 & E2 & ->)|[(e & E1 & ->)|(y & E1 & ->)]].
      + exists (Val a). destruct a as [[|x b]|]; injection E2 as <- <- <-; rewrite app_nil_r; auto.
      + exists (Exc e). auto.
      + exists (Stuck y). auto.
    - rewrite bind_raise. intros E. injection E as <- <- <-. left. eauto 6. }
  pose proof (fun p => request_once X p) as Q. constructor.
  - intros mr c w t w' o E. destruct (G _ _ _ _ _ _ E) as [(-> & _)|(p & o1 & _ & E1 & _)]; [cbn; split; [constructor|lia]|].
    eapply (q_sends _ _ _ (Q p)); exact E1.
  - intros mr c w t w' o E. destruct (G _ _ _ _ _ _ E) as [(-> & _)|(p & o1 & _ & E1 & _)]; [cbn; congruence|].
    eapply (q_up _ _ _ (Q p)); exact E1.
  - intros mr c w t w' o E. destruct (G _ _ _ _ _ _ E) as [(_ & -> & _)|(p & o1 & _ & E1 & _)]; [apply kept_refl|].
    eapply (q_kept _ _ _ (Q p)); exact E1.
  - intros mr c. eapply sat_command; [apply hist_closed|]. intros; exact Logic.I.
  - intros mr c w t w' e E Ce q b I A. destruct (G _ _ _ _ _ _ E) as [(-> & _)|(p & o1 & _ & E1 & O)]; [contradiction|].
    apply request_run in E1. destruct (run_final _ _ _ _ _ _ _ _ _ _ _ E1 I) as [(x & J)|(J & _)];
      apply judge_answer in A; [congruence|]. unfold ends in J. rewrite A in J. subst o1. intros ->. discriminate.
Qed.

Lemma mdecode_inv (m : DM unit) w t w' o : mdecode m w = (t, w', o) ->
  t = [] /\ w' = set_data (fst (m (w_data w))) w /\ o = match snd (m (w_data w)) with Ok _ => Val tt | Err e => Exc e end.
Proof. unfold mdecode. destruct (m (w_data w)) as [d r]. intros E. injection E as <- <- <-. auto. Qed.

(** the shape of data_request and of request_date_time *)
Definition reading (X : Z) (p : bytes) (dec : world -> bytes -> DM unit) (mr : Z) (c : nat) : M (option bytes) :=
  r <- make_request c X p mr ;;
  match nonempty r with
  | None => mret None
  | Some b => fun w => (mdecode (dec w b) ;;; mret (Some b)) w
  end.
Lemma reading_data X p dec mr c w : data_request X p dec mr c w = reading X p (fun _ => dec) mr c w.
Proof. reflexivity. Qed.
Lemma reading_time mr c w : request_date_time mr c w = reading 8110 [] (fun w => decode_date_time (w_clock w)) mr c w.
Proof.
  unfold request_date_time, reading, mbind at 1 4. destruct (make_request _ _ _ _ w) as [[t w1] [r|e|y]]; try reflexivity.
  destruct (nonempty r); [|reflexivity]. rewrite bind_get. reflexivity.
Qed.
Lemma reading_inv X p dec mr c w t w' o : reading X p dec mr c w = (t, w', o) ->
  exists w1 o1, make_request c X p mr w = (t, w1, o1) /\
   match o1 with
   | Val r => match nonempty r with
              | None => w' = w1 /\ o = Val None
              | Some b => w' = set_data (fst (dec w1 b (w_data w1))) w1 /\
                          o = match snd (dec w1 b (w_data w1)) with Ok _ => Val (Some b) | Err e => Exc e end
              end
   | Exc e => w' = w1 /\ o = Exc e
   | Stuck y => w' = w1 /\ o = Stuck y
   end.
Proof.
  unfold reading. intros E. apply bind_inv in E.
  destruct E as [(t1 & w1 & a & t2 & E1 & E2 & ->)|[(e & E1 & ->)|(y & E1 & ->)]].
  - destruct (nonempty a) as [b|] eqn:N.
    + unfold mdecode in E2. unfold mbind in E2. destruct (dec w1 b (w_data w1)) as [d [x|e]] eqn:D.
      * injection E2 as <- <- <-. rewrite app_nil_r. exists w1, (Val a). rewrite N, D. auto.
      * injection E2 as <- <- <-. rewrite app_nil_r. exists w1, (Val a). rewrite N, D. auto.
    + injection E2 as <- <- <-. rewrite app_nil_r. exists w1, (Val a). rewrite N. auto.
  - exists w', (Exc e). auto.
  - exists w', (Stuck y). auto.
Qed.
Lemma kept_data d w : kept w (set_data d w). Proof. repeat split. Qed.
Lemma reading_kept X p dec mr c w t w' o : reading X p dec mr c w = (t, w', o) -> kept w w'.
Proof.
  intros E. apply reading_inv in E. destruct E as (w1 & o1 & E1 & E2). apply request_run, run_kept in E1.
  destruct o1 as [r|e|y]; [|destruct E2 as [-> _]; exact E1..]. destruct (nonempty r); destruct E2 as [-> _]; [|exact E1].
  eapply kept_trans; [exact E1|apply kept_data].
Qed.
Lemma reading_once X p dec : (forall w b, calm (dec w b)) -> one_request X (fun _ => True) (reading X p dec).
Proof.
  intros K. pose proof (request_once X p) as Q. constructor.
  - intros mr c w t w' o E. apply reading_inv in E. destruct E as (w1 & o1 & E & _). eapply (q_sends _ _ _ Q); exact E.
  - intros mr c w t w' o E. apply reading_inv in E. destruct E as (w1 & o1 & E & _). eapply (q_up _ _ _ Q); exact E.
  - intros mr c w t w' o E. eapply reading_kept; exact E.
  - intros mr c. unfold reading. eapply sat_bind; [apply hist_closed|eapply (q_hist _ _ _ Q)|]. intros r.
    destruct (nonempty r); [|eapply sat_ret; apply hist_closed]. intros w t w' o. revert t w' o.
    intros t w' o E. revert E. eapply sat_bind; [apply hist_closed|eapply sat_decode; apply hist_closed|intros; eapply sat_ret; apply hist_closed].
  - intros mr c w t w' e E Ce q b I A. exfalso. apply reading_inv in E. destruct E as (w1 & o1 & E1 & E2).
    apply request_run in E1. destruct (run_final _ _ _ _ _ _ _ _ _ _ _ E1 I) as [(x & J)|(J & _)];
      apply judge_answer in A; [congruence|]. unfold ends in J. rewrite A in J. subst o1.
    destruct (nonempty (Some b)) as [b'|]; [|destruct E2; discriminate]. destruct E2 as [_ E2].
    specialize (K w1 b' (w_data w1)). destruct (snd (dec w1 b' (w_data w1))); [discriminate|].
    injection E2 as ->. cbn [rcalm] in K. apply foreign_comm in K. congruence.
Qed.
Lemma once_eq {A} X good (m m' : Z -> nat -> M A) : (forall mr c w, m mr c w = m' mr c w) -> one_request X good m' -> one_request X good m.
Proof.
  intros Q [a b c d e]. constructor; intros.
  - eapply a. rewrite <- Q. eassumption.
  - eapply b; [rewrite <- Q; eassumption|assumption].
  - eapply c. rewrite <- Q. eassumption.
  - intros w t w' o E. rewrite Q in E. eapply d; eassumption.
  - eapply e; try eassumption. rewrite <- Q. eassumption.
Qed.
Lemma data_once X p dec : (forall b, calm (dec b)) -> one_request X (fun _ => True) (data_request X p dec).
Proof. intros K. eapply once_eq; [intros; apply reading_data|]. apply reading_once. intros; apply K. Qed.
Lemma time_once : one_request 8110 (fun _ => True) request_date_time.
Proof. eapply once_eq; [intros; apply reading_time|]. apply reading_once. intros; apply ca_datetime. Qed.
Lemma pump_once i : one_request 12584 (fun _ => True) (request_pump_status i).
Proof.
  unfold request_pump_status. destruct (pack_Is [VInt 0; VInt i]) as [p|e]; cbn [mlift].
  - eapply once_eq; [intros; rewrite bind_ret; reflexivity|]. apply data_once. intros; apply ca_pump.
  - constructor; intros; try (rewrite bind_raise in H; injection H as <- <- <-).
    + cbn. split; [constructor|lia].
    + cbn in H0. congruence.
    + apply kept_refl.
    + intros w t w' o E. rewrite bind_raise in E. injection E as <- <- <-. apply (R_refl _ _ hist_closed).
    + contradiction.
Qed.

(** disconnecting *)
Lemma close_inv c force w t w' u : async_close c force w = (t, w', Val u) -> connected c w' = false /\ kept w w'.
Proof.
  unfold async_close. rewrite bind_put. unfold mbind at 1, ask. destruct (w_env (mark_closing c w)) as [|r rest] eqn:E; [discriminate|].
  destruct (interfere r (nopre r (set_env rest (mark_closing c w)))) as [l w1] eqn:I. unfold nopre in I.
  assert (K1 : kept w w1) by (eapply kept_trans; [apply kept_upd|eapply kept_interfere; exact I]).
  set (rest_ := (k <- mget (get_conn c) ;; _)%m).
  assert (G : forall t' w'' u', rest_ w1 = (t', w'', Val u') -> connected c w'' = false /\ kept w w'').
  { subst rest_. intros t' w'' u'. rewrite bind_get. 
    assert (S2 : exists w2 l2, (if c_open (get_conn c w1) then memit (CloseTransport c) ;;; mput (mark_shut c) else mret tt)%m w1 = (l2, w2, Val tt) /\ kept w w2).
    { destruct (c_open (get_conn c w1)).
      - exists (mark_shut c w1), [CloseTransport c]. split; [reflexivity|]. eapply kept_trans; [exact K1|apply kept_upd].
      - exists w1, []. split; [reflexivity|exact K1]. }
    destruct S2 as (w2 & l2 & S2 & K2). rewrite (bind_val _ _ _ _ _ _ S2). rewrite bind_get.
    destruct (connected c w2) eqn:D; cbn [negb].
    - unfold mbind, ask. destruct (w_env w2) as [|r2 rest2] eqn:E2; [discriminate|].
      destruct (interfere r2 (nopre r2 (set_env rest2 w2))) as [l3 w3] eqn:I3. unfold nopre in I3.
      assert (K3 : kept w w3) by (eapply kept_trans; [exact K2|eapply kept_interfere; exact I3]).
      destruct (r_kind r2); try discriminate. destruct (lose c w3) as [l4 w4] eqn:L. intros X. injection X as _ <- _.
      split; [|eapply kept_trans; [exact K3|eapply kept_lose; exact L]].
      pose proof (lose_connected c w3 c) as Q. rewrite L in Q. cbn [snd] in Q. rewrite Q, Nat.eqb_refl, andb_false_r. reflexivity.
    - intros X. injection X as _ <- _. auto. }
  clearbody rest_.
  destruct (r_kind r); try discriminate; destruct (rest_ w1) as [[t' w''] [u'| |]] eqn:Er; try discriminate; intros X;
    injection X as _ <- _; eapply G; reflexivity.
Qed.

(** the client manager part only touches the client manager and connections *)
Definition kept_gw (w w' : world) : Prop :=
  w_addr w' = w_addr w /\ w_cb w' = w_cb w /\ w_proto w' = w_proto w /\ w_last w' = w_last w /\ w_retries w' = w_retries w /\ w_host w' = w_host w.
Lemma kept_kg a b : kept a b -> kept_gw a b. Proof. unfold kept, kept_gw. tauto. Qed.
Lemma kg_refl w : kept_gw w w. Proof. repeat split. Qed.
Lemma kg_trans a b c : kept_gw a b -> kept_gw b c -> kept_gw a c. Proof. unfold kept_gw. intuition congruence. Qed.
Lemma kg_cm f w : kept_gw w (put_cm f w). Proof. repeat split. Qed.
Lemma remove_kg w t w' o : remove_client w = (t, w', o) -> kept_gw w w'.
Proof.
  unfold remove_client, mcatch. destruct (mbind m_proto_or_fail _ w) as [[t1 w1] o1] eqn:E.
  assert (K : kept_gw w w1).
  { unfold m_proto_or_fail in E. rewrite bind_assoc, bind_get in E. destruct (m_proto (w_cm w)) as [c|].
    - rewrite bind_ret, bind_get in E. apply kept_kg. eapply (q_kept _ _ _ (command_once _ _)); exact E.
    - rewrite bind_raise in E. injection E as <- <- <-. apply kg_refl. }
  destruct o1 as [a|e|y]; [|destruct (is_comm_error e)|]; intros X; injection X as _ <- _; exact K.
Qed.
Lemma unsubscribe_kg w t w' o : unsubscribe_gateway w = (t, w', o) -> kept_gw w w'.
Proof.
  unfold unsubscribe_gateway. rewrite bind_get. destruct (attached w); cbn [negb]; [|intros E; injection E as <- <- <-; apply kg_refl].
  unfold with_lock. rewrite bind_get. destruct (m_locked (w_cm w)); [intros E; injection E as <- <- <-; apply kg_refl|].
  rewrite bind_put. unfold mfinally. set (w0 := put_cm _ w). destruct (mbind _ _ w0) as [[t1 w1] o1] eqn:E.
  assert (K : kept_gw w w1).
  { eapply kg_trans; [apply kg_cm|]. fold w0. rewrite bind_get in E. destruct (m_is_client (w_cm w0)); [|injection E as <- <- <-; apply kg_refl].
    rewrite bind_put in E. unfold m_proto_or_fail in E. rewrite bind_assoc, bind_get in E.
    destruct (m_proto (w_cm (put_cm (cmset_client false) w0))) as [c|].
    - rewrite bind_ret, bind_put, bind_put in E. apply remove_kg in E. eapply kg_trans; [|exact E].
      eapply kg_trans; [apply kg_cm|]. apply kept_kg. eapply kept_trans; [|apply kept_upd]. apply kept_upd.
    - rewrite bind_raise in E. injection E as <- <- <-. apply kg_cm. }
  destruct o1; intros X; injection X as _ <- _; exact K.
Qed.
Lemma close_waits c force w t w' o : async_close c force w = (t, w', o) -> In (AwaitFutures c force) t.
Proof.
  unfold async_close. rewrite bind_put. unfold mbind at 1, ask. destruct (w_env (mark_closing c w)) as [|r rest] eqn:E.
  { intros X. injection X as <- _ _. left. reflexivity. }
  destruct (interfere r (nopre r (set_env rest (mark_closing c w)))) as [l w1] eqn:I.
  match goal with |- (match ?m with _ => _ end) = _ -> _ => destruct m as [[t2 w2] o2] end.
  intros X. injection X as <- _ _. left. reflexivity.
Qed.
Lemma disconnect_waits c force w t w' u : w_proto w = Some c -> async_disconnect force w = (t, w', Val u) -> In (AwaitFutures c force) t.
Proof.
  intros P. unfold async_disconnect. rewrite bind_get. intros E. apply bind_inv in E.
  destruct E as [(t1 & w1 & a & t2 & E1 & E2 & ->)|[(e & _ & E)|(y & _ & E)]]; try discriminate.
  assert (K : kept_gw w w1).
  { destruct (is_client w); [eapply unsubscribe_kg; exact E1|injection E1 as <- <- <-; apply kg_refl]. }
  destruct K as (_ & _ & K & _).
  unfold proto_or_fail in E2. rewrite bind_assoc, bind_get, K, P, bind_ret in E2. apply close_waits in E2. apply in_or_app. right. exact E2.
Qed.
Lemma disconnect_inv force w t w' u : async_disconnect force w = (t, w', Val u) ->
  exists c, w_proto w = Some c /\ connected c w' = false /\ kept_gw w w'.
Proof.
  unfold async_disconnect. rewrite bind_get. intros E. apply bind_inv in E.
  destruct E as [(t1 & w1 & a & t2 & E1 & E2 & _)|[(e & _ & E)|(y & _ & E)]]; try discriminate.
  assert (K : kept_gw w w1).
  { destruct (is_client w); [eapply unsubscribe_kg; exact E1|injection E1 as <- <- <-; apply kg_refl]. }
  unfold proto_or_fail in E2. rewrite bind_assoc, bind_get in E2. destruct (w_proto w1) as [c|] eqn:P; [|discriminate].
  rewrite bind_ret in E2. apply close_inv in E2. destruct E2 as [D K2]. exists c. repeat split; auto.
  - destruct K as (_ & _ & K & _). congruence.
  - apply (kg_trans _ _ _ K (kept_kg _ _ K2)).
  - apply (kg_trans _ _ _ K (kept_kg _ _ K2)).
  - apply (kg_trans _ _ _ K (kept_kg _ _ K2)).
  - apply (kg_trans _ _ _ K (kept_kg _ _ K2)).
  - apply (kg_trans _ _ _ K (kept_kg _ _ K2)).
  - apply (kg_trans _ _ _ K (kept_kg _ _ K2)).
Qed.
