(** A property of the shared objects that no call destroys: it is enough that each single change
    the calls make keeps it ([closed]); then it holds along every schedule. *)
From Verif Require Import Py F64 Struct Utf Utility Const Enum Decode World Request Gateway Api Tasks Pool SpecPool.
From Verif Require P_Lock.

(** [C]: the codes that were subscribed to *)
(** [U]: before and after *)
Record base (U : world -> world -> Prop) : Prop := {
  u_refl : forall w, U w w;
  u_data : forall d w, U w (set_data d w);
  u_client : forall b w, U w (put_cm (cmset_client b) w);
  u_locked : forall b w, U w (put_cm (cmset_locked b) w);
  u_attach : forall c mr w, U w (put_cm (fun m => cmset_client false (cmset_retries mr (cmset_proto (Some c) m))) w);
  u_registers : forall c w, U w (fold_left (fun w code => register c code (HClient code) w) (map fst (m_listeners (w_cm w))) w);
  u_user : forall c code h w, U w (register c code (HUser h) w);
  u_unregister : forall c code w, U w (unregister c code w);
  u_unregister_all : forall c w, U w (unregister_all c w);
  u_keepalive : forall on c w, U w (keepalive on c w);
  u_closing : forall c w, U w (mark_closing c w);
  u_shut : forall c w, U w (mark_shut c w);
  u_lose : forall c w, U w (snd (lose c w));
  u_args : forall x w, U w (store_args x w);
  u_connection : forall c mac w, U w (store_connection c mac w);
  u_last : forall d w, U w (set_last d w);
  u_pumps : forall w, U w (pumps_entry w);
  u_pump : forall i b w, U w (store_pump i b w);
  u_retries : forall k, 0 < k < 6 -> forall w, U w (set_retries k w);
  u_open : forall w, U w (set_conns (w_conns w ++ [new_conn]) w);
  u_clock : forall clk w, U w (set_clock clk w) }.
(** ... those that only async_subscribe_client and the function it returned make included *)
Record closed (C : Z -> Prop) (U : world -> world -> Prop) : Prop := {
  u_base : base U;
  u_listen : forall cb code, C code -> forall w, U w (put_cm (fun m => cmset_listeners (add_listener code cb (m_listeners m)) m) w);
  u_unlisten : forall cb code w, U w (put_cm (fun m => cmset_listeners (drop_listener code cb (m_listeners m)) m) w);
  u_register : forall c code, C code -> forall w, U w (register c code (HClient code) w) }.

Fixpoint tun {A} (U : world -> world -> Prop) (m : task A) : Prop :=
  match m with
  | Done _ => True
  | Look f => forall w, tun U (f w)
  | Do f m => (forall w, U w (snd (f w))) /\ tun U m
  | Lock m x => tun U m /\ tun U x
  | Wait e f => forall r, tun U (f r)
  end.
Lemma tun_bind {A B} (U : world -> world -> Prop) (m : task A) (f : A -> task B) : tun U m -> (forall a, tun U (f a)) -> tun U (tbind m f).
Proof.
  intros S F. induction m as [[a|e|y]|g IH|g m IH|e g IH|m IH xx IHx]; cbn [tun tbind] in *; auto; destruct S; split; auto.
Qed.
Lemma tun_catch {A} (U : world -> world -> Prop) (m : task A) p h : tun U m -> (forall e, tun U (h e)) -> tun U (tcatch m p h).
Proof.
  intros S F. induction m as [[a|e|y]|g IH|g m IH|e g IH|m IH xx IHx]; cbn [tun tcatch] in *; auto; [destruct (p e); cbn; auto|destruct S; split; auto..].
Qed.
Lemma tun_finally {A} (U : world -> world -> Prop) (m : task A) f : (forall w, U w (f w)) -> tun U m -> tun U (tfinally m f).
Proof.
  intros K S. induction m as [[a|e|y]|g IH|g m IH|e g IH|m IH xx IHx]; cbn [tun tfinally fst snd] in *; auto; destruct S; split; auto.
Qed.
Section Calls.
Variable U : world -> world -> Prop.
Hypothesis UB : base U.
Lemma st_ret {A} (a : A) : tun U (tret a). Proof. exact Logic.I. Qed.
Lemma st_raise {A} e : tun U (@traise A e). Proof. exact Logic.I. Qed.
Lemma st_get {A B} (f : world -> A) (m : A -> task B) : (forall a, tun U (m a)) -> tun U (tbind (tget f) m).
Proof. intros H w. apply H. Qed.
Lemma st_look {A B} (f : world -> A) (m : A -> task B) : (forall w, tun U (m (f w))) -> tun U (tbind (tget f) m).
Proof. intros H. exact H. Qed.
Lemma st_lift {A B} (r : res A) (m : A -> task B) : (forall a, tun U (m a)) -> tun U (tbind (tlift r) m).
Proof. intros H. destruct r; [apply H|apply st_raise]. Qed.
Lemma st_lift1 {A} (r : res A) : tun U (tlift r).
Proof. destruct r; [apply st_ret|apply st_raise]. Qed.
Lemma st_do f : (forall w, U w (f w)) -> tun U (tdo f).
Proof. intros H. split; [exact H|apply st_ret]. Qed.
Lemma st_emit e : tun U (temit e). Proof. split; [intros w; apply (u_refl _ UB)|apply st_ret]. Qed.
Lemma st_decode m : tun U (tdecode m).
Proof. intros w. destruct (m (w_data w)) as [d [x|e]]; (split; [intros w'; apply (u_data _ UB)|]); [apply st_ret|apply st_raise]. Qed.
Lemma st_sleep ms : tun U (tsleep ms).
Proof. intros r. destruct r; exact Logic.I. Qed.
Ltac st := first [exact Logic.I | apply st_ret | apply st_raise | apply st_lift1 | apply st_emit | apply st_decode | apply st_sleep].

Lemma st_loop X p c : forall left attempt mr, tun U (trequest_loop left attempt mr c X p).
Proof.
  induction left as [|left IH]; intros attempt mr; cbn [trequest_loop]; [st|].
  assert (F : forall e, tun U (if attempt =? mr then traise e else tsleep (1000 * (COM_RETRY_WAIT * (attempt + 1))) ;;; trequest_loop left (attempt + 1) mr c X p)).
  { intros e. destruct (attempt =? mr); [st|]. apply tun_bind; [st|]. intros _. apply IH. }
  assert (C : tun U (ok <- tget (connected c) ;; if ok then tret (@None bytes) else traise ESLConnection)).
  { apply st_get. intros a. destruct a; st. }
  apply st_get. intros ok. destruct ok; cbn [negb]; [|st]. apply st_get. intros q. destruct (c_closing q); [exact C|].
  apply tun_bind.
  - apply st_get. intros q'. destruct (c_open q'); [|st]. apply st_lift. intros _. st.
  - intros _ r. destruct r; cbn [tret tbind]; try exact C; try apply F;
      repeat (first [apply F | st | match goal with |- context [if ?x then _ else _] => destruct x end]).
Qed.
Lemma st_request X p c mr : tun U (tmake_request c X p mr). Proof. apply st_loop. Qed.
Lemma st_data X p dec mr c : tun U (tdata_request X p dec mr c).
Proof. apply tun_bind; [apply st_request|]. intros r. destruct (nonempty r); [|st]. apply tun_bind; [st|intros _; st]. Qed.
Lemma st_version mr c : tun U (trequest_gateway_version mr c). Proof. apply st_get. intros fl. apply st_data. Qed.
Lemma st_pump i mr c : tun U (trequest_pump_status i mr c). Proof. apply st_lift. intros p. apply st_data. Qed.
Lemma st_date mr c : tun U (trequest_date_time mr c).
Proof.
  apply tun_bind; [apply st_request|]. intros r. destruct (nonempty r); [|st]. apply st_get. intros now. apply tun_bind; [st|intros _; st].
Qed.
Lemma st_command_request X p mr c : tun U (tcommand_request X p mr c).
Proof. apply st_lift. intros q. apply tun_bind; [apply st_request|]. intros [[|]|]; st. Qed.
Lemma st_challenge c mr : tun U (tgateway_connect c mr).
Proof.
  apply st_get. intros q. apply tun_bind; [destruct (c_open q); st|]. intros _. apply tun_bind; [st|]. intros _.
  apply st_get. intros ok. destruct ok; cbn [negb]; [|st]. apply tun_bind; [apply st_request|]. intros [x|]; st.
Qed.
Lemma st_login c mr : tun U (tgateway_login c mr).
Proof. apply st_lift. intros m. apply tun_bind; [apply st_request|]. intros; st. Qed.

Lemma st_m_proto : tun U tm_proto_or_fail. Proof. apply st_get. intros [c|]; st. Qed.
Lemma st_proto : tun U tproto_or_fail. Proof. apply st_get. intros [c|]; st. Qed.
Lemma st_close c force : tun U (tasync_close c force).
Proof.
  apply tun_bind; [apply st_do, (u_closing _ UB)|]. intros _ r.
  assert (K : tun U (q <- tget (get_conn c) ;;
      (if c_open q then temit (CloseTransport c) ;;; tdo (mark_shut c) else tret tt) ;;;
      still <- tget (connected c) ;;
      if negb still then tret tt
      else
        r2 <- twait (AwaitClosed c) ;;
        match r2 with
        | KDone => Do (lose c) (tret tt)
        | KCancelTask => traise ECancelled
        | _ => tstuck Unfit
        end)).
  { apply st_get. intros q. apply tun_bind.
    - destruct (c_open q); [|st]. apply tun_bind; [st|]. intros _. apply st_do, (u_shut _ UB).
    - intros _. apply st_get. intros still. destruct still; cbn [negb]; [|st]. intros r2. destruct r2; try st.
      split; [|st]. apply (u_lose _ UB). }
  destruct r; try exact K; st.
Qed.
Lemma st_if {A} (x : bool) (m1 m2 : task A) : tun U m1 -> tun U m2 -> tun U (if x then m1 else m2).
Proof. destruct x; auto. Qed.
Lemma st_remove : tun U tremove_client.
Proof.
  apply tun_catch; [|intros; st]. apply tun_bind; [apply st_m_proto|]. intros c. apply st_get. intros id. apply st_command_request.
Qed.
Lemma st_lock {A} (m : task A) : tun U m -> tun U (twith_lock m).
Proof. intros H. split; [|exact Logic.I]. apply tun_finally; [apply (u_locked _ UB)|exact H]. Qed.
Lemma st_unsubscribe : tun U tunsubscribe_gateway.
Proof.
  apply st_get. intros a. apply st_if; [st|]. apply st_lock. apply st_get. intros x. apply st_if; [|st].
  apply tun_bind; [apply st_do, (u_client _ UB)|]. intros _. apply tun_bind; [apply st_m_proto|]. intros c.
  apply tun_bind; [apply st_do, (u_keepalive _ UB)|]. intros _. apply tun_bind; [apply st_do, (u_unregister_all _ UB)|]. intros _. apply st_remove.
Qed.
Lemma st_disconnect force : tun U (tasync_disconnect force).
Proof.
  apply st_look. intros w. apply tun_bind.
  - destruct (is_client w); [apply st_unsubscribe|st].
  - intros _. apply tun_bind; [apply st_proto|]. intros c. apply st_close.
Qed.
Lemma st_attempt {A} connect (method : Z -> nat -> task A) mr : tun U connect -> (forall mr c, tun U (method mr c)) ->
  tun U (tattempt_request connect method mr).
Proof. intros C M. apply tun_bind; [exact C|]. intros ok. apply st_if; [st|]. apply tun_bind; [apply st_proto|]. intros c. apply M. Qed.
Lemma st_connected {A} connect (method : Z -> nat -> task A) d : tun U connect -> (forall mr c, tun U (method mr c)) ->
  tun U (tconnected_request connect method d).
Proof.
  intros C M. apply st_get. intros mr. apply tun_catch; [apply st_attempt; assumption|]. intros _.
  apply tun_bind; [apply st_disconnect|]. intros _. apply tun_bind; [st|]. intros _. apply st_attempt; assumption.
Qed.
Lemma st_subscribe connect : tun U connect -> tun U (tsubscribe_gateway connect).
Proof.
  intros C. apply st_get. intros a. apply st_if; [st|]. apply st_lock. apply st_get. intros x. apply st_if; [|st]. apply st_get. intros id.
  apply tun_bind; [apply st_connected; [exact C|intros; apply st_command_request]|]. intros _.
  apply tun_bind; [apply st_do, (u_client _ UB)|]. intros _. apply tun_bind; [apply st_m_proto|]. intros c. apply st_do, (u_keepalive _ UB).
Qed.
Lemma st_attach connect c mr : tun U connect -> tun U (tattach connect c mr).
Proof.
  intros C. apply tun_bind; [apply st_do, (u_attach _ UB)|]. intros _. apply st_get. intros need. apply st_if; [|st].
  apply tun_bind; [apply st_do, (u_unregister_all _ UB)|]. intros _. apply tun_bind; [apply st_do, (u_registers _ UB)|]. intros _. apply st_subscribe, C.
Qed.
Lemma st_poll connect key_ m : tun U connect -> (forall mr c, tun U (m mr c)) -> tun U (tpoll connect key_ m).
Proof. intros C M. apply tun_bind; [apply st_connected; assumption|]. intros [x|]; [|st]. apply st_do. intros w. apply (u_last _ UB). Qed.
Lemma st_create ip port : tun U (tcreate_connection ip port).
Proof. intros r. destruct r; try st. intros w. st. Qed.
Lemma st_to_gateway ip port mr : tun U (tconnect_to_gateway ip port mr).
Proof.
  apply tun_bind; [apply st_create|]. intros c. apply tun_bind; [apply st_challenge|]. intros mac. apply tun_bind; [apply st_login|]. intros ok. st.
Qed.
Lemma st_connect : forall n x, tun U (tasync_connect n x).
Proof.
  induction n as [|n IH]; intros x; [st|]. cbn [tasync_connect]. apply st_get. intros up. destruct up; [st|].
  apply tun_bind; [apply st_do, (u_args _ UB)|]. intros _. apply st_get. intros no. destruct no; [st|].
  do 3 (apply st_get; intros ?). apply tun_bind; [apply st_to_gateway|]. intros [[c mac]|]; [|st].
  apply tun_bind; [apply st_do, (u_connection _ UB)|]. intros _. apply st_get. intros mr1.
  apply tun_bind; [apply st_version|]. intros v. apply tun_bind; [apply st_do; intros w'; apply (u_last _ UB)|]. intros _.
  apply st_get. intros d. apply st_if; [|st].
  apply tun_bind; [apply st_poll; [apply IH|intros; apply st_data]|]. intros _.
  apply tun_bind; [apply st_proto|]. intros c2. apply st_get. intros mr2. apply tun_bind; [apply st_attach, IH|]. intros _. st.
Qed.
Lemma st_command {A} n (method : Z -> nat -> task A) d : (forall mr c, tun U (method mr c)) -> tun U (tcommand n method d).
Proof. intros M. apply st_connected; [apply st_connect|exact M]. Qed.
Lemma st_get_poll n key_ m : (forall mr c, tun U (m mr c)) -> tun U (tget_poll n key_ m).
Proof. intros M. apply st_poll; [apply st_connect|exact M]. Qed.
Lemma st_setting n X p d : tun U (tcommand n (tcommand_request X p) d).
Proof. apply st_command. intros mr c. apply st_command_request. Qed.
Lemma st_pumps n : forall ids, tun U (tpumps_loop n ids).
Proof.
  induction ids as [|i ids IH]; cbn [tpumps_loop]; [st|]. apply st_get. intros f. apply st_lift. intros flags.
  apply tun_bind; [|intros _; exact IH]. apply st_if; [st|]. apply tun_bind; [apply st_do, (u_pumps _ UB)|]. intros _.
  apply tun_bind; [apply st_command; intros; apply st_pump|]. intros [x|]; [|st]. apply st_do, (u_pump _ UB).
Qed.
Lemma st_require x : tun U (trequire x).
Proof. apply st_lift. intros ok. destruct ok; st. Qed.
Lemma st_plain n c : (forall cb code, c <> Subscribe cb code) -> (forall cb code, c <> Unsubscribe cb code) -> tun U (tperform n c).
Proof.
  intros N1 N2. destruct c; cbn [tperform];
    try (apply st_get_poll; intros; first [apply st_data|apply st_date]; fail);
    try (repeat match goal with
         | |- tun _ (tbind (tget _) _) => apply st_get; intros ?
         | |- tun _ (tbind (trequire _) _) => apply tun_bind; [apply st_require|intros _]
         | |- tun _ (tbind (tlift _) _) => apply st_lift; intros ?
         | x : _ * _ |- _ => destruct x
         end; apply st_setting; fail).
  - apply tun_bind; [apply st_connect|intros; st].
  - apply st_disconnect.
  - apply st_pumps.
  - unfold tasync_update. apply st_get. intros d. destruct d; [st|].
    apply tun_bind; [apply st_get_poll; intros; apply st_data|intros _].
    apply tun_bind; [apply st_pumps|intros _].
    apply tun_bind; [apply st_get_poll; intros; apply st_data|intros _].
    apply tun_bind; [apply st_get_poll; intros; apply st_data|intros _].
    apply st_get_poll; intros; apply st_date.
  - destruct (0 <? k) eqn:A; [|st]. destruct (k <? 6) eqn:B; [|st]. apply st_do, (u_retries _ UB). lia.
  - apply tun_bind; [|intros; st]. apply st_command. intros mr c. apply st_request.
  - apply st_get. intros [c|]; [|st]. apply st_do, (u_user _ UB).
  - apply st_get. intros [c|]; [|st]. apply st_do, (u_unregister _ UB).
  - destruct (N1 _ _ eq_refl).
  - destruct (N2 _ _ eq_refl).
  - apply st_unsubscribe.
  - unfold tasync_ping. apply tun_catch; [|intros; st]. apply tun_bind; [apply st_m_proto|]. intros c. apply st_command_request.
Qed.

End Calls.
Ltac st := first [exact Logic.I | apply st_ret | apply st_raise | apply st_lift1 | apply st_sleep].
Section Perform.
Variables (Cd : Z -> Prop) (U : world -> world -> Prop).
Hypothesis UC : closed Cd U.
Let UB := u_base _ _ UC.
Lemma st_perform n c : (forall cb code, c = Subscribe cb code -> Cd code) -> tun U (tperform n c).
Proof.
  intros LC. destruct c; try (apply (st_plain _ UB); discriminate); cbn [tperform].
  - specialize (LC _ _ eq_refl). unfold tasync_subscribe_client. apply tun_bind; [|intros; st]. apply st_get. intros a. apply st_if; [st|].
    apply tun_bind; [apply st_do, (u_listen _ _ UC _ _ LC)|]. intros _. apply tun_bind; [apply st_m_proto|]. intros c.
    apply tun_bind; [apply st_do, (u_register _ _ UC _ _ LC)|]. intros _. apply st_get. intros need.
    apply tun_bind; [apply st_if; [apply (st_subscribe _ UB), (st_connect _ UB)|st]|]. intros _. st.
  - unfold tremove_subscription. apply st_get. intros on. apply st_if; [st|]. apply tun_bind; [apply st_do, (u_unlisten _ _ UC)|]. intros _.
    apply st_get. intros more. apply st_get. intros a. apply st_if; [|st]. apply tun_bind; [apply st_m_proto|]. intros c. apply st_do, (u_unregister _ UB).
Qed.
End Perform.

(** along a schedule: [U] may depend on the codes that were subscribed to so far *)
Definition codes (g : Pool.log) (code : Z) : Prop := exists i cb d, In (Started i (Subscribe cb code) d) g.
Definition thru (U : world -> Prop) (w w' : world) : Prop := U w -> U w'.
Section Run.
  Variable U : (Z -> Prop) -> world -> Prop.
  Hypothesis Mono : forall (C C' : Z -> Prop) w, (forall x, C x -> C' x) -> U C w -> U C' w.
  Hypothesis UC : forall C, closed C (thru (U C)).
  Definition tuned (P : pool) : Prop :=
    U (codes (p_log P)) (p_world P) /\ forall t, In t (p_tasks P) -> forall C : Z -> Prop, (forall x, codes (p_log P) x -> C x) -> tun (thru (U C)) t.
  Lemma advance_tun C (m : task unit) : forall w t w' m', tun (thru (U C)) m -> U C w -> advance m w = (t, w', m') -> U C w' /\ tun (thru (U C)) m'.
  Proof.
    induction m as [o|f IH|f m IH|e f IH|m IH xx IHx]; intros w t w' m' S J A; cbn [tun advance] in *.
    - injection A as _ <- <-. auto.
    - eapply IH in A; eauto.
    - destruct S as (S1 & S2). specialize (S1 w J). destruct (f w) as [t1 w1]. destruct (advance m w1) as [[t2 w2] m2] eqn:A2. injection A as _ <- <-.
      eapply IH in A2; eauto.
    - injection A as _ <- <-. auto.
    - destruct (m_locked (w_cm w)); [injection A as _ <- <-; auto|]. destruct S as (S & _). eapply IH in A; eauto. apply (u_locked _ (u_base _ _ (UC C))), J.
  Qed.
  Lemma in_lset {X} i (x : X) l y : In y (lset i x l) -> y = x \/ In y l.
  Proof. revert i. induction l as [|z l IH]; intros [|i] J; cbn [lset In] in *; intuition eauto. destruct (IH _ H); auto. Qed.
  Lemma codes_app g g' x : codes g x -> codes (g ++ g') x.
  Proof. intros (i & cb & d & J). exists i, cb, d. apply in_or_app. left. exact J. Qed.
  Lemma codes_quiet g g' x : (forall i c d, ~ In (Started i c d) g') -> codes (g ++ g') x -> codes g x.
  Proof. intros N (i & cb & d & J). exists i, cb, d. apply in_app_or in J. destruct J as [J|J]; [exact J|destruct (N _ _ _ J)]. Qed.
  Lemma no_start i t : forall j c d, ~ In (Started j c d) (map (By i) t).
  Proof. intros j c d J. apply in_map_iff in J. destruct J as (e & E & _). discriminate E. Qed.
  Lemma tuned_step n P e : tuned P -> tuned (pstep n P e).
  Proof.
    intros (J & T). destruct P as [w ts g]. cbn [p_world p_tasks p_log] in *.
    assert (Grow : forall w' g', (forall C, U C w -> U C w') -> tuned (mkPool w' ts (g ++ g'))).
    { intros w' g' H. split; cbn [p_world p_tasks p_log].
      - apply H. eapply Mono; [|exact J]. intros x. apply codes_app.
      - intros t I C SC. apply T; [exact I|]. intros x X. apply SC, codes_app, X. }
    assert (Same : tuned (mkPool w ts g)) by (split; assumption).
    assert (Run : forall i m0 w0 head t w' t', (forall C : Z -> Prop, (forall x, codes g x -> C x) -> tun (thru (U C)) m0 /\ U C w0) -> advance m0 w0 = (t, w', t') ->
      tuned (mkPool w' (lset i t' ts) (g ++ head ++ map (By i) t))).
    { intros i m0 w0 head t w' t' H A.
      assert (K : forall C : Z -> Prop, (forall x, codes (g ++ head ++ map (By i) t) x -> C x) -> U C w' /\ tun (thru (U C)) t').
      { intros C SC. destruct (H C) as (H1 & H2); [intros x X; apply SC, codes_app, X|]. eapply advance_tun; eassumption. }
      split; cbn [p_world p_tasks p_log]; [apply K; auto|]. intros x I C SC. apply in_lset in I. destruct I as [->|I]; [apply K, SC|].
      apply T; [exact I|]. intros y Y. apply SC, codes_app, Y. }
    assert (Up : forall C : Z -> Prop, (forall x, codes g x -> C x) -> U C w) by (intros C SC; eapply Mono; [exact SC|exact J]).
    destruct e as [c|i k clk|i|c|c code x|]; [cbn [pstep p_world p_tasks p_log]..|].
    - destruct (advance (tperform n c) w) as [[t w'] t'] eqn:A.
      assert (K : forall C : Z -> Prop, (forall x, codes (g ++ Started (List.length ts) c (w_data w) :: map (By (List.length ts)) t) x -> C x) -> U C w' /\ tun (thru (U C)) t').
      { intros C SC. eapply advance_tun; [apply (st_perform C (thru (U C)) (UC C))| |exact A].
        - intros cb code ->. apply SC. exists (List.length ts), cb, (w_data w). apply in_or_app. right. left. reflexivity.
        - apply Up. intros x X. apply SC, codes_app, X. }
      split; cbn [p_world p_tasks p_log]; [apply K; auto|]. intros x I C SC. apply in_app_or in I. destruct I as [I|[<-|[]]]; [|apply K, SC].
      apply T; [exact I|]. intros y Y. apply SC, codes_app, Y.
    - destruct (nth_error ts i) as [[| | |e f|f xx]|] eqn:N; try exact Same.
      + destruct (fits e k); [|exact Same].
        destruct (advance _ _) as [[t w'] t'] eqn:A. eapply Run; [|exact A]. intros C SC. split; [exact (T _ (nth_error_In _ _ N) C SC k)|].
        apply (u_clock _ (u_base _ _ (UC C))). destruct e; try apply Up, SC. destruct k; try apply Up, SC. apply (u_open _ (u_base _ _ (UC C))), Up, SC.
      + destruct k; try exact Same. destruct (advance _ _) as [[t w'] t'] eqn:A. eapply Run; [|exact A]. intros C SC. split; [exact (proj2 (T _ (nth_error_In _ _ N) C SC))|].
        apply (u_clock _ (u_base _ _ (UC C))), Up, SC.
    - destruct (nth_error ts i) as [[| | | |f xx]|] eqn:N; try exact Same.
      destruct (advance _ _) as [[t w'] t'] eqn:A. eapply (Run i _ _ []); [|exact A]. intros C SC. split; [exact (T _ (nth_error_In _ _ N) C SC)|apply Up, SC].
    - pose proof (fun C => u_lose _ (u_base _ _ (UC C)) c w) as L. destruct (lose c w) as [t w']. apply Grow, L.
    - destruct (handler_of c code w) as [[h|h]|]; try exact Same.
      apply Grow. auto.
    - destruct (pstep_handle n w ts g) as [->|(c0 & code0 & b0 & l0 & cbs & _ & _ & ->)]; [exact Same|].
      apply Grow. intros C. apply (u_data _ (u_base _ _ (UC C))).
  Qed.
  Lemma tuned_run n es : forall P, tuned P -> tuned (prun n P es).
  Proof. induction es as [|e es IH]; intros P T; [exact T|]. apply IH, tuned_step, T. Qed.
  Lemma tuned_start w : U (fun _ => False) w -> tuned (start w).
  Proof. intros H. split; [|intros t []]. eapply Mono; [|exact H]. intros x []. Qed.
End Run.

(** * handlers of the client manager are registered for subscribed codes only *)
Definition heeds (C : Z -> Prop) (w : world) : Prop :=
  (forall code s, In (code, s) (m_listeners (w_cm w)) -> C code) /\
  (forall k, In k (w_conns w) -> forall code x, In (code, HClient x) (c_handlers k) -> C code).
Lemma heeds_mono (C C' : Z -> Prop) w : (forall x, C x -> C' x) -> heeds C w -> heeds C' w.
Proof. intros S (A & B). split; eauto. Qed.
Lemma heeds_conn (C : Z -> Prop) c f w : (forall k, In k (w_conns w) \/ k = dead_conn -> forall code x, In (code, HClient x) (c_handlers (f k)) -> In (code, HClient x) (c_handlers k) \/ C code) ->
  heeds C w -> heeds C (upd_conn c f w).
Proof.
  intros F (A & B). split; [exact A|]. cbn [upd_conn set_conns w_conns]. intros k J code x I. apply in_lset in J. destruct J as [->|J]; [|eauto].
  assert (K : In (get_conn c w) (w_conns w) \/ get_conn c w = dead_conn) by (unfold get_conn; destruct (nth_in_or_default c (w_conns w) dead_conn); auto).
  destruct (F _ K _ _ I) as [I'|I']; [|exact I']. destruct K as [K|K]; [eauto|]. rewrite K in I'. destruct I'.
Qed.
Lemma in_hset code h l : forall code' x, In (code', x) (hset code h l) -> In (code', x) l \/ (code' = code /\ x = h).
Proof.
  induction l as [|(k, v) l IH]; intros code' x; cbn [hset In]; [intros [E|[]]; injection E as <- <-; auto|].
  destruct (Z.eqb_spec code k) as [->|N]; cbn [In].
  - intros [E|J]; [injection E as <- <-; auto|auto].
  - intros [E|J]; [auto|]. destruct (IH _ _ J); auto.
Qed.
Lemma heeds_register (C : Z -> Prop) c code h w : (forall x, h = HClient x -> C code) -> heeds C w -> heeds C (register c code h w).
Proof.
  intros H. apply heeds_conn. intros k _ code' x. cbn [c_handlers]. intros J. apply in_hset in J. destruct J as [J|(-> & E)]; [auto|]. right. eapply H. symmetry. exact E.
Qed.
Lemma in_add code cb l : forall code' s, In (code', s) (add_listener code cb l) -> (exists s', In (code', s') l) \/ code' = code.
Proof.
  induction l as [|(k, v) l IH]; intros code' s; cbn [add_listener In]; [intros [E|[]]; injection E as <- <-; auto|].
  destruct (Z.eqb_spec code k) as [->|N]; cbn [In].
  - intros [E|J]; [injection E as <- <-; auto|left; eauto].
  - intros [E|J]; [injection E as <- <-; left; eauto|]. destruct (IH _ _ J) as [(s' & J')|J']; [left; eauto|auto].
Qed.
Lemma in_drop code cb l : forall code' s, In (code', s) (drop_listener code cb l) -> exists s', In (code', s') l.
Proof.
  induction l as [|(k, v) l IH]; intros code' s; cbn [drop_listener In]; [intros []|].
  destruct (Z.eqb_spec code k) as [->|N]; cbn [In].
  - destruct (filter _ v); cbn [In]; [eauto|]. intros [E|J]; [injection E as <- <-; eauto|eauto].
  - intros [E|J]; [injection E as <- <-; eauto|]. destruct (IH _ _ J) as (s' & J'). eauto.
Qed.
Lemma heeds_closed C : closed C (thru (heeds C)).
Proof.
  split; [split|..]; unfold thru; try (intros; match goal with H : heeds _ _ |- _ => exact H end).
  - intros c w H. assert (K : forall code, In code (map fst (m_listeners (w_cm w))) -> C code).
    { intros code J. apply in_map_iff in J. destruct J as ((code', s) & E & J). cbn in E. subst code'. destruct H. eauto. }
    revert K. generalize (map fst (m_listeners (w_cm w))). intros l K. revert w H. induction l as [|x l IH]; intros w H; [exact H|]. cbn [fold_left].
    apply IH; [intros; apply K; right; assumption|]. apply heeds_register; [|exact H]. intros _ _. apply K. left. reflexivity.
  - intros c code h w. apply heeds_register. discriminate.
  - intros c code w. apply heeds_conn. intros k _ code' x. cbn [c_handlers]. intros J. apply filter_In in J. left. apply J.
  - intros c w. apply heeds_conn. intros k _ code' x [].
  - intros on c w. apply heeds_conn. auto.
  - intros c w. apply heeds_conn. auto.
  - intros c w. apply heeds_conn. auto.
  - intros c w H. unfold lose. destruct (connected c w); [|exact H]. apply heeds_conn; auto.
  - intros w H. unfold pumps_entry. destruct (din _ _); exact H.
  - intros i b w H. unfold store_pump. destruct (dget _ _) as [[]|]; exact H.
  - intros w (A & B). split; [exact A|]. cbn [set_conns w_conns]. intros k J. apply in_app_or in J. destruct J as [J|[<-|[]]]; [exact (B k J)|intros code x []].
  - intros cb code Y w (A & B). split; [|exact B]. intros code' s J. cbn in J. apply in_add in J. destruct J as [(s' & J)| ->]; eauto.
  - intros cb code w (A & B). split; [|exact B]. intros code' s J. cbn in J. apply in_drop in J. destruct J as (s' & J). eauto.
  - intros c code Y w. apply heeds_register. auto.
Qed.
Lemma heeds_step n P e : tuned heeds P -> forall c code b, In (Pushed c code b) (skipn (List.length (p_log P)) (p_log (pstep n P e))) ->
  codes (p_log P) code /\ p_log (pstep n P e) = p_log P ++ [Pushed c code b].
Proof.
  intros ((_ & H) & _) c code b. destruct P as [w ts g]. cbn [p_world p_tasks p_log] in *.
  assert (Z : forall i head t, (forall c code b, ~ In (Pushed c code b) head) -> ~ In (Pushed c code b) (skipn (List.length g) (g ++ head ++ map (By i) t))).
  { intros i head t N J. rewrite skipn_app, skipn_all, Nat.sub_diag in J. cbn [app skipn] in J. apply in_app_or in J. destruct J as [J|J]; [exact (N _ _ _ J)|].
    apply in_map_iff in J. destruct J as (x & X & _). discriminate X. }
  assert (Z0 : ~ In (Pushed c code b) (skipn (List.length g) g)) by (rewrite skipn_all; intros []).
  destruct e as [cl|i k clk|i|c'|c' code' b'|]; [cbn [pstep p_world p_tasks p_log]..|].
  - destruct (advance _ _) as [[t w'] t']. cbn [p_log]. intros J. destruct (Z (List.length ts) [Started (List.length ts) cl (w_data w)] t); [|exact J]. intros ? ? ? [X|[]]. discriminate X.
  - destruct (nth_error ts i) as [[| | |e f|f xx]|]; try (intros J; destruct (Z0 J)).
    + destruct (fits e k); [|intros J; destruct (Z0 J)].
      destruct (advance _ _) as [[t w'] t']. cbn [p_log]. intros J. eapply Z in J; [destruct J|]. intros ? ? ? [X|[]]. discriminate X.
    + destruct k; try (intros J; destruct (Z0 J)).
      destruct (advance _ _) as [[t w'] t']. cbn [p_log]. intros J. eapply Z in J; [destruct J|]. intros ? ? ? [X|[]]. discriminate X.
  - destruct (nth_error ts i) as [[| | | |f xx]|]; try (intros J; destruct (Z0 J)).
    destruct (advance _ _) as [[t w'] t']. cbn [p_log]. intros J. apply (Z i [] t) in J; [destruct J|]. intros ? ? ? [].
  - destruct (lose c' w) as [t w']. cbn [p_log]. intros J. rewrite skipn_app, skipn_all, Nat.sub_diag in J. cbn [app skipn] in J.
    apply in_map_iff in J. destruct J as (x & X & _). discriminate X.
  - destruct (handler_of c' code' w) as [[h|h]|] eqn:HO; try (intros J; destruct (Z0 J)). cbn [p_log].
    intros J. rewrite skipn_app, skipn_all, Nat.sub_diag in J. cbn [app skipn] in J. destruct J as [J|[]]. injection J as -> -> ->. split; [|reflexivity].
    unfold handler_of in HO. destruct (_ && _) eqn:O; [|discriminate HO]. destruct (find _ _) as [(k, x)|] eqn:Fd; [|discriminate HO]. cbn [option_map snd] in HO. injection HO as ->.
    apply find_some in Fd. destruct Fd as (Fd & E). cbn [fst] in E. apply Z.eqb_eq in E. subst k.
    unfold get_conn in *. destruct (nth_in_or_default c (w_conns w) dead_conn) as [K|K]; [exact (H _ K _ _ Fd)|rewrite K in Fd; destruct Fd].
  - destruct (pstep_handle n w ts g) as [->|(c0 & code0 & b0 & l0 & cbs & _ & _ & ->)]; [intros J; destruct (Z0 J)|]. cbn [p_log]. intros J. rewrite skipn_app, skipn_all, Nat.sub_diag in J. cbn [app skipn] in J. destruct J as [J|[]]. discriminate J.
Qed.

Lemma log_grows n P e : exists x, p_log (pstep n P e) = p_log P ++ x.
Proof.
  destruct P as [w ts g]. assert (Z0 : exists x, g = g ++ x) by (exists []; rewrite app_nil_r; reflexivity).
  destruct e as [cl|i k clk|i|c'|c' code' b'|]; [cbn [pstep p_world p_tasks p_log]..|].
  - destruct (advance _ _) as [[t w'] t']. eexists. reflexivity.
  - destruct (nth_error ts i) as [[| | |e f|f xx]|]; try exact Z0; [destruct (fits e k); [|exact Z0]|destruct k; try exact Z0]; destruct (advance _ _) as [[t w'] t']; eexists; reflexivity.
  - destruct (nth_error ts i) as [[| | | |f xx]|]; try exact Z0. destruct (advance _ _) as [[t w'] t']. eexists. reflexivity.
  - destruct (lose c' w) as [t w']. eexists. reflexivity.
  - destruct (handler_of c' code' w) as [[h|h]|]; try exact Z0. eexists. reflexivity.
  - destruct (pstep_handle n w ts g) as [->|(c0 & code0 & b0 & l0 & cbs & _ & _ & ->)]; [exact Z0|eexists; reflexivity].
Qed.
Lemma heeds_run n w es : heeds (fun _ => False) w -> forall g1 c code b g2, p_log (prun n (start w) es) = g1 ++ Pushed c code b :: g2 -> codes g1 code.
Proof.
  intros H0. induction es as [|e es IH] using rev_ind; intros g1 c code b g2 E; [destruct g1; discriminate E|].
  unfold prun in E. rewrite fold_left_app in E. cbn [fold_left] in E. fold (prun n (start w) es) in E. set (P := prun n (start w) es) in *.
  assert (T : tuned heeds P) by (apply tuned_run; [exact heeds_mono|exact heeds_closed|]; apply tuned_start; [exact heeds_mono|exact H0]).
  destruct (log_grows n P e) as (x & L). pose proof (heeds_step n P e T c code b) as S. rewrite L in E, S. rewrite skipn_app, skipn_all, Nat.sub_diag in S. cbn [app skipn] in S.
  destruct (P_Lock.split_log _ _ _ _ _ E) as [(g3 & EP)|(x1 & x2 & -> & ->)]; [eapply IH, EP|].
  destruct S as (S1 & S2); [apply in_or_app; right; left; reflexivity|]. apply codes_app, S1.
Qed.
