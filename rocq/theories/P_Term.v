(** Calls end: no task gets stuck while connections are left for it to open, only tasks with
    listeners use the lock, and every step of a task leads to a smaller task. *)
From Coq Require Import Wellfounded.
From Verif Require Import Py F64 Struct Utf Utility Const Enum Decode World Request Gateway Api Tasks Pool SpecTerm.
From Verif Require P_Moves.

(** nobody listens *)
Definition deaf (w : world) : Prop := m_listeners (w_cm w) = [] /\ m_is_client (w_cm w) = false.
Definition calmw (b : bool) (w : world) : Prop := b = false -> deaf w.
(** [b]: there may be listeners; [k]: how many connections the task may open before it can be
    out of fuel *)
Fixpoint sturdy {A} (b : bool) (k : nat) (m : task A) : Prop :=
  match m with
  | Done o => forall y, o <> Stuck y
  | Look f => forall w, calmw b w -> sturdy b k (f w)
  | Do f m => (forall w, calmw b w -> calmw b (snd (f w))) /\ sturdy b k m
  | Lock m x => b = true /\ sturdy b k m /\ sturdy b k x
  | Wait e f => forall r, fits e r = true ->
      match e, r with
      | Open _ _ _, KDone => match k with O => True | S k' => sturdy b k' (f r) end
      | _, _ => sturdy b k (f r)
      end
  end.
Lemma sturdy_less {A} b (m : task A) : forall k k', (k' <= k)%nat -> sturdy b k m -> sturdy b k' m.
Proof.
  induction m as [o|f IH|f m IH|e f IH|m IH xx IHx]; intros k k' L S; cbn [sturdy] in *.
  - exact S.
  - intros w J. eapply IH; eauto.
  - destruct S. split; eauto.
  - intros r F. specialize (S r F).
    destruct e; try (destruct r; eapply IH; eassumption). destruct r; try (eapply IH; eassumption).
    destruct k' as [|k']; [exact Logic.I|]. destruct k as [|k]; [lia|]. eapply IH; [|exact S]. lia.
  - destruct S as (S1 & S2 & S3). split; [exact S1|]. split; eauto.
Qed.
Lemma sturdy_bind {A B} b (m : task A) (f : A -> task B) : forall k, sturdy b k m -> (forall a, sturdy b k (f a)) -> sturdy b k (tbind m f).
Proof.
  induction m as [[a|e|y]|g IH|g m IH|e g IH|m IH xx IHx]; intros k S F; cbn [sturdy tbind] in *.
  - apply F.
  - discriminate.
  - exact (fun _ => match S y eq_refl with end).
  - intros w J. eauto.
  - destruct S. split; eauto.
  - intros r R. specialize (S r R).
    destruct e; try (destruct r; apply IH; auto; fail). destruct r; try (apply IH; auto; fail).
    destruct k as [|k]; [exact Logic.I|]. apply IH; [exact S|]. intros a. eapply sturdy_less; [|apply F]. lia.
  - destruct S as (S1 & S2 & S3). split; [exact S1|]. split; eauto.
Qed.
Lemma sturdy_catch {A} b (m : task A) p h : forall k, sturdy b k m -> (forall e, sturdy b k (h e)) -> sturdy b k (tcatch m p h).
Proof.
  induction m as [[a|e|y]|g IH|g m IH|e g IH|m IH xx IHx]; intros k S F; cbn [sturdy tcatch] in *.
  - exact S.
  - destruct (p e); [apply F|exact S].
  - exact S.
  - intros w J. eauto.
  - destruct S. split; eauto.
  - intros r R. specialize (S r R).
    destruct e; try (destruct r; apply IH; auto; fail). destruct r; try (apply IH; auto; fail).
    destruct k as [|k]; [exact Logic.I|]. apply IH; [exact S|]. intros a. eapply sturdy_less; [|apply F]. lia.
  - destruct S as (S1 & S2 & S3). split; [exact S1|]. split; eauto.
Qed.
Lemma sturdy_finally {A} b (m : task A) f : (forall w, calmw b w -> calmw b (f w)) -> forall k, sturdy b k m -> sturdy b k (tfinally m f).
Proof.
  intros K. induction m as [[a|e|y]|g IH|g m IH|e g IH|m IH xx IHx]; intros k S; cbn [sturdy tfinally fst snd] in *.
  - split; [exact K|discriminate].
  - split; [exact K|discriminate].
  - exact S.
  - intros w J. eauto.
  - destruct S. split; eauto.
  - intros r R. specialize (S r R).
    destruct e; try (destruct r; apply IH; auto; fail). destruct r; try (apply IH; auto; fail).
    destruct k as [|k]; [exact Logic.I|]. apply IH; exact S.
  - destruct S as (S1 & S2 & S3). split; [exact S1|]. split; eauto.
Qed.

Definition steady {A} (b : bool) (m : task A) : Prop := forall k, sturdy b k m.
Lemma st_ret {A} b k (a : A) : sturdy b k (tret a). Proof. cbn. discriminate. Qed.
Lemma st_raise {A} b k e : sturdy b k (@traise A e). Proof. cbn. discriminate. Qed.
Lemma st_get {A B} b k (f : world -> A) (m : A -> task B) : (forall a, sturdy b k (m a)) -> sturdy b k (tbind (tget f) m).
Proof. intros H w J. apply H. Qed.
Lemma st_look {A B} b k (f : world -> A) (m : A -> task B) : (forall w, calmw b w -> sturdy b k (m (f w))) -> sturdy b k (tbind (tget f) m).
Proof. intros H. exact H. Qed.
Lemma st_lift {A B} b k (r : res A) (m : A -> task B) : (forall a, sturdy b k (m a)) -> sturdy b k (tbind (tlift r) m).
Proof. intros H. destruct r; [apply H|apply st_raise]. Qed.
Lemma st_lift1 {A} b k (r : res A) : sturdy b k (tlift r).
Proof. destruct r; [apply st_ret|apply st_raise]. Qed.
Lemma st_do b k f : (forall w, calmw b w -> calmw b (f w)) -> sturdy b k (tdo f).
Proof. intros H. split; [exact H|apply st_ret]. Qed.
Lemma st_emit b k e : sturdy b k (temit e). Proof. split; [auto|apply st_ret]. Qed.
Lemma st_decode b k m : sturdy b k (tdecode m).
Proof. intros w _. destruct (m (w_data w)) as [d [x|e]]; (split; [intros w' J; exact J|]); [apply st_ret|apply st_raise]. Qed.
Lemma st_sleep b k ms : sturdy b k (tsleep ms).
Proof. intros r F. destruct r; try discriminate F; cbn; discriminate. Qed.
Lemma st_conn b (c : nat) f w : calmw b w -> calmw b (upd_conn c f w). Proof. exact (fun x => x). Qed.
Ltac st := first [apply st_ret | apply st_raise | apply st_lift1 | apply st_emit | apply st_decode | apply st_sleep].

Lemma st_loop b X p c : forall left attempt mr k, sturdy b k (trequest_loop left attempt mr c X p).
Proof.
  induction left as [|left IH]; intros attempt mr k; cbn [trequest_loop]; [st|].
  assert (F : forall e, sturdy b k (if attempt =? mr then traise e else tsleep (1000 * (COM_RETRY_WAIT * (attempt + 1))) ;;; trequest_loop left (attempt + 1) mr c X p)).
  { intros e. destruct (attempt =? mr); [st|]. apply sturdy_bind; [st|]. intros _. apply IH. }
  assert (C : sturdy b k (ok <- tget (connected c) ;; if ok then tret (@None bytes) else traise ESLConnection)).
  { apply st_get. intros a. destruct a; st. }
  apply st_get. intros ok. destruct ok; cbn [negb]; [|st]. apply st_get. intros q. destruct (c_closing q); [exact C|].
  apply sturdy_bind.
  - apply st_get. intros q'. destruct (c_open q'); [|st]. apply st_lift. intros _. st.
  - intros _ r R. destruct r; try discriminate R; cbn [tret tbind]; try exact C; try apply F;
      repeat (first [apply F | st | match goal with |- context [if ?x then _ else _] => destruct x end]).
Qed.
Lemma st_request b X p c mr k : sturdy b k (tmake_request c X p mr). Proof. apply st_loop. Qed.
Lemma st_data b X p dec mr c k : sturdy b k (tdata_request X p dec mr c).
Proof. apply sturdy_bind; [apply st_request|]. intros r. destruct (nonempty r); [|st]. apply sturdy_bind; [st|intros _; st]. Qed.
Lemma st_version b mr c k : sturdy b k (trequest_gateway_version mr c). Proof. apply st_get. intros fl. apply st_data. Qed.
Lemma st_pump b i mr c k : sturdy b k (trequest_pump_status i mr c). Proof. apply st_lift. intros p. apply st_data. Qed.
Lemma st_date b mr c k : sturdy b k (trequest_date_time mr c).
Proof.
  apply sturdy_bind; [apply st_request|]. intros r. destruct (nonempty r); [|st]. apply st_get. intros now. apply sturdy_bind; [st|intros _; st].
Qed.
Lemma st_command_request b X p mr c k : sturdy b k (tcommand_request X p mr c).
Proof. apply st_lift. intros q. apply sturdy_bind; [apply st_request|]. intros [[|]|]; st. Qed.
Lemma st_challenge b c mr k : sturdy b k (tgateway_connect c mr).
Proof.
  apply st_get. intros q. apply sturdy_bind; [destruct (c_open q); st|]. intros _. apply sturdy_bind; [st|]. intros _.
  apply st_get. intros ok. destruct ok; cbn [negb]; [|st]. apply sturdy_bind; [apply st_request|]. intros [x|]; st.
Qed.
Lemma st_login b c mr k : sturdy b k (tgateway_login c mr).
Proof. apply st_lift. intros m. apply sturdy_bind; [apply st_request|]. intros; st. Qed.

Lemma st_m_proto b k : sturdy b k tm_proto_or_fail. Proof. apply st_get. intros [c|]; st. Qed.
Lemma st_proto b k : sturdy b k tproto_or_fail. Proof. apply st_get. intros [c|]; st. Qed.
Lemma lose_cm c w : w_cm (snd (lose c w)) = w_cm w.
Proof. unfold lose. destruct (connected c w); reflexivity. Qed.
Lemma calm_cm b w w' : w_cm w' = w_cm w -> calmw b w -> calmw b w'.
Proof. intros E J H. specialize (J H). unfold deaf in *. rewrite E. exact J. Qed.
Lemma st_close b c force k : sturdy b k (tasync_close c force).
Proof.
  apply sturdy_bind; [apply st_do; intros w; apply calm_cm; reflexivity|]. intros _ r R.
  assert (K : sturdy b k (q <- tget (get_conn c) ;;
      (if c_open q then temit (CloseTransport c) ;;; tdo (mark_shut c) else tret tt) ;;;
      still <- tget (connected c) ;;
      if negb still then tret tt
      else
        r2 <- twait (AwaitClosed c) ;;
        match r2 with
        | KDone => Do (lose c) (tret tt)
        | KCancelTask => traise ECancelled
        | _ => tstuck Unfit
        end)).
  { apply st_get. intros q. apply sturdy_bind.
    - destruct (c_open q); [|st]. apply sturdy_bind; [st|]. intros _. apply st_do. intros w. apply calm_cm. reflexivity.
    - intros _. apply st_get. intros still. destruct still; cbn [negb]; [|st]. intros r2 R2. destruct r2; try discriminate R2; [st|].
      split; [|st]. intros w. apply calm_cm, lose_cm. }
  destruct r; try discriminate R; exact K.
Qed.
Lemma st_if {A} b k (x : bool) (m1 m2 : task A) : sturdy b k m1 -> sturdy b k m2 -> sturdy b k (if x then m1 else m2).
Proof. destruct x; auto. Qed.
Lemma st_remove b k : sturdy b k tremove_client.
Proof.
  apply sturdy_catch; [|intros; st]. apply sturdy_bind; [apply st_m_proto|]. intros c. apply st_get. intros id. apply st_command_request.
Qed.
Lemma st_lock {A} k (m : task A) : sturdy true k m -> sturdy true k (twith_lock m).
Proof. intros S. split; [reflexivity|]. split; [|apply st_raise]. apply sturdy_finally; [|exact S]. intros w J. discriminate. Qed.
Ltac free := let w := fresh in intros w; let J := fresh in let H := fresh in intros J H; discriminate H.
Lemma st_unsubscribe k : sturdy true k tunsubscribe_gateway.
Proof.
  apply st_get. intros a. apply st_if; [st|]. apply st_lock. apply st_get. intros x. apply st_if; [|st].
  apply sturdy_bind; [apply st_do; free|]. intros _. apply sturdy_bind; [apply st_m_proto|]. intros c.
  apply sturdy_bind; [apply st_do; free|]. intros _. apply sturdy_bind; [apply st_do; free|]. intros _. apply st_remove.
Qed.
Lemma st_disconnect b force k : sturdy b k (tasync_disconnect force).
Proof.
  apply st_look. intros w J. apply sturdy_bind.
  - destruct (is_client w) eqn:E; [|st]. destruct b; [apply st_unsubscribe|].
    destruct (J eq_refl) as (_ & C). unfold is_client in E. rewrite C in E. discriminate E.
  - intros _. apply sturdy_bind; [apply st_proto|]. intros c. apply st_close.
Qed.
Lemma st_attempt {A} b connect (method : Z -> nat -> task A) mr k : sturdy b k connect -> (forall mr c, sturdy b k (method mr c)) ->
  sturdy b k (tattempt_request connect method mr).
Proof. intros C M. apply sturdy_bind; [exact C|]. intros ok. apply st_if; [st|]. apply sturdy_bind; [apply st_proto|]. intros c. apply M. Qed.
Lemma st_connected {A} b connect (method : Z -> nat -> task A) d k : sturdy b k connect -> (forall mr c, sturdy b k (method mr c)) ->
  sturdy b k (tconnected_request connect method d).
Proof.
  intros C M. apply st_get. intros mr. apply sturdy_catch; [apply st_attempt; assumption|]. intros _.
  apply sturdy_bind; [apply st_disconnect|]. intros _. apply sturdy_bind; [st|]. intros _. apply st_attempt; assumption.
Qed.
Lemma st_subscribe connect k : sturdy true k connect -> sturdy true k (tsubscribe_gateway connect).
Proof.
  intros C. apply st_get. intros a. apply st_if; [st|]. apply st_lock. apply st_get. intros x. apply st_if; [|st]. apply st_get. intros id.
  apply sturdy_bind; [apply st_connected; [exact C|intros; apply st_command_request]|]. intros _.
  apply sturdy_bind; [apply st_do; free|]. intros _. apply sturdy_bind; [apply st_m_proto|]. intros c. apply st_do; free.
Qed.
Lemma st_attach b connect c mr k : sturdy b k connect -> sturdy b k (tattach connect c mr).
Proof.
  intros C. apply sturdy_bind; [apply st_do|].
  - intros w J H. destruct (J H) as (L & _). split; [exact L|reflexivity].
  - intros _. apply st_look. intros w J. destruct (client_needed w) eqn:E; [|st]. destruct b.
    + apply sturdy_bind; [apply st_do; free|]. intros _. apply sturdy_bind; [apply st_do; free|]. intros _. apply st_subscribe, C.
    + destruct (J eq_refl) as (L & _). unfold client_needed in E. rewrite L in E. discriminate E.
Qed.
Lemma st_poll b connect key_ m k : sturdy b k connect -> (forall mr c, sturdy b k (m mr c)) -> sturdy b k (tpoll connect key_ m).
Proof. intros C M. apply sturdy_bind; [apply st_connected; assumption|]. intros [x|]; [|st]. apply st_do. intros w. apply calm_cm. reflexivity. Qed.
(** what follows a connection that opened is done with one less to open *)
Lemma st_to_gateway {B} b n ip port mr (f : option (nat * pystr) -> task B) : (forall n', n = S n' -> forall x, sturdy b n' (f x)) ->
  sturdy b n (tbind (tconnect_to_gateway ip port mr) f).
Proof.
  intros F r R. destruct r; try discriminate R; try (cbn; discriminate).
  destruct n as [|n]; [exact Logic.I|]. specialize (F n eq_refl).
  refine (sturdy_bind b (tbind (tget (fun w => pred (List.length (w_conns w)))) (fun c => mac <- tgateway_connect c mr ;; ok <- tgateway_login c mr ;;
    tret (if ok then Some (c, mac) else None))) f n _ F).
  apply st_get. intros c. apply sturdy_bind; [apply st_challenge|]. intros mac. apply sturdy_bind; [apply st_login|]. intros ok. st.
Qed.
Lemma st_connect b : forall n x, sturdy b n (tasync_connect (S n) x).
Proof.
  induction n as [n IH] using lt_wf_ind. intros x. cbn [tasync_connect]. apply st_get. intros up. destruct up; [st|].
  apply sturdy_bind; [apply st_do; intros w; apply calm_cm; reflexivity|]. intros _. apply st_get. intros no. destruct no; [st|].
  do 3 (apply st_get; intros ?). apply st_to_gateway. intros n' -> [[c mac]|]; [|st]. specialize (IH n' ltac:(lia)).
  apply sturdy_bind; [apply st_do; intros w'; apply calm_cm; reflexivity|]. intros _. apply st_get. intros mr1.
  apply sturdy_bind; [apply st_version|]. intros v. apply sturdy_bind; [apply st_do; intros w'; apply calm_cm; reflexivity|]. intros _.
  apply st_get. intros d. apply st_if; [|st].
  apply sturdy_bind; [apply st_poll; [apply IH|intros; apply st_data]|]. intros _.
  apply sturdy_bind; [apply st_proto|]. intros c2. apply st_get. intros mr2. apply sturdy_bind; [apply st_attach, IH|]. intros _. st.
Qed.
Lemma st_command {A} b n (method : Z -> nat -> task A) d : (forall mr c, sturdy b n (method mr c)) -> sturdy b n (tcommand (S n) method d).
Proof. intros M. apply st_connected; [apply st_connect|exact M]. Qed.
Lemma st_get_poll b n key_ m : (forall mr c, sturdy b n (m mr c)) -> sturdy b n (tget_poll (S n) key_ m).
Proof. intros M. apply st_poll; [apply st_connect|exact M]. Qed.
Lemma st_setting b n X p d : sturdy b n (tcommand (S n) (tcommand_request X p) d).
Proof. apply st_command. intros mr c. apply st_command_request. Qed.
Lemma pumps_entry_cm w : w_cm (pumps_entry w) = w_cm w.
Proof. unfold pumps_entry. repeat match goal with |- context [match ?x with _ => _ end] => destruct x end; reflexivity. Qed.
Lemma store_pump_cm i b w : w_cm (store_pump i b w) = w_cm w.
Proof. unfold store_pump. repeat match goal with |- context [match ?x with _ => _ end] => destruct x end; reflexivity. Qed.
Lemma st_pumps b n : forall ids, sturdy b n (tpumps_loop (S n) ids).
Proof.
  induction ids as [|i ids IH]; cbn [tpumps_loop]; [st|]. apply st_get. intros f. apply st_lift. intros flags.
  apply sturdy_bind; [|intros _; exact IH]. apply st_if; [st|]. apply sturdy_bind; [apply st_do; intros w; apply calm_cm, pumps_entry_cm|]. intros _.
  apply sturdy_bind; [apply st_command; intros; apply st_pump|]. intros [x|]; [|st]. apply st_do. intros w. apply calm_cm, store_pump_cm.
Qed.
Lemma st_require b k x : sturdy b k (trequire x).
Proof. apply st_lift. intros ok. destruct ok; st. Qed.
Definition listens (c : api_call) : bool := match c with Subscribe _ _ | Unregister => true | _ => false end.
Lemma st_perform b n c : (b = false -> listens c = false) -> sturdy b n (tperform (S n) c).
Proof.
  intros LC. destruct c; cbn [tperform];
    try (apply st_get_poll; intros; first [apply st_data|apply st_date]; fail);
    try (repeat match goal with
         | |- sturdy _ _ (tbind (tget _) _) => apply st_get; intros ?
         | |- sturdy _ _ (tbind (trequire _) _) => apply sturdy_bind; [apply st_require|intros _]
         | |- sturdy _ _ (tbind (tlift _) _) => apply st_lift; intros ?
         | x : _ * _ |- _ => destruct x
         end; apply st_setting; fail).
  - apply sturdy_bind; [apply st_connect|intros; st].
  - apply st_disconnect.
  - apply st_pumps.
  - unfold tasync_update. apply st_get. intros d. destruct d; [st|].
    apply sturdy_bind; [apply st_get_poll; intros; apply st_data|intros _].
    apply sturdy_bind; [apply st_pumps|intros _].
    apply sturdy_bind; [apply st_get_poll; intros; apply st_data|intros _].
    apply sturdy_bind; [apply st_get_poll; intros; apply st_data|intros _].
    apply st_get_poll; intros; apply st_date.
  - apply st_if; [|st]. apply st_do. intros w. apply calm_cm. reflexivity.
  - apply sturdy_bind; [|intros; st]. apply st_command. intros mr c. apply st_request.
  - apply st_get. intros [c|]; [|st]. apply st_do. intros w. apply calm_cm. reflexivity.
  - apply st_get. intros [c|]; [|st]. apply st_do. intros w. apply calm_cm. reflexivity.
  - destruct b; [|discriminate (LC eq_refl)].
    unfold tasync_subscribe_client. apply sturdy_bind; [|intros; st]. apply st_get. intros a. apply st_if; [st|].
    apply sturdy_bind; [apply st_do; free|]. intros _. apply sturdy_bind; [apply st_m_proto|]. intros c.
    apply sturdy_bind; [apply st_do; free|]. intros _. apply st_get. intros need.
    apply sturdy_bind; [apply st_if; [apply st_subscribe, st_connect|st]|]. intros _. st.
  - unfold tremove_subscription. apply st_get. intros on. apply st_if; [st|].
    apply sturdy_bind; [apply st_do; intros w J H; destruct (J H) as (J1 & J2); split; [cbn; rewrite J1; reflexivity|exact J2]|]. intros _.
    apply st_get. intros more. apply st_get. intros a. apply st_if; [|st]. apply sturdy_bind; [apply st_m_proto|]. intros c. apply st_do. intros w. apply calm_cm. reflexivity.
  - destruct b; [|discriminate (LC eq_refl)]. apply st_unsubscribe.
  - unfold tasync_ping. apply sturdy_catch; [|intros; st]. apply sturdy_bind; [apply st_m_proto|]. intros c. apply st_command_request.
Qed.

(** * along a schedule *)
Lemma advance_sturdy b (m : task unit) : forall k w t w' m', sturdy b k m -> calmw b w -> advance m w = (t, w', m') ->
  sturdy b k m' /\ calmw b w'.
Proof.
  induction m as [o|f IH|f m IH|e f IH|m IH xx IHx]; intros k w t w' m' S J A; cbn [sturdy advance] in *.
  - injection A as _ <- <-. auto.
  - eapply IH; [apply S, J|exact J|exact A].
  - destruct S as (S1 & S2). destruct (f w) as [t1 w1] eqn:F. destruct (advance m w1) as [[t2 w2] m2] eqn:A2. injection A as _ <- <-.
    eapply IH; [exact S2| |exact A2]. specialize (S1 w J). rewrite F in S1. exact S1.
  - injection A as _ <- <-. auto.
  - destruct (m_locked (w_cm w)); [injection A as _ <- <-; auto|]. destruct S as (-> & S). eapply IH; [exact (proj1 S)| |exact A]. intros H. discriminate H.
Qed.
Definition rest (m : task unit) : Prop := match m with Look _ | Do _ _ => False | _ => True end.
Lemma advance_rest (m : task unit) : forall w t w' m', advance m w = (t, w', m') -> rest m'.
Proof.
  induction m as [o|f IH|f m IH|e f IH|m IH xx IHx]; intros w t w' m' A; cbn [advance] in *.
  - injection A as _ _ <-. exact Logic.I.
  - eapply IH, A.
  - destruct (f w) as [t1 w1]. destruct (advance m w1) as [[t2 w2] m2] eqn:A2. injection A as _ _ <-. eapply IH, A2.
  - injection A as _ _ <-. exact Logic.I.
  - destruct (m_locked (w_cm w)); [injection A as _ _ <-; exact Logic.I|]. eapply IH, A.
Qed.
Record solid (b : bool) (m : nat) (P : pool) : Prop := {
  o_made : P_Moves.all_made P;
  o_calm : calmw b (p_world P);
  o_rest : forall t, In t (p_tasks P) -> rest t;
  o_room : forall t, In t (p_tasks P) -> sturdy b (m - opens P) t }.
Lemma in_lset {X} i (x : X) l y : In y (lset i x l) -> y = x \/ In y l.
Proof. revert i. induction l as [|z l IH]; intros [|i] J; cbn [lset In] in *; intuition eauto. destruct (IH _ H); auto. Qed.
Lemma opens_mono n P e : P_Moves.all_made P -> (opens P <= opens (pstep n P e))%nat.
Proof. intros OM. destruct (P_Moves.pstep_made _ P_Moves.goes_keeps n P e OM) as ((GL & _) & _). exact GL. Qed.
Lemma solid_step b m P e : (forall c, e = Call c -> b = false -> listens c = false) -> (opens (pstep (S m) P e) <= m)%nat -> solid b m P -> solid b m (pstep (S m) P e).
Proof.
  intros LC H [OM OC OR OO]. pose proof (opens_mono (S m) P e OM) as G.
  destruct (P_Moves.pstep_made _ P_Moves.goes_keeps (S m) P e OM) as (_ & OM').
  assert (K : calmw b (p_world (pstep (S m) P e)) /\ (forall t, In t (p_tasks (pstep (S m) P e)) -> rest t /\ sturdy b (m - opens (pstep (S m) P e)) t)).
  2:{ destruct K as (K1 & K2). split; auto; intros t J; apply K2, J. }
  clear OM'. destruct P as [w ts g].
  assert (Old : forall q, (opens (mkPool w ts g) <= q)%nat -> forall t, In t ts -> rest t /\ sturdy b (m - q) t).
  { intros q L t J. split; [apply OR, J|]. eapply sturdy_less; [|apply OO, J]. lia. }
  assert (Run : forall i t w0 w' t' k0 m0, calmw b w0 -> sturdy b k0 m0 -> advance m0 w0 = (t, w', t') -> (m - List.length (w_conns w') <= k0)%nat ->
    (opens (mkPool w ts g) <= List.length (w_conns w'))%nat ->
    calmw b w' /\ forall x, In x (lset i t' ts) -> rest x /\ sturdy b (m - List.length (w_conns w')) x).
  { intros i t w0 w' t' k0 m0 C0 S0 A LE L. destruct (advance_sturdy b _ _ _ _ _ _ S0 C0 A) as (S1 & S2). split; [exact S2|].
    intros x J. apply in_lset in J. destruct J as [->|J]; [|eapply Old; [exact L|exact J]]. split; [eapply advance_rest, A|].
    eapply sturdy_less; [|exact S1]. exact LE. }
  cbn [p_world p_tasks] in OC, OO, OR. unfold P_Moves.all_made in OM. cbn [p_tasks] in OM.
  destruct e as [c|i k clk|i|c|c code x|]; [cbn [pstep p_world p_tasks p_log] in *..|].
  - destruct (advance (tperform (S m) c) w) as [[t w'] t'] eqn:A.
    destruct (advance_sturdy b _ m _ _ _ _ (st_perform b m c (LC c eq_refl)) OC A) as (S1 & S2). cbn [p_world p_tasks p_log] in *.
    split; [exact S2|]. intros t0 J. apply in_app_or in J. destruct J as [J|[<-|[]]]; [eapply Old; [exact G|exact J]|].
    split; [eapply advance_rest, A|]. eapply sturdy_less; [|exact S1]. lia.
  - destruct (nth_error ts i) as [[| | |e f|f x]|] eqn:N; try (split; [exact OC|apply Old; exact G]).
    2: { destruct k; try (split; [exact OC|apply Old; exact G]). pose proof (nth_error_In _ _ N) as J0.
      destruct (advance x (set_clock clk w)) as [[t w'] t'] eqn:A. cbn [p_world p_tasks p_log] in *.
      eapply (Run i _ _ _ _ (m - List.length (w_conns w))%nat); [|exact (proj2 (proj2 (OO _ J0)))|exact A| |exact G]; [eapply calm_cm; [|exact OC]; reflexivity|]. unfold opens in G. cbn [p_world] in G. lia. }
    destruct (fits e k) eqn:F; [|split; [exact OC|apply Old; exact G]]. pose proof (nth_error_In _ _ N) as J0.
    destruct (advance (f k) (set_clock clk (opened_by e k w))) as [[t w'] t'] eqn:A. cbn [p_world p_tasks p_log] in *.
    assert (C1 : calmw b (set_clock clk (opened_by e k w))) by (eapply calm_cm; [|exact OC]; destruct e; try reflexivity; destruct k; reflexivity).
    assert (MA : P_Moves.made (f k)) by exact (proj2 (OM _ J0) k).
    destruct (P_Moves.advance_made _ P_Moves.goes_keeps _ _ _ _ _ MA A) as ((L2 & _) & _).
    pose proof (OO _ J0) as S0. cbn [sturdy] in S0. specialize (S0 k F). unfold opens in *. cbn [p_world] in *.
    assert (D : (exists ip port ms, e = Open ip port ms /\ k = KDone) \/ sturdy b (m - List.length (w_conns w)) (f k)).
    { destruct e; try (right; destruct k; exact S0). destruct k; try (right; exact S0). left. eauto. }
    destruct D as [(ip & port & ms & -> & ->)|D].
    + cbn [set_clock opened_by set_conns w_conns] in L2. rewrite app_length in L2. cbn [List.length] in L2.
      destruct (m - List.length (w_conns w))%nat as [|q] eqn:Q; [lia|].
      eapply (Run i _ _ _ _ q); [exact C1|exact S0|exact A|lia|exact G].
    + eapply (Run i _ _ _ _ (m - List.length (w_conns w))%nat); [exact C1|exact D|exact A|lia|exact G].
  - destruct (nth_error ts i) as [[| | | |f x]|] eqn:N; try (split; [exact OC|apply Old; exact G]). pose proof (nth_error_In _ _ N) as J0.
    destruct (advance (Lock f x) w) as [[t w'] t'] eqn:A. cbn [p_world p_tasks p_log] in *.
    eapply (Run i _ _ _ _ (m - List.length (w_conns w))%nat); [exact OC|exact (OO _ J0)|exact A| |exact G]. unfold opens in G. cbn [p_world] in G. lia.
  - pose proof (lose_cm c w) as CM. destruct (lose c w) as [t w']. cbn [p_world p_tasks snd] in *. split; [eapply calm_cm; eassumption|]. apply Old. exact G.
  - destruct (handler_of c code w) as [[h|h]|]; try (split; [exact OC|apply Old; exact G]).
  - revert G. destruct (pstep_handle (S m) w ts g) as [->|(c0 & code0 & b0 & l0 & cbs & _ & _ & ->)]; intros G; cbn [p_world p_tasks]; (split; [exact OC|]);
    intros t J; (split; [apply OR, J|]); (eapply sturdy_less; [|apply OO, J]); apply Nat.sub_le_mono_l; exact G.
Qed.

(** * every step leads to a smaller task *)
Inductive child : task unit -> task unit -> Prop :=
| ch_look f w : child (f w) (Look f)
| ch_do f m : child m (Do f m)
| ch_wait e f r : child (f r) (Wait e f)
| ch_lock m x : child m (Lock m x)
| ch_abort m x : child x (Lock m x).
Definition below := Relation_Operators.clos_trans (task unit) child.
Lemma below_wf t : Acc below t.
Proof.
  apply Acc_clos_trans. induction t as [o|f IH|f m IH|e f IH|m IH xx IHx]; constructor; intros y C; inversion C; subst; auto.
Qed.
Lemma below_step a b c : below a b -> child b c -> below a c.
Proof. intros A B. eapply Relation_Operators.t_trans; [exact A|]. apply Relation_Operators.t_step. exact B. Qed.
Lemma advance_below (m : task unit) : forall w t w' m', advance m w = (t, w', m') -> m' = m \/ below m' m.
Proof.
  assert (W : forall a b c, a = b \/ below a b -> child b c -> below a c).
  { intros a b c [->|A] C; [apply Relation_Operators.t_step; exact C|eapply below_step; eassumption]. }
  induction m as [o|f IH|f m IH|e f IH|m IH xx IHx]; intros w t w' m' A; cbn [advance] in *.
  - injection A as _ _ <-. auto.
  - right. eapply W; [eapply IH, A|constructor].
  - destruct (f w) as [t1 w1]. destruct (advance m w1) as [[t2 w2] m2] eqn:A2. injection A as _ _ <-. right. eapply W; [eapply IH, A2|constructor].
  - injection A as _ _ <-. auto.
  - destruct (m_locked (w_cm w)); [injection A as _ _ <-; auto|]. right. eapply W; [eapply IH, A|constructor].
Qed.
Definition lower (l' l : list (task unit)) : Prop := exists i m m', nth_error l i = Some m /\ l' = lset i m' l /\ below m' m.
Lemma lower_wf : forall l, Acc lower l.
Proof.
  assert (N : Acc lower []) by (constructor; intros l' (i & m & m' & E & _); destruct i; discriminate E).
  induction l as [|a l IH]; [exact N|]. revert l IH. induction (below_wf a) as [a _ IHa]. intros l IH. induction IH as [l Al IHl].
  constructor. intros l' (i & m & m' & E & -> & B). destruct i as [|i]; cbn [nth_error lset] in *.
  - injection E as ->. apply IHa; [exact B|]. constructor. exact Al.
  - apply IHl. exists i, m, m'. auto.
Qed.
Lemma step_lower n P e : (forall c, e <> Call c) -> p_tasks (pstep n P e) = p_tasks P \/ lower (p_tasks (pstep n P e)) (p_tasks P).
Proof.
  intros NC. destruct P as [w ts g]. destruct e as [c|i k clk|i|c|c code z|]; [cbn [pstep p_world p_tasks p_log]..|].
  - destruct (NC c eq_refl).
  - destruct (nth_error ts i) as [[| | |e f|f y]|] eqn:N; try (left; reflexivity).
    + destruct (fits e k); [|left; reflexivity].
      destruct (advance _ _) as [[t w'] t'] eqn:A. right. exists i, (Wait e f), t'. split; [exact N|]. split; [reflexivity|].
      destruct (advance_below _ _ _ _ _ A) as [->|B]; [apply Relation_Operators.t_step; constructor|eapply below_step; [exact B|constructor]].
    + destruct k; try (left; reflexivity). destruct (advance _ _) as [[t w'] t'] eqn:A. right. exists i, (Lock f y), t'. split; [exact N|]. split; [reflexivity|].
      destruct (advance_below _ _ _ _ _ A) as [->|B]; [apply Relation_Operators.t_step; apply ch_abort|eapply below_step; [exact B|apply ch_abort]].
  - destruct (nth_error ts i) as [[| | | |f x]|] eqn:N; try (left; reflexivity).
    destruct (advance _ _) as [[t w'] t'] eqn:A. destruct (advance_below _ _ _ _ _ A) as [->|B].
    + left. cbn [p_tasks]. revert N. clear. revert i. induction ts as [|t0 ts IH]; intros [|i] N; cbn in *; try discriminate; [congruence|]. f_equal. auto.
    + right. exists i, (Lock f x), t'. auto.
  - left. destruct (lose c w). reflexivity.
  - left. destruct (handler_of c code w) as [[h|h]|]; reflexivity.
  - left. destruct (pstep_handle n w ts g) as [->|(c0 & code0 & b0 & l0 & cbs & _ & _ & ->)]; reflexivity.
Qed.
Lemma resume_lower n P i r clk e f : nth_error (p_tasks P) i = Some (Wait e f) -> fits e r = true -> lower (p_tasks (pstep n P (Resume i r clk))) (p_tasks P).
Proof.
  destruct P as [w ts g]. cbn [pstep p_world p_tasks p_log]. intros N F. rewrite N, F. destruct (advance _ _) as [[t w'] t'] eqn:A.
  exists i, (Wait e f), t'. split; [exact N|]. split; [reflexivity|].
  destruct (advance_below _ _ _ _ _ A) as [->|B]; [apply Relation_Operators.t_step; constructor|eapply below_step; [exact B|constructor]].
Qed.
Lemma abort_lower n P i clk f x : nth_error (p_tasks P) i = Some (Lock f x) -> lower (p_tasks (pstep n P (Resume i KCancelTask clk))) (p_tasks P).
Proof.
  destruct P as [w ts g]. cbn [pstep p_world p_tasks p_log]. intros N. rewrite N. destruct (advance _ _) as [[t w'] t'] eqn:A.
  exists i, (Lock f x), t'. split; [exact N|]. split; [reflexivity|].
  destruct (advance_below _ _ _ _ _ A) as [->|B]; [apply Relation_Operators.t_step; apply ch_abort|eapply below_step; [exact B|apply ch_abort]].
Qed.
Lemma enter_lower n P i f x : nth_error (p_tasks P) i = Some (Lock f x) -> ~ held P -> lower (p_tasks (pstep n P (Enter i))) (p_tasks P).
Proof.
  destruct P as [w ts g]. unfold held. cbn [pstep p_world p_tasks p_log]. intros N F. rewrite N. cbn [advance]. destruct (m_locked (w_cm w)); [destruct (F eq_refl)|].
  destruct (advance _ _) as [[t w'] t'] eqn:A.
  exists i, (Lock f x), t'. split; [exact N|]. split; [reflexivity|].
  destruct (advance_below _ _ _ _ _ A) as [->|B]; [apply Relation_Operators.t_step; constructor|eapply below_step; [exact B|constructor]].
Qed.
(** nothing moves while every call is over or waits for a lock that is held *)
Definition still (t : task unit) : Prop := match t with Done _ | Lock _ _ => True | _ => False end.
Lemma still_step n P e : (forall c, e <> Call c) -> (forall i clk m x, e = Resume i KCancelTask clk -> nth_error (p_tasks P) i <> Some (Lock m x)) -> (forall t, In t (p_tasks P) -> still t) -> held P \/ (forall t, In t (p_tasks P) -> ~ queued t) ->
  p_tasks (pstep n P e) = p_tasks P /\ m_locked (w_cm (p_world (pstep n P e))) = m_locked (w_cm (p_world P)).
Proof.
  intros NC NX ST HD. destruct P as [w ts g]. destruct e as [c|i k clk|i|c|c code x|]; [cbn [pstep p_world p_tasks p_log] in *..|].
  - destruct (NC c eq_refl).
  - destruct (nth_error ts i) as [[| | |e f|f x]|] eqn:N; try (split; reflexivity); [destruct (ST _ (nth_error_In _ _ N))|].
    destruct k; try (split; reflexivity). destruct (NX i clk f x eq_refl N).
  - destruct (nth_error ts i) as [[| | | |f x]|] eqn:N; try (split; reflexivity). destruct HD as [HD|HD].
    + unfold held in HD. cbn [advance p_world] in *. rewrite HD. cbn [p_tasks p_world]. split; [|exact HD].
      revert N. clear. revert i. induction ts as [|t0 ts IH]; intros [|i] N; cbn in *; try discriminate; [congruence|]. f_equal. auto.
    + destruct (HD _ (nth_error_In _ _ N)). eexists. eexists. reflexivity.
  - pose proof (lose_cm c w) as CM. destruct (lose c w). cbn [snd p_tasks p_world] in *. rewrite CM. split; reflexivity.
  - destruct (handler_of c code w) as [[h|h]|]; split; reflexivity.
  - destruct (pstep_handle n w ts g) as [->|(c0 & code0 & b0 & l0 & cbs & _ & _ & ->)]; split; reflexivity.
Qed.

Section Forever.
  Variables (n : nat) (P : pool) (E : nat -> event).
  Hypothesis NC : forall k c, E k <> Call c.
  Hypothesis WE : waits_end n P E.
  Hypothesis LF : lock_fair n P E.
  Variable K0 : nat.
  Hypothesis CE : forall k i clk, (K0 <= k)%nat -> E k = Resume i KCancelTask clk -> forall m x, nth_error (p_tasks (later n P E k)) i <> Some (Lock m x).
  Let at_ k := later n P E k.
  Hypothesis RE : forall k t, In t (p_tasks (at_ k)) -> rest t.

  (** from [k] to [j]: the tasks are the same or went down on the way *)
  Lemma between k d : p_tasks (at_ (d + k)) = p_tasks (at_ k) \/ exists d', (d' <= d)%nat /\ lower (p_tasks (at_ (d' + k))) (p_tasks (at_ k)).
  Proof.
    induction d as [|d IH]; [left; reflexivity|]. destruct IH as [T|(d' & L & D)]; [|right; exists d'; split; [lia|exact D]].
    change (at_ (S d + k)) with (pstep n (at_ (d + k)) (E (d + k)%nat)).
    destruct (step_lower n (at_ (d + k)) (E (d + k)%nat)) as [S'|D]; [intros c; apply NC|left; congruence|].
    right. exists (Datatypes.S d). split; [lia|]. rewrite T in D. exact D.
  Qed.
  Lemma some_wait (l : list (task unit)) : (forall t, In t l -> rest t) -> (exists i e f, nth_error l i = Some (Wait e f)) \/ (forall t, In t l -> still t).
  Proof.
    induction l as [|x l IH]; intros R; [right; intros t []|]. destruct x as [o|f|f m|e f|m x]; try destruct (R _ (or_introl eq_refl)).
    - destruct IH as [(i & e & f & N)|S]; [intros; apply R; right; auto|left; exists (Datatypes.S i), e, f; exact N|right; intros t [<-|J]; [exact Logic.I|auto]].
    - left. exists O, e, f. reflexivity.
    - destruct IH as [(i & e & f & N)|S]; [intros; apply R; right; auto|left; exists (Datatypes.S i), e, f; exact N|right; intros t [<-|J]; [exact Logic.I|auto]].
  Qed.
  Lemma some_lock (l : list (task unit)) : (exists i m x, nth_error l i = Some (Lock m x)) \/ (forall t, In t l -> ~ queued t).
  Proof.
    induction l as [|x l IH]; [right; intros t []|]. destruct IH as [(i & m & y & N)|S]; [left; exists (Datatypes.S i), m, y; exact N|].
    destruct x as [o|f|f m|e f|m y]; try (right; intros t [<-|J]; [intros (q & y & Q); discriminate Q|auto]). left. exists O, m, y. reflexivity.
  Qed.
  Definition calm_end (Q : pool) : Prop := (forall t, In t (p_tasks Q) -> still t) /\ (held Q \/ (forall t, In t (p_tasks Q) -> ~ queued t)).
  Lemma calm_forever k : (K0 <= k)%nat -> calm_end (at_ k) -> forall d, calm_end (at_ (d + k)).
  Proof.
    intros LK C d. induction d as [|d IH]; [exact C|]. change (at_ (S d + k)) with (pstep n (at_ (d + k)) (E (d + k)%nat)).
    destruct IH as (S & H). destruct (still_step n (at_ (d + k)) (E (d + k)%nat)) as (A & B); [intros c; apply NC|intros i clk m x EK; apply (CE (d + k)%nat i clk ltac:(lia) EK)|exact S|exact H|].
    unfold calm_end, held. rewrite A, B. auto.
  Qed.
  Lemma come_to_rest : forall l, Acc lower l -> forall k, (K0 <= k)%nat -> p_tasks (at_ k) = l -> exists K, (K0 <= K)%nat /\ calm_end (at_ K).
  Proof.
    induction 1 as [l _ IH]. intros k LK EL.
    assert (Down : forall j, (k <= j)%nat -> lower (p_tasks (at_ j)) (p_tasks (at_ k)) -> exists K, (K0 <= K)%nat /\ calm_end (at_ K)).
    { intros j LJ D. apply (IH (p_tasks (at_ j))) with (k := j); [rewrite <- EL; exact D|lia|reflexivity]. }
    assert (Upto : forall j, (k <= j)%nat -> p_tasks (at_ j) = p_tasks (at_ k) \/ exists K, (K0 <= K)%nat /\ calm_end (at_ K)).
    { intros j L. destruct (between k (j - k)) as [S|(d' & _ & D)]; [|right; apply (Down (d' + k)%nat); [lia|exact D]].
      left. replace j with (j - k + k)%nat by lia. exact S. }
    destruct (some_wait (p_tasks (at_ k)) (RE k)) as [(i & e & f & N)|S].
    - destruct (WE k i e f N) as (j & r & clk & L & EJ & F). destruct (Upto j L) as [S|D]; [|exact D].
      apply (Down (Datatypes.S j)); [lia|]. rewrite <- S. change (at_ (Datatypes.S j)) with (pstep n (at_ j) (E j)). rewrite EJ. eapply resume_lower; [rewrite S; exact N|exact F].
    - destruct (some_lock (p_tasks (at_ k))) as [(i & m & x & N)|Q]; [|exists k; split; [exact LK|split; auto]].
      destruct (LF k i m x N) as (j & L & HJ). destruct (Upto j L) as [SJ|D]; [|exact D].
      destruct (m_locked (w_cm (p_world (at_ j)))) eqn:LJ.
      + exists j. split; [lia|]. split; [rewrite SJ; exact S|left; exact LJ].
      + destruct HJ as [HJ|[HJ|(clk & HJ)]]; [unfold held in HJ; fold (at_ j) in HJ; congruence| |].
        2: { apply (Down (Datatypes.S j)); [lia|]. rewrite <- SJ. change (at_ (Datatypes.S j)) with (pstep n (at_ j) (E j)). rewrite HJ. eapply abort_lower. rewrite SJ. exact N. }
        apply (Down (Datatypes.S j)); [lia|]. rewrite <- SJ. change (at_ (Datatypes.S j)) with (pstep n (at_ j) (E j)). rewrite HJ. eapply enter_lower; [rewrite SJ; exact N|].
        unfold held. rewrite LJ. discriminate.
  Qed.
  Lemma rest_at_last : exists K, forall k, (K <= k)%nat -> calm_end (at_ k).
  Proof.
    destruct (come_to_rest _ (lower_wf _) K0 (Nat.le_refl _) eq_refl) as (K & LK & C). exists K. intros k L. replace k with (k - K + K)%nat by lia. apply calm_forever; [exact LK|exact C].
  Qed.
End Forever.
