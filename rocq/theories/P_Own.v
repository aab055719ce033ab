(** The user's own handler of a message code stays where he put it as long as nobody subscribes (C129).
    The logic is that of P_Hand.v, for another invariant. *)
From Verif Require Import Py F64 Struct Utf Utility Const Spec Enum Decode Messages Calls World Request Gateway Api Tasks Pool SpecPool.
From Verif Require Import P_Base P_Gw1.
From Verif Require P_Moves P_Gw11 P_Tune.
From Verif Require Import P_Hand.
Open Scope t_scope.

Section Code.
Variable x : Z.   (* the code *)
(** nobody is subscribed *)
Definition V (w : world) : Prop := m_listeners (w_cm w) = [] /\ m_is_client (w_cm w) = false.
(** the user's handler [u] is in place *)
Definition has (c u : nat) (w : world) : Prop := (c < List.length (w_conns w))%nat /\ find_h x (c_handlers (get_conn c w)) = Some (x, HUser u).
Definition keeps (f : world -> world) : Prop := forall c u w, has c u w -> has c u (f w).

(** every change [m] makes keeps the handlers, however the world changes while it waits, as long as nobody subscribes *)
Fixpoint wpc {A} (m : task A) (Q : out A -> world -> Prop) (w : world) : Prop :=
  match m with
  | Done o => Q o w
  | Look k => wpc (k w) Q w
  | Do f k => keeps (fun w => snd (f w)) /\ wpc k Q (snd (f w))
  | Wait e k => V w /\ forall r w', V w' -> wpc (k r) Q w'
  | Lock k y => V w /\ (forall w', V w' -> wpc k Q (put_cm (cmset_locked true) w')) /\ (forall w', V w' -> wpc y Q w')
  end.
Definition VQ {A} (o : out A) (w : world) : Prop := V w.
Definition kp {A} (m : task A) : Prop := forall w, V w -> wpc m VQ w.

Lemma wpc_mono {A} (m : task A) : forall (Q Q' : out A -> world -> Prop) w, (forall o w, Q o w -> Q' o w) -> wpc m Q w -> wpc m Q' w.
Proof.
  induction m as [o|k IH|f k IH|e k IH|k IH y IHy]; intros Q Q' w H S; cbn [wpc] in *; eauto.
  - destruct S as (S0 & S). eauto.
  - destruct S as (S1 & S2). split; [exact S1|]. intros. eapply IH; eauto.
  - destruct S as (S1 & S2 & S3). split; [exact S1|]. split; intros; [eapply IH|eapply IHy]; eauto.
Qed.
Lemma wpc_bind {A B} (m : task A) (f : A -> task B) : forall (Q : out B -> world -> Prop) w,
  wpc m (fun o w => match o with Val a => wpc (f a) Q w | Exc e => Q (Exc e) w | Stuck y => Q (Stuck y) w end) w -> wpc (tbind m f) Q w.
Proof.
  induction m as [[a|e|y]|k IH|g k IH|e k IH|k IH y IHy]; intros Q w S; cbn [wpc tbind] in *; auto.
  - destruct S as (S0 & S). auto.
  - destruct S as (S1 & S2). auto.
  - destruct S as (S1 & S2 & S3). auto.
Qed.
Lemma wpc_catch {A} (m : task A) (p : exn -> bool) (h : exn -> task A) : forall (Q : out A -> world -> Prop) w,
  wpc m (fun o w => match o with Exc e => if p e then wpc (h e) Q w else Q (Exc e) w | _ => Q o w end) w -> wpc (tcatch m p h) Q w.
Proof.
  induction m as [[a|e|y]|k IH|g k IH|e k IH|k IH y IHy]; intros Q w S; cbn [wpc tcatch] in *; auto.
  - destruct (p e); exact S.
  - destruct S as (S0 & S). auto.
  - destruct S as (S1 & S2). auto.
  - destruct S as (S1 & S2 & S3). auto.
Qed.
Lemma wpc_finally {A} (m : task A) (f : world -> world) : keeps f -> forall (Q : out A -> world -> Prop) w,
  wpc m (fun o w => match o with Stuck _ => Q o w | _ => Q o (f w) end) w -> wpc (tfinally m f) Q w.
Proof.
  intros Kf. induction m as [[a|e|y]|k IH|g k IH|e k IH|k IH y IHy]; intros Q w S; cbn [wpc tfinally fst snd] in *; auto.
  - destruct S as (S0 & S). auto.
  - destruct S as (S1 & S2). auto.
  - destruct S as (S1 & S2 & S3). auto.
Qed.
Lemma kp_bind {A B} (m : task A) (f : A -> task B) : kp m -> (forall a, kp (f a)) -> kp (tbind m f).
Proof. intros M F w H. apply wpc_bind. eapply wpc_mono; [|apply M, H]. intros [a|e|y] w' H'; [apply F, H'|exact H'|exact H']. Qed.
Lemma kp_catch {A} (m : task A) p (h : exn -> task A) : kp m -> (forall e, kp (h e)) -> kp (tcatch m p h).
Proof. intros M F w H. apply wpc_catch. eapply wpc_mono; [|apply M, H]. intros [a|e|y] w' H'; try exact H'. destruct (p e); [apply F, H'|exact H']. Qed.

(** ** single changes *)
Definition still (f : world -> world) : Prop := (forall w, V w -> V (f w)) /\ keeps f.
Lemma st_same f : (forall w, w_conns (f w) = w_conns w) -> (forall w, m_is_client (w_cm w) = false -> m_is_client (w_cm (f w)) = false) -> (forall w, m_listeners (w_cm (f w)) = m_listeners (w_cm w)) -> still f.
Proof. intros E1 E2 E3. split; [intros w (A & B); split; [rewrite E3; exact A|apply E2, B]|]. intros c u w. unfold has, get_conn. rewrite E1. auto. Qed.
Lemma st_conn c f : (forall k, find_h x (c_handlers (f k)) = find_h x (c_handlers k)) -> still (upd_conn c f).
Proof.
  intros F. split; [intros w H; exact H|]. intros c0 u w (H1 & H2).
  split; [cbn [upd_conn set_conns w_conns]; rewrite P_Moves.lset_len; exact H1|]. rewrite get_upd.
  destruct (Nat.eqb_spec c0 c) as [->|N]; cbn [andb]; [|exact H2]. destruct (c <? _)%nat; [|exact H2]. rewrite F. exact H2.
Qed.
Ltac same := apply st_same; intros; try reflexivity; assumption.
Lemma s_data d : still (set_data d). Proof. same. Qed.
Lemma s_last d : still (set_last d). Proof. same. Qed.
Lemma s_clock d : still (set_clock d). Proof. same. Qed.
Lemma s_retries d : still (set_retries d). Proof. same. Qed.
Lemma s_args a : still (store_args a). Proof. destruct a. same. Qed.
Lemma s_connection c mac : still (store_connection c mac). Proof. same. Qed.
Lemma s_client : still (put_cm (cmset_client false)). Proof. same. Qed.
Lemma s_locked b : still (put_cm (cmset_locked b)). Proof. same. Qed.
Lemma s_pumps : still pumps_entry. Proof. apply st_same; intros w; unfold pumps_entry; destruct (din _ _); auto. Qed.
Lemma s_pump i b : still (store_pump i b). Proof. apply st_same; intros w; unfold store_pump; destruct (dget K_PUMPS (w_last w)) as [[]|]; auto. Qed.
Lemma s_keepalive b c : still (keepalive b c). Proof. apply st_conn. reflexivity. Qed.
Lemma s_closing c : still (mark_closing c). Proof. apply st_conn. reflexivity. Qed.
Lemma s_shut c : still (mark_shut c). Proof. apply st_conn. reflexivity. Qed.
Lemma s_lose c : still (fun w => snd (lose c w)).
Proof.
  split.
  - intros w H. unfold lose. destruct (connected c w); exact H.
  - intros c0 u w H. unfold lose. destruct (connected c w); [|exact H]. cbn [snd]. revert H. apply st_conn. reflexivity.
Qed.
Lemma s_register_other c y h : y <> x -> still (register c y h).
Proof. intros N. apply st_conn. intros k. cbn [c_handlers]. apply find_other. congruence. Qed.
Lemma s_unregister_other c y : y <> x -> still (unregister c y).
Proof. intros N. apply st_conn. intros k. cbn [c_handlers]. apply find_filter. congruence. Qed.

(** ** the calls *)
Lemma kp_done {A} (o : out A) : kp (Done o). Proof. intros w H. exact H. Qed.
Lemma kp_get {A B} (f : world -> A) (m : A -> task B) : (forall a, kp (m a)) -> kp (tbind (tget f) m).
Proof. intros H w. apply H. Qed.
Lemma kp_look {A} (f : world -> task A) : (forall w, kp (f w)) -> kp (Look f).
Proof. intros H w. cbn [wpc]. apply H. Qed.
Lemma kp_lift {A B} (r : res A) (m : A -> task B) : (forall a, kp (m a)) -> kp (tbind (tlift r) m).
Proof. intros H. destruct r; [apply H|apply kp_done]. Qed.
Lemma kp_lift1 {A} (r : res A) : kp (tlift r). Proof. destruct r; apply kp_done. Qed.
Lemma kp_do f : still f -> kp (tdo f).
Proof. intros (F & Kf) w H. cbn [tdo tret wpc fst snd]. split; [exact Kf|]. apply F, H. Qed.
Lemma kp_emit e : kp (temit e). Proof. intros w H. cbn [temit tret wpc fst snd]. split; [intros c u w0 H0; exact H0|exact H]. Qed.
Lemma kp_wait {A} e (k : kind -> task A) : (forall r, kp (k r)) -> kp (Wait e k).
Proof. intros K w H. split; [exact H|]. intros. apply K. assumption. Qed.
Lemma kp_lock {A} (m : task A) : kp m -> kp (twith_lock m).
Proof.
  intros M w H. split; [exact H|]. split; [|intros w' H'; exact H']. intros w' H'. apply wpc_finally; [apply s_locked|]. eapply wpc_mono; [|apply M, (proj1 (s_locked true)), H'].
  intros [a|e|y] w0 H0; [apply (proj1 (s_locked false)), H0|apply (proj1 (s_locked false)), H0|exact H0].
Qed.
Lemma kp_if {A} (b : bool) (m1 m2 : task A) : kp m1 -> kp m2 -> kp (if b then m1 else m2). Proof. destruct b; auto. Qed.
Lemma kp_decode m : kp (tdecode m).
Proof. apply kp_look. intros w w0 H. destruct (m (w_data w)) as [d [r|e]]; cbn [wpc tret traise fst snd]; (split; [apply s_data|apply (proj1 (s_data d)), H]). Qed.
Lemma kp_sleep ms : kp (tsleep ms).
Proof. apply kp_wait. intros r. destruct r; apply kp_done. Qed.
Ltac kd := first [apply kp_done | apply kp_lift1 | apply kp_emit | apply kp_decode | apply kp_sleep].
Lemma kp_loop X p c : forall left attempt mr, kp (trequest_loop left attempt mr c X p).
Proof.
  induction left as [|left IH]; intros attempt mr; cbn [trequest_loop]; [kd|].
  assert (F : forall e, kp (if attempt =? mr then traise e else tsleep (1000 * (COM_RETRY_WAIT * (attempt + 1))) ;;; trequest_loop left (attempt + 1) mr c X p)).
  { intros e. destruct (attempt =? mr); [kd|]. apply kp_bind; [kd|]. intros _. apply IH. }
  assert (C : kp (ok <- tget (connected c) ;; if ok then tret (@None bytes) else traise ESLConnection)).
  { apply kp_get. intros a. destruct a; kd. }
  apply kp_get. intros ok. destruct ok; cbn [negb]; [|kd]. apply kp_get. intros q. destruct (c_closing q); [exact C|].
  apply kp_bind.
  - apply kp_get. intros q'. destruct (c_open q'); [|kd]. apply kp_lift. intros _. kd.
  - intros _. apply kp_wait. intros r. destruct r; cbn [tret tbind]; try exact C; try apply F;
      repeat (first [apply F | kd | match goal with |- context [if ?x then _ else _] => destruct x end]).
Qed.
Lemma kp_request X p c mr : kp (tmake_request c X p mr). Proof. apply kp_loop. Qed.
Lemma kp_data X p dec mr c : kp (tdata_request X p dec mr c).
Proof. apply kp_bind; [apply kp_request|]. intros r. destruct (nonempty r); [|kd]. apply kp_bind; [kd|intros _; kd]. Qed.
Lemma kp_version mr c : kp (trequest_gateway_version mr c). Proof. apply kp_get. intros fl. apply kp_data. Qed.
Lemma kp_pumpst i mr c : kp (trequest_pump_status i mr c). Proof. apply kp_lift. intros p. apply kp_data. Qed.
Lemma kp_date mr c : kp (trequest_date_time mr c).
Proof.
  apply kp_bind; [apply kp_request|]. intros r. destruct (nonempty r); [|kd]. apply kp_get. intros now. apply kp_bind; [kd|intros _; kd].
Qed.
Lemma kp_command_request X p mr c : kp (tcommand_request X p mr c).
Proof. apply kp_lift. intros q. apply kp_bind; [apply kp_request|]. intros [[|]|]; kd. Qed.
Lemma kp_challenge c mr : kp (tgateway_connect c mr).
Proof.
  apply kp_get. intros q. apply kp_bind; [destruct (c_open q); kd|]. intros _. apply kp_bind; [kd|]. intros _.
  apply kp_get. intros ok. destruct ok; cbn [negb]; [|kd]. apply kp_bind; [apply kp_request|]. intros [y|]; kd.
Qed.
Lemma kp_login c mr : kp (tgateway_login c mr).
Proof. apply kp_lift. intros m. apply kp_bind; [apply kp_request|]. intros; kd. Qed.
Lemma kp_m_proto : kp tm_proto_or_fail. Proof. apply kp_get. intros [c|]; kd. Qed.
Lemma kp_proto : kp tproto_or_fail. Proof. apply kp_get. intros [c|]; kd. Qed.
Lemma kp_close c force : kp (tasync_close c force).
Proof.
  apply kp_bind; [apply kp_do, s_closing|]. intros _. apply kp_wait. intros r.
  assert (K : kp (q <- tget (get_conn c) ;;
      (if c_open q then temit (CloseTransport c) ;;; tdo (mark_shut c) else tret tt) ;;;
      still <- tget (connected c) ;;
      if negb still then tret tt
      else
        r2 <- twait (AwaitClosed c) ;;
        match r2 with
        | KDone => Do (lose c) (tret tt)
        | KCancelTask => traise ECancelled
        | _ => tstuck Unfit
        end)).
  { apply kp_get. intros q. apply kp_bind.
    - destruct (c_open q); [|kd]. apply kp_bind; [kd|]. intros _. apply kp_do, s_shut.
    - intros _. apply kp_get. intros st. destruct st; cbn [negb]; [|kd]. apply kp_wait. intros r2. destruct r2; try kd.
      intros w H. cbn [wpc tret]. split; [apply s_lose|]. exact (proj1 (s_lose c) w H). }
  destruct r; try exact K; kd.
Qed.


(** nobody is subscribed: the client is never signed off *)
Lemma kp_unsubscribe : kp tunsubscribe_gateway.
Proof.
  apply kp_get. intros a. apply kp_if; [kd|]. apply kp_lock. intros w H. cbn [tget tbind wpc]. destruct H as (A & B). rewrite B. split; [exact A|exact B].
Qed.
Lemma kp_disconnect force : kp (tasync_disconnect force).
Proof.
  apply kp_get. intros b. apply kp_bind; [apply kp_if; [apply kp_unsubscribe|kd]|]. intros _. apply kp_bind; [apply kp_proto|]. intros c. apply kp_close.
Qed.
Lemma kp_attempt {A} connect (method : Z -> nat -> task A) mr : kp connect -> (forall mr c, kp (method mr c)) -> kp (tattempt_request connect method mr).
Proof. intros C M. apply kp_bind; [exact C|]. intros ok. apply kp_if; [kd|]. apply kp_bind; [apply kp_proto|]. intros c. apply M. Qed.
Lemma kp_connected {A} connect (method : Z -> nat -> task A) d : kp connect -> (forall mr c, kp (method mr c)) -> kp (tconnected_request connect method d).
Proof.
  intros C M. apply kp_get. intros mr. apply kp_catch; [apply kp_attempt; assumption|]. intros _.
  apply kp_bind; [apply kp_disconnect|]. intros _. apply kp_bind; [kd|]. intros _. apply kp_attempt; assumption.
Qed.
Lemma kp_attach connect c mr : kp (tattach connect c mr).
Proof.
  intros w (A & B). unfold tattach. cbn [tdo tbind tget tret wpc fst snd]. split; [intros c0 u w0 H0; exact H0|].
  unfold client_needed. cbn [put_cm set_cm w_cm cmset_client cmset_retries cmset_proto m_listeners]. rewrite A. cbn [wpc tret]. split; [exact A|reflexivity].
Qed.
Lemma kp_poll connect key_ m : kp connect -> (forall mr c, kp (m mr c)) -> kp (tpoll connect key_ m).
Proof. intros C M. apply kp_bind; [apply kp_connected; assumption|]. intros [b|]; [|kd]. apply kp_do; same. Qed.
Lemma kp_create ip port : kp (tcreate_connection ip port).
Proof. apply kp_wait. intros r. destruct r; try kd. apply kp_look. intros w. kd. Qed.
Lemma kp_to_gateway ip port mr : kp (tconnect_to_gateway ip port mr).
Proof.
  apply kp_bind; [apply kp_create|]. intros c. apply kp_bind; [apply kp_challenge|]. intros mac. apply kp_bind; [apply kp_login|]. intros ok. kd.
Qed.
Lemma kp_connect : forall n a, kp (tasync_connect n a).
Proof.
  induction n as [|n IH]; intros a; [kd|]. cbn [tasync_connect]. apply kp_get. intros up. destruct up; [kd|].
  apply kp_bind; [apply kp_do, s_args|]. intros _. apply kp_get. intros no. destruct no; [kd|].
  do 3 (apply kp_get; intros ?). apply kp_bind; [apply kp_to_gateway|]. intros [[c mac]|]; [|kd].
  apply kp_bind; [apply kp_do, s_connection|]. intros _. apply kp_get. intros mr1.
  apply kp_bind; [apply kp_version|]. intros v. apply kp_bind; [apply kp_do; same|]. intros _.
  apply kp_get. intros d. apply kp_if; [|kd].
  apply kp_bind; [apply kp_poll; [apply IH|intros; apply kp_data]|]. intros _.
  apply kp_bind; [apply kp_proto|]. intros c2. apply kp_get. intros mr2. apply kp_bind; [apply kp_attach|]. intros _. kd.
Qed.
Lemma kp_command {A} n (method : Z -> nat -> task A) d : (forall mr c, kp (method mr c)) -> kp (tcommand n method d).
Proof. intros M. apply kp_connected; [apply kp_connect|exact M]. Qed.
Lemma kp_get_poll n key_ m : (forall mr c, kp (m mr c)) -> kp (tget_poll n key_ m).
Proof. intros M. apply kp_poll; [apply kp_connect|exact M]. Qed.
Lemma kp_setting n X p d : kp (tcommand n (tcommand_request X p) d).
Proof. apply kp_command. intros mr c. apply kp_command_request. Qed.
Lemma kp_pumps n : forall ids, kp (tpumps_loop n ids).
Proof.
  induction ids as [|i ids IH]; cbn [tpumps_loop]; [kd|]. apply kp_get. intros f. apply kp_lift. intros flags.
  apply kp_bind; [|intros _; exact IH]. apply kp_if; [kd|]. apply kp_bind; [apply kp_do, s_pumps|]. intros _.
  apply kp_bind; [apply kp_command; intros; apply kp_pumpst|]. intros [b|]; [|kd]. apply kp_do, s_pump.
Qed.
Lemma kp_require y : kp (trequire y).
Proof. apply kp_lift. intros ok. destruct ok; kd. Qed.
Lemma kp_unsub cb y : kp (tremove_subscription cb y).
Proof.
  intros w H. unfold tremove_subscription. cbn [tget tbind tret wpc]. pose proof H as (A & _). rewrite A. cbn [has_listener existsb negb wpc tret]. exact H.
Qed.
Theorem kp_perform n c : (forall h, c <> RegisterHandler x h) -> c <> RemoveHandler x -> (forall cb y, c <> Subscribe cb y) -> kp (tperform n c).
Proof.
  intros N1 N2 N3. destruct c; cbn [tperform];
    try (apply kp_get_poll; intros; first [apply kp_data|apply kp_date]; fail);
    try (repeat match goal with
         | |- kp (tbind (tget _) _) => apply kp_get; intros ?
         | |- kp (tbind (trequire _) _) => apply kp_bind; [apply kp_require|intros _]
         | |- kp (tbind (tlift _) _) => apply kp_lift; intros ?
         | x : _ * _ |- _ => destruct x
         end; apply kp_setting; fail).
  - apply kp_bind; [apply kp_connect|intros; kd].
  - apply kp_disconnect.
  - apply kp_pumps.
  - unfold tasync_update. apply kp_get. intros d. destruct d; [kd|].
    apply kp_bind; [apply kp_get_poll; intros; apply kp_data|intros _].
    apply kp_bind; [apply kp_pumps|intros _].
    apply kp_bind; [apply kp_get_poll; intros; apply kp_data|intros _].
    apply kp_bind; [apply kp_get_poll; intros; apply kp_data|intros _].
    apply kp_get_poll; intros; apply kp_date.
  - apply kp_if; [|kd]. apply kp_do, s_retries.
  - apply kp_bind; [|intros; kd]. apply kp_command. intros mr c. apply kp_request.
  - apply kp_get. intros [c|]; [|kd]. apply kp_do, s_register_other. intros ->. exact (N1 _ eq_refl).
  - apply kp_get. intros [c|]; [|kd]. apply kp_do, s_unregister_other. intros ->. exact (N2 eq_refl).
  - destruct (N3 _ _ eq_refl).
  - apply kp_unsub.
  - apply kp_unsubscribe.
  - unfold tasync_ping. apply kp_catch; [|intros; kd]. apply kp_bind; [apply kp_m_proto|]. intros c. apply kp_command_request.
Qed.

(** ** along a schedule *)
Lemma advance_kp (m : task unit) : forall w t w' m', wpc m VQ w -> advance m w = (t, w', m') -> V w' /\ kp m' /\ forall c u, has c u w -> has c u w'.
Proof.
  induction m as [o|k IH|f k IH|e k IH|k IH y IHy]; intros w t w' m' S A; cbn [wpc advance] in *.
  - injection A as <- <- <-. split; [exact S|]. split; [apply kp_done|auto].
  - eapply IH in A; eauto.
  - destruct S as (S0 & S). specialize (S0 : forall c u w, has c u w -> has c u (snd (f w))). pose proof (fun c u => S0 c u w) as S1. destruct (f w) as [t1 w1]. cbn [fst snd] in S, S1. destruct (advance k w1) as [[t2 w2] m2] eqn:A2. injection A as <- <- <-.
    destruct (IH _ _ _ _ S A2) as (K1 & K2 & K3). auto.
  - injection A as <- <- <-. destruct S as (S1 & S2). split; [exact S1|]. split; [|auto]. intros w0 H0. split; [exact H0|exact S2].
  - destruct S as (S1 & S2 & S3). destruct (m_locked (w_cm w)).
    + injection A as <- <- <-. split; [exact S1|]. split; [|auto]. intros w0 H0. split; [exact H0|]. split; assumption.
    + eapply IH in A; [exact A|]. apply S2, S1.
Qed.
Definition Hd (P : pool) : Prop := V (p_world P) /\ forall t, In t (p_tasks P) -> kp t.
Definition unsubscribed (e : event) : Prop := match e with Pool.Call (Subscribe _ _) => False | _ => True end.
Definition not_overridden (e : event) : Prop := match e with Pool.Call (RegisterHandler y _) => y <> x | Pool.Call (RemoveHandler y) => y <> x | _ => True end.
Lemma Hd_step n P e : unsubscribed e -> Hd P -> Hd (pstep n P e) /\ (not_overridden e -> forall c u, has c u (p_world P) -> has c u (p_world (pstep n P e))).
Proof.
  intros NS (J & T). destruct P as [w ts g]. cbn [p_world p_tasks p_log] in *.
  assert (Fin : forall w' i t' g', V w' -> kp t' -> Hd (mkPool w' (lset i t' ts) g')).
  { intros w' i t' g' V1 K1. split; [exact V1|]. intros y I. apply P_Tune.in_lset in I. destruct I as [->|I]; [exact K1|exact (T _ I)]. }
  assert (Same : Hd (mkPool w ts g) /\ (not_overridden e -> forall c u, has c u w -> has c u w)) by (split; [split; assumption|auto]).
  assert (New : forall w' ts' g' t', V w' -> kp t' -> ts' = ts ++ [t'] -> Hd (mkPool w' ts' g')).
  { intros w' ts' g' t' V1 K1 ->. split; [exact V1|]. intros y I. apply in_app_or in I. destruct I as [I|[<-|[]]]; [exact (T _ I)|exact K1]. }
  destruct e as [c|i k clk|i|c|c code b|]; [cbn [pstep p_world p_tasks p_log]..|].
  - assert (Free : kp (tperform n c) -> forall t w' t', advance (tperform n c) w = (t, w', t') -> V w' /\ kp t' /\ forall c u, has c u w -> has c u w') by (intros K t w' t' A; exact (advance_kp _ _ _ _ _ (K _ J) A)).
    assert (Own : forall t w' t', advance (tperform n c) w = (t, w', t') -> V w' /\ kp t' /\ (not_overridden (Pool.Call c) -> forall c u, has c u w -> has c u w')).
    { intros t w' t' A. assert (D : (exists h, c = RegisterHandler x h) \/ c = RemoveHandler x \/ kp (tperform n c)).
      { assert (NS' : forall cb y, c <> Subscribe cb y) by (intros cb y ->; exact NS).
        destruct c; try (right; right; apply kp_perform; [discriminate|discriminate|exact NS']); [destruct (Z.eq_dec code x) as [->|NE]; [left; eauto|]|destruct (Z.eq_dec code x) as [->|NE]; [auto|]]; right; right; (apply kp_perform; [congruence|congruence|discriminate]). }
      destruct D as [(h & ->)|[->|K]].
      - cbn [tperform tget tbind advance] in A. destruct (w_proto w); cbn [advance tdo tret traise fst snd] in A; injection A as _ <- <-; (split; [exact J|]; split; [apply kp_done|]; cbn; congruence).
      - cbn [tperform tget tbind advance] in A. destruct (w_proto w); cbn [advance tdo tret fst snd] in A; injection A as _ <- <-; (split; [exact J|]; split; [apply kp_done|]; cbn; congruence).
      - destruct (Free K _ _ _ A) as (K1 & K2 & K3). auto. }
    clear Free. destruct (advance (tperform n c) w) as [[t w'] t'] eqn:A. destruct (Own _ _ _ eq_refl) as (K1 & K2 & K3). split; [eapply New; eauto|exact K3].
  - destruct (nth_error ts i) as [[| | |e f|f xx]|] eqn:N; try exact Same.
    + destruct (fits e k); [|exact Same]. destruct (advance _ _) as [[t w'] t'] eqn:A.
      pose proof (T _ (nth_error_In _ _ N)) as K. destruct (K _ J) as (_ & K2).
      match type of A with advance _ (set_clock _ ?w0) = _ => assert (O : V w0 /\ forall c u, has c u w -> has c u w0) end.
      { assert (O : V (set_conns (w_conns w ++ [new_conn]) w) /\ forall c u, has c u w -> has c u (set_conns (w_conns w ++ [new_conn]) w)).
        { split; [exact J|]. intros c u (L & F). split; [cbn [set_conns w_conns]; rewrite app_length; lia|]. unfold get_conn in *. cbn [set_conns w_conns]. rewrite app_nth1 by exact L. exact F. }
        destruct e; try (split; [exact J|intros c0 u0 H0; exact H0]); destruct k; try (split; [exact J|intros c0 u0 H0; exact H0]); exact O. }
      destruct O as (O1 & O2). edestruct advance_kp as (A1 & A2 & A3); [|exact A|]; [apply K2, (proj1 (s_clock clk)), O1|].
      split; [apply Fin; assumption|]. intros _ c u H. apply A3, s_clock, O2, H.
    + destruct k; try exact Same. destruct (advance _ _) as [[t w'] t'] eqn:A.
      pose proof (T _ (nth_error_In _ _ N)) as K. destruct (K _ J) as (_ & _ & K2). edestruct advance_kp as (A1 & A2 & A3); [|exact A|]; [apply K2, (proj1 (s_clock clk)), J|].
      split; [apply Fin; assumption|]. intros _ c u H. apply A3, s_clock, H.
  - destruct (nth_error ts i) as [[| | | |f xx]|] eqn:N; try exact Same.
    destruct (advance _ _) as [[t w'] t'] eqn:A. edestruct advance_kp as (A1 & A2 & A3); [|exact A|]; [apply (T _ (nth_error_In _ _ N)), J|].
    split; [apply Fin; assumption|]. intros _. exact A3.
  - pose proof (proj1 (s_lose c) _ J) as L. pose proof (fun c0 u => proj2 (s_lose c) c0 u w) as L2. cbv beta in L, L2. destruct (lose c w) as [t w']. split; [split; [exact L|exact T]|intros _; exact L2].
  - destruct (handler_of c code w) as [[h|h]|]; exact Same.
  - destruct (pstep_handle n w ts g) as [->|(c0 & code0 & b0 & l0 & cbs & _ & _ & ->)]; [exact Same|]. split; [split; [exact J|exact T]|]. intros _ c u H. exact H.
Qed.
End Code.
