(** Every change that any call makes to the shared objects is one of a few kinds ([prim]); so a
    relation that these keep holds along every schedule. *)
From Verif Require Import Py F64 Struct Utf Utility Const Spec Enum Decode Messages Calls World Request Gateway Traces Paths Api Tasks Pool.
From Verif Require P_Base.

(** changes of a connection that leave its state alone *)
Definition inner (f : conn -> conn) : Prop := forall k, c_connected (f k) = c_connected k /\ c_closing (f k) = c_closing k /\ c_open (f k) = c_open k.
Inductive prim : (world -> trace * world) -> Prop :=
| p_emit e : (forall r, e <> Got r) -> prim (fun w => ([e], w))
| p_data d : prim (fun w => ([], set_data d w))
| p_cm (f : manager -> manager) : (forall m, m_id (f m) = m_id m) -> (forall m, m_proto m <> None -> m_proto (f m) <> None) -> prim (fun w => ([], put_cm f w))
| p_conn c f : inner f -> prim (fun w => ([], upd_conn c f w))
| p_registers c codes : prim (fun w => ([], fold_left (fun w code => register c code (HClient code) w) (codes w) w))
| p_closing c : prim (fun w => ([], mark_closing c w))
| p_shut c : prim (fun w => ([], mark_shut c w))
| p_lose c : prim (lose c)
| p_args x : prim (fun w => ([], store_args x w))
| p_proto c mac : prim (fun w => ([], store_connection c mac w))
| p_last (f : world -> dict) : prim (fun w => ([], set_last (f w) w))
| p_keep_last (f : world -> bool) (g : world -> dict) : prim (fun w => ([], if f w then w else set_last (g w) w))
| p_pump i b : prim (fun w => ([], store_pump i b w))
| p_retries k : 0 < k < 6 -> prim (fun w => ([], set_retries k w)).

Fixpoint made {A} (m : task A) : Prop :=
  match m with
  | Done _ => True
  | Look k => forall w, made (k w)
  | Do f k => prim f /\ made k
  | Wait e k => (forall r, e <> Got r) /\ forall r, made (k r)
  | Lock k x => made k /\ made x
  end.
Lemma made_bind {A B} (m : task A) (f : A -> task B) : made m -> (forall a, made (f a)) -> made (tbind m f).
Proof.
  intros M F. induction m as [[a|e|y]|k IH|g k IH|e k IH|k IH xx IHx]; cbn [made tbind] in *; auto;
  destruct M; split; auto.
Qed.
Lemma made_catch {A} (m : task A) p h : made m -> (forall e, made (h e)) -> made (tcatch m p h).
Proof.
  intros M F. induction m as [[a|e|y]|k IH|g k IH|e k IH|k IH xx IHx]; cbn [made tcatch] in *; auto.
  - destruct (p e); cbn; auto.
  - destruct M. split; auto.
  - destruct M. split; auto.
  - destruct M. split; auto.
Qed.
Lemma made_finally {A} (m : task A) f : made m -> prim (fun w => ([], f w)) -> made (tfinally m f).
Proof.
  intros M F. induction m as [[a|e|y]|k IH|g k IH|e k IH|k IH xx IHx]; cbn [made tfinally] in *; auto;
  destruct M; split; auto.
Qed.
Lemma made_get {A B} (f : world -> A) (k : A -> task B) : (forall a, made (k a)) -> made (tbind (tget f) k).
Proof. intros K w. apply K. Qed.
Lemma made_lift {A B} (r : res A) (k : A -> task B) : (forall a, made (k a)) -> made (tbind (tlift r) k).
Proof. intros K. destruct r; cbn; auto. Qed.
Lemma made_lift_end {A} (r : res A) : made (tlift r). Proof. destruct r; exact Logic.I. Qed.
Lemma made_do f : prim (fun w => ([], f w)) -> made (tdo f). Proof. intros P. split; [exact P|exact Logic.I]. Qed.
Lemma made_emit e : (forall r, e <> Got r) -> made (temit e). Proof. intros N. split; [constructor; exact N|exact Logic.I]. Qed.
Lemma made_wait {B} e (k : kind -> task B) : (forall r, e <> Got r) -> (forall r, made (k r)) -> made (tbind (twait e) k).
Proof. intros N K. split; [exact N|]. intros r. apply K. Qed.
Lemma made_lock {A} (m : task A) : made m -> made (twith_lock m).
Proof. intros M. cbn [twith_lock made]. split; [|exact Logic.I]. apply made_finally; [exact M|]. apply p_cm; [reflexivity|intros ? ?; assumption]. Qed.
Lemma made_sleep ms : made (tsleep ms). Proof. apply made_wait; [intros; discriminate|]. intros []; exact Logic.I. Qed.
Lemma made_decode m : made (tdecode m).
Proof. intros w. destruct (m (w_data w)) as [d [?|?]]; (split; [constructor|exact Logic.I]). Qed.
#[local] Hint Resolve made_emit made_sleep made_decode made_lift_end : made.
#[local] Hint Extern 1 (forall r, _ <> Got r) => (intros; discriminate) : made.
Ltac md := repeat match goal with
  | |- made (tbind (tget _) _) => apply made_get; intros ?
  | |- made (tbind (twait _) _) => apply made_wait; [intros; discriminate|intros ?]
  | |- made (tbind (tlift _) _) => apply made_lift; intros ?
  | |- made (tbind _ _) => apply made_bind; [|intros ?]
  | |- made (tcatch _ _ _) => apply made_catch; [|intros ?]
  | |- made (if ?b then _ else _) => destruct b
  | |- made (match ?x with _ => _ end) => destruct x
  | |- made (tret _) => exact Logic.I
  | |- made (traise _) => exact Logic.I
  | |- made (tstuck _) => exact Logic.I
  | |- made (Done _) => exact Logic.I
  | |- made (tget _) => intros ?; exact Logic.I
  | |- made _ => solve [auto with made]
  end.
Lemma made_send c X p : made (tsend c X p). Proof. unfold tsend. md. Qed.
#[local] Hint Resolve made_send : made.
Lemma made_loop X p c mr : forall left att, made (trequest_loop left att mr c X p).
Proof. induction left as [|left IH]; intros att; cbn [trequest_loop]; md. Qed.
Lemma made_request c X p mr : made (tmake_request c X p mr). Proof. apply made_loop. Qed.
#[local] Hint Resolve made_request : made.
Lemma made_data X p dec mr c : made (tdata_request X p dec mr c). Proof. unfold tdata_request. md. Qed.
#[local] Hint Resolve made_data : made.
Lemma made_pump i mr c : made (trequest_pump_status i mr c). Proof. unfold trequest_pump_status. md. Qed.
Lemma made_version mr c : made (trequest_gateway_version mr c). Proof. unfold trequest_gateway_version. md. Qed.
Lemma made_date mr c : made (trequest_date_time mr c). Proof. unfold trequest_date_time. md. Qed.
Lemma made_command_request X p mr c : made (tcommand_request X p mr c). Proof. unfold tcommand_request. md. Qed.
#[local] Hint Resolve made_pump made_version made_date made_command_request : made.
Lemma made_to_gateway ip port mr : made (tconnect_to_gateway ip port mr).
Proof. unfold tconnect_to_gateway, tcreate_connection, tgateway_connect, tgateway_login. md. Qed.
Lemma made_proto : made tproto_or_fail. Proof. unfold tproto_or_fail. md. Qed.
Lemma made_mproto : made tm_proto_or_fail. Proof. unfold tm_proto_or_fail. md. Qed.
#[local] Hint Resolve made_to_gateway made_proto made_mproto : made.
Lemma made_close c force : made (tasync_close c force).
Proof.
  unfold tasync_close. apply made_bind; [apply made_do, p_closing|intros _].
  assert (L : made (Do (lose c) (tret tt))) by (split; [constructor|exact Logic.I]).
  assert (S : made (tdo (mark_shut c))) by (apply made_do, p_shut).
  md.
Qed.
Lemma made_remove : made tremove_client. Proof. unfold tremove_client. md. Qed.
#[local] Hint Resolve made_close made_remove : made.
Lemma inner_keepalive on : inner (fun k => mkConn (c_connected k) (c_closing k) (c_open k) (c_handlers k) on).
Proof. intros k. auto. Qed.
Lemma made_keepalive on c : made (tdo (keepalive on c)). Proof. apply made_do. apply (p_conn c _ (inner_keepalive on)). Qed.
Lemma made_unregister_all c : made (tdo (unregister_all c)).
Proof. apply made_do. apply (p_conn c (fun k => mkConn (c_connected k) (c_closing k) (c_open k) [] (c_keepalive k))). intros k. auto. Qed.
Lemma made_register c X h : made (tdo (register c X h)).
Proof. apply made_do. apply (p_conn c (fun k => mkConn (c_connected k) (c_closing k) (c_open k) (hset X h (c_handlers k)) (c_keepalive k))). intros k. auto. Qed.
Lemma made_unregister c X : made (tdo (unregister c X)).
Proof. apply made_do. apply (p_conn c (fun k => mkConn (c_connected k) (c_closing k) (c_open k) (filter (fun p => negb (fst p =? X)) (c_handlers k)) (c_keepalive k))). intros k. auto. Qed.
Lemma made_cm f : (forall m, m_id (f m) = m_id m) -> (forall m, m_proto m <> None -> m_proto (f m) <> None) -> made (tdo (put_cm f)).
Proof. intros H H'. apply made_do, p_cm; assumption. Qed.
#[local] Hint Resolve made_keepalive made_unregister_all made_register made_unregister : made.
#[local] Hint Extern 1 (made (tdo (put_cm _))) => (apply made_cm; [reflexivity|intros ? ?; first [assumption|discriminate]]) : made.
Lemma made_unsubscribe : made tunsubscribe_gateway.
Proof. unfold tunsubscribe_gateway. apply made_get. intros a. destruct (negb a); [exact Logic.I|]. apply made_lock. md. Qed.
#[local] Hint Resolve made_unsubscribe : made.
Lemma made_disconnect force : made (tasync_disconnect force). Proof. unfold tasync_disconnect. md. Qed.
#[local] Hint Resolve made_disconnect : made.
Lemma made_connected {A} connect (method : Z -> nat -> task A) d : made connect -> (forall mr c, made (method mr c)) -> made (tconnected_request connect method d).
Proof. intros C M. unfold tconnected_request, tattempt_request. md. Qed.
Lemma made_subscribe connect : made connect -> made (tsubscribe_gateway connect).
Proof.
  intros C. unfold tsubscribe_gateway. apply made_get. intros a. destruct (negb a); [exact Logic.I|]. apply made_lock.
  apply made_get. intros b. destruct (negb b); [|exact Logic.I]. apply made_get. intros id. apply made_bind; [apply made_connected; [exact C|intros; auto with made]|intros _]. md.
Qed.
Lemma made_attach connect c mr : made connect -> made (tattach connect c mr).
Proof.
  intros C. unfold tattach. pose proof (made_subscribe _ C) as S.
  assert (R : made (tdo (fun w => fold_left (fun w code => register c code (HClient code) w) (map fst (m_listeners (w_cm w))) w)))
    by (apply made_do; apply (p_registers c (fun w => map fst (m_listeners (w_cm w))))).
  md.
Qed.
Lemma made_poll connect k m : made connect -> (forall mr c, made (m mr c)) -> made (tpoll connect k m).
Proof.
  intros C M. unfold tpoll. apply made_bind; [apply made_connected; assumption|]. intros [b|]; [|exact Logic.I].
  apply made_do. apply (p_last (fun w => dset k (VBytes b) (w_last w))).
Qed.
Lemma made_connect : forall n x, made (tasync_connect n x).
Proof.
  induction n as [|n IH]; intros x; cbn [tasync_connect]; [exact Logic.I|].
  assert (P : made (tpoll (tasync_connect n no_args) K_CONFIG trequest_pool_config)) by (apply made_poll; [apply IH|intros; apply made_data]).
  assert (T : forall c mr, made (tattach (tasync_connect n no_args) c mr)) by (intros; apply made_attach, IH).
  assert (AR : made (tdo (store_args x))) by (apply made_do; constructor).
  assert (PR : forall c mac, made (tdo (store_connection c mac))) by (intros; apply made_do; constructor).
  assert (LA : forall v, made (tdo (fun w => set_last (dset K_VERSION v (w_last w)) w))) by (intros v; apply made_do; apply (p_last (fun w => dset K_VERSION v (w_last w)))).
  md; auto.
Qed.
#[local] Hint Resolve made_connect : made.
Lemma made_command {A} n (method : Z -> nat -> task A) d : (forall mr c, made (method mr c)) -> made (tcommand n method d).
Proof. intros M. apply made_connected; [apply made_connect|exact M]. Qed.
Lemma made_get_poll n k m : (forall mr c, made (m mr c)) -> made (tget_poll n k m).
Proof. intros M. apply made_poll; [apply made_connect|exact M]. Qed.
Lemma made_pumps n : forall ids, made (tpumps_loop n ids).
Proof.
  induction ids as [|i ids IH]; [exact Logic.I|]. cbn [tpumps_loop].
  assert (C : made (tcommand n (trequest_pump_status i) 1)) by (apply made_command; intros; apply made_pump).
  assert (E : made (tdo pumps_entry)) by (apply made_do; apply (p_keep_last (fun w => din K_PUMPS (w_last w)) (fun w => dset K_PUMPS (VDict []) (w_last w)))).
  assert (S : forall b, made (tdo (store_pump i b))) by (intros; apply made_do; constructor).
  md; auto.
Qed.
Theorem made_perform n c : made (tperform n c).
Proof.
  assert (PO : forall k X p dec, made (tget_poll n k (tdata_request X p dec))) by (intros; apply made_get_poll; intros; apply made_data).
  assert (PD : forall k, made (tget_poll n k trequest_date_time)) by (intros; apply made_get_poll; intros; apply made_date).
  assert (PP : forall ids, made (tpumps_loop n ids)) by (apply made_pumps).
  assert (CM : forall X p, made (tcommand n (tcommand_request X p) 0)) by (intros; apply made_command; intros; apply made_command_request).
  assert (SM : forall X b, made (tcommand n (fun mr c => tmake_request c X b mr) 0)) by (intros; apply made_command; intros; apply made_request).
  assert (SU : made (tsubscribe_gateway (tasync_connect n no_args))) by (apply made_subscribe, made_connect).
  assert (RQ : forall b, made (trequire b)) by (intros; unfold trequire; md).
  assert (K : forall k, 0 < k < 6 -> made (tdo (set_retries k))) by (intros; apply made_do, p_retries; assumption).
  clear PO. destruct c; cbn [tperform].
  1: md. 1: apply made_disconnect.
  1-4: apply made_get_poll; intros; apply made_data.
  1: apply PD. 1: apply PP.
  - unfold tasync_update. apply made_get. intros [|x d]; [exact Logic.I|].
    apply made_bind; [apply made_get_poll; intros; apply made_data|intros _]. apply made_bind; [apply PP|intros _].
    apply made_bind; [apply made_get_poll; intros; apply made_data|intros _]. apply made_bind; [apply made_get_poll; intros; apply made_data|intros _]. apply PD.
  - destruct (Z.ltb_spec 0 k); [|exact Logic.I]. destruct (Z.ltb_spec k 6); [|exact Logic.I]. apply K. lia.
  - apply made_get. intros d. apply made_bind; [apply RQ|intros _]. apply made_bind; [apply RQ|intros _]. apply CM.
  - apply made_get. intros d. apply made_bind; [apply RQ|intros _]. apply made_bind; [apply RQ|intros _]. apply CM.
  - apply made_get. intros d. apply made_bind; [apply RQ|intros _]. apply made_bind; [apply RQ|intros _]. apply CM.
  - apply made_bind; [apply RQ|intros _]. apply CM.
  - apply made_get. intros d. apply made_lift. intros [[[? ?] ?] ?]. apply CM.
  - apply made_get. intros d. apply made_lift. intros [[[[[? ?] ?] ?] ?] ?]. apply CM.
  - apply made_get. intros d. apply made_get. intros tz. apply made_lift. intros [? ?]. apply CM.
  - apply made_get. intros d. apply made_get. intros tz. apply made_lift. intros [? ?]. apply CM.
  - apply made_bind; [apply SM|intros; exact Logic.I].
  - apply made_get. intros [c|]; [apply made_register|exact Logic.I].
  - apply made_get. intros [c|]; [apply made_unregister|exact Logic.I].
  - apply made_bind; [|intros; exact Logic.I]. unfold tasync_subscribe_client. apply made_get. intros a. destruct (negb a); [exact Logic.I|].
    apply made_bind; [apply made_cm; [reflexivity|intros ? ?; assumption]|intros _]. apply made_bind; [apply made_mproto|intros c]. apply made_bind; [apply made_register|intros _].
    apply made_get. intros need. apply made_bind; [destruct need; [exact SU|exact Logic.I]|intros; exact Logic.I].
  - unfold tremove_subscription. apply made_get. intros on. destruct (negb on); [exact Logic.I|].
    apply made_bind; [apply made_cm; [reflexivity|intros ? ?; assumption]|intros _]. apply made_get. intros more. apply made_get. intros a. destruct (negb more && a); [|exact Logic.I].
    apply made_bind; [apply made_mproto|intros c]. apply made_unregister.
  - apply made_unsubscribe.
  - unfold tasync_ping. apply made_catch; [|intros; exact Logic.I]. apply made_bind; [apply made_mproto|intros c]. apply made_command_request.
Qed.

(** ** along a schedule *)
Definition keeps (R : world -> world -> Prop) : Prop :=
  (forall w, R w w) /\ (forall a b c, R a b -> R b c -> R a c) /\
  (forall f w, prim f -> R w (snd (f w))) /\
  (forall w, R w (put_cm (cmset_locked true) w)) /\
  (forall w, R w (set_conns (w_conns w ++ [new_conn]) w)) /\ (forall clk w, R w (set_clock clk w)) /\ (forall d w, R w (set_data d w)).
Section Along.
  Variable R : world -> world -> Prop.
  Hypothesis K : keeps R.
  Lemma advance_made {A} (m : task A) : forall w t w' m', made m -> advance m w = (t, w', m') -> R w w' /\ made m'.
  Proof.
    destruct K as (K1 & K2 & K3 & K4 & _).
    induction m as [o|k IH|f k IH|e k IH|k IH xx IHx]; intros w t w' m' M E; cbn [made advance] in *.
    - injection E as _ <- <-. auto.
    - eapply IH; [apply M|exact E].
    - destruct M as (P & M). specialize (K3 f w P). destruct (f w) as [t1 w1]. destruct (advance k w1) as [[t2 w2] m2] eqn:E2. injection E as _ <- <-.
      destruct (IH _ _ _ _ M E2) as (A1 & A2). split; [eapply K2; eassumption|exact A2].
    - injection E as _ <- <-. auto.
    - destruct (m_locked (w_cm w)); [injection E as _ <- <-; auto|]. destruct M as (M & _). destruct (IH _ _ _ _ M E) as (A1 & A2). split; [eapply K2; [apply K4|exact A1]|exact A2].
  Qed.
  Definition all_made (p : pool) : Prop := forall m, In m (p_tasks p) -> made m.
  Lemma in_lset {X} i (x : X) l y : In y (lset i x l) -> y = x \/ In y l.
  Proof. revert i. induction l as [|z l IH]; intros [|i] J; cbn [lset In] in *; intuition eauto. destruct (IH _ H); auto. Qed.
  Lemma pstep_made n p e : all_made p -> R (p_world p) (p_world (pstep n p e)) /\ all_made (pstep n p e).
  Proof.
    intros AM. destruct p as [w ts g]. destruct K as (K1 & K2 & K3 & K4 & K5 & K6 & K7). unfold all_made in *. cbn [p_tasks] in AM.
    destruct e as [c|i k clk|i|c|c code b|]; [cbn [pstep p_world p_tasks p_log]..|].
    - destruct (advance (tperform n c) w) as [[t w'] m] eqn:E. destruct (advance_made _ _ _ _ _ (made_perform n c) E) as (A1 & A2).
      cbn [p_world p_tasks]. split; [exact A1|]. intros m0 J. apply in_app_or in J. destruct J as [J|[<-|[]]]; auto.
    - destruct (nth_error ts i) as [[| | |e0 k0|k0 x0]|] eqn:N; try (cbn [p_world p_tasks]; auto; fail).
      + destruct (fits e0 k); [|auto]. destruct (advance _ _) as [[t w'] m] eqn:E. cbn [p_world p_tasks].
        pose proof (AM _ (nth_error_In _ _ N)) as M. destruct (advance_made _ _ _ _ _ (proj2 M k) E) as (A1 & A2). split.
        * eapply K2; [|exact A1]. eapply K2; [|apply K6]. destruct e0; try apply K1. destruct k; try apply K1. apply K5.
        * intros m0 J. apply in_lset in J. destruct J as [->|J]; auto.
      + destruct k; auto. destruct (advance _ _) as [[t w'] m] eqn:E. cbn [p_world p_tasks].
        pose proof (AM _ (nth_error_In _ _ N)) as M. destruct (advance_made _ _ _ _ _ (proj2 M) E) as (A1 & A2). split; [eapply K2; [apply K6|exact A1]|].
        intros m0 J. apply in_lset in J. destruct J as [->|J]; auto.
    - destruct (nth_error ts i) as [[| | | |k0]|] eqn:N; try (cbn [p_world p_tasks]; auto; fail).
      destruct (advance _ _) as [[t w'] m] eqn:E. cbn [p_world p_tasks].
      pose proof (AM _ (nth_error_In _ _ N)) as M. destruct (advance_made _ _ _ _ _ M E) as (A1 & A2). split; [exact A1|].
      intros m0 J. apply in_lset in J. destruct J as [->|J]; auto.
    - pose proof (K3 (lose c) w (p_lose c)) as L. destruct (lose c w) as [t w']. cbn [p_world p_tasks snd] in *. auto.
    - destruct (handler_of c code w) as [[h|h]|]; auto.
    - destruct (pstep_handle n w ts g) as [->|(c & code & b & l & cbs & _ & _ & ->)]; cbn [p_world p_tasks]; auto.
  Qed.
  Lemma prun_made n es : forall p, all_made p -> R (p_world p) (p_world (prun n p es)) /\ all_made (prun n p es).
  Proof.
    induction es as [|e es IH]; intros p AM; [split; [apply K|exact AM]|]. cbn [prun fold_left]. destruct (pstep_made n p e AM) as (A1 & A2).
    destruct (IH _ A2) as (B1 & B2). split; [|exact B2]. destruct K as (_ & K2 & _). eapply K2; eassumption.
  Qed.
  Lemma start_made w : all_made (start w). Proof. intros m []. Qed.
End Along.

(** ** a lost connection stays lost *)
Definition gone (c : nat) (w : world) : Prop := (c < List.length (w_conns w))%nat /\ connected c w = false.
Definition goes_on (w w' : world) : Prop := (List.length (w_conns w) <= List.length (w_conns w'))%nat /\ forall c, gone c w -> gone c w'.
Lemma gone_same w w' : w_conns w' = w_conns w -> goes_on w w'.
Proof. intros E. unfold goes_on, gone, connected, get_conn. rewrite E. auto. Qed.
Lemma nth_lset {X} i (x d : X) l j : nth j (lset i x l) d = if Nat.eqb j i then (if Nat.ltb i (List.length l) then x else nth j l d) else nth j l d.
Proof.
  revert i j. induction l as [|y l IH]; intros [|i] [|j]; cbn [lset nth Nat.eqb List.length]; try reflexivity.
  - destruct (Nat.eqb j i); reflexivity.
  - rewrite IH. change (Nat.ltb (S i) (S (List.length l))) with (Nat.ltb i (List.length l)). reflexivity.
Qed.
Lemma lset_len {X} i (x : X) l : List.length (lset i x l) = List.length l.
Proof. revert i. induction l as [|z l IH]; intros [|i]; cbn [lset List.length]; auto. Qed.
Lemma goes_upd c f w : (c_connected (get_conn c w) = false -> c_connected (f (get_conn c w)) = false) -> goes_on w (upd_conn c f w).
Proof.
  intros H. unfold goes_on, gone, connected, get_conn, upd_conn. cbn [set_conns w_conns]. rewrite lset_len. split; [lia|].
  intros c' (L & C). split; [exact L|]. rewrite nth_lset. destruct (Nat.eqb_spec c' c) as [->|N]; [|exact C].
  destruct (Nat.ltb c (List.length (w_conns w))); [|exact C]. apply H. exact C.
Qed.
Lemma goes_trans a b c : goes_on a b -> goes_on b c -> goes_on a c.
Proof. intros (A1 & A2) (B1 & B2). split; [lia|auto]. Qed.
Lemma goes_keeps : keeps goes_on.
Proof.
  split; [intros w; apply gone_same; reflexivity|]. split; [exact goes_trans|]. split.
  - intros f w P. destruct P; cbn [snd]; try (apply gone_same; reflexivity).
    + apply goes_upd. destruct (H (get_conn c w)) as (-> & _). auto.
    + generalize (codes w). intros l. revert w. induction l as [|x l IH]; intros w; cbn [fold_left]; [apply gone_same; reflexivity|].
      eapply goes_trans; [|apply IH]. apply goes_upd. auto.
    + apply goes_upd. auto.
    + apply goes_upd. auto.
    + unfold lose. destruct (connected c w); cbn [snd]; [|apply gone_same; reflexivity]. apply goes_upd. reflexivity.
    + destruct (f w); apply gone_same; reflexivity.
    + unfold store_pump. destruct (dget K_PUMPS (w_last w)) as [[]|]; apply gone_same; reflexivity.
  - split; [intros w; apply gone_same; reflexivity|]. split; [|split; intros; apply gone_same; reflexivity].
    intros w. unfold goes_on, gone, connected, get_conn. cbn [set_conns w_conns]. rewrite app_length. cbn [List.length]. split; [lia|].
    intros c (L & C). split; [lia|]. rewrite app_nth1 by exact L. exact C.
Qed.
