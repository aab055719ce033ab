(** The shape of what a task does: a message is always followed by the wait for its answer, and
    only messages that can be packed are sent. *)
From Verif Require Import Py F64 Struct Utf Utility Const Spec Enum Decode Messages Calls World Request Gateway Traces Paths Api Tasks Pool SpecPool.
From Verif Require Import P_Base P_Util.

(** anything but a message, or an answer *)
Definition plain (e : ev) : Prop := match e with Send _ _ _ | Got _ => False | _ => True end.
Definition packed (X : Z) (p : bytes) : Prop := is_u16 X /\ zlen p < 4294967296.
Definition sends_then {A} (f : world -> trace * world) (k : task A) : Prop :=
  exists c X p k', (forall w, f w = ([Send c X p], w)) /\ packed X p /\ k = Wait (AwaitReply c 2000) k'.
Fixpoint fine {A} (m : task A) : Prop :=
  match m with
  | Done _ => True
  | Look k => forall w, fine (k w)
  | Do f k => ((forall w, Forall plain (fst (f w))) \/ sends_then f k) /\ fine k
  | Wait e k => plain e /\ forall r, fine (k r)
  | Lock k x => fine k /\ fine x
  end.
Lemma fine_bind {A B} (m : task A) (f : A -> task B) : fine m -> (forall a, fine (f a)) -> fine (tbind m f).
Proof.
  intros M F. induction m as [[a|e|y]|k IH|g k IH|e k IH|k IH xx IHx]; cbn [fine tbind] in *; auto.
  - destruct M as ([M|(c & X & p & k' & E1 & P & ->)] & M'); (split; [|apply IH; exact M']); [left; exact M|right].
    exists c, X, p, (fun r => tbind (k' r) f). auto.
  - destruct M. auto.
  - destruct M. auto.
Qed.
Lemma fine_catch {A} (m : task A) p h : fine m -> (forall e, fine (h e)) -> fine (tcatch m p h).
Proof.
  intros M F. induction m as [[a|e|y]|k IH|g k IH|e k IH|k IH xx IHx]; cbn [fine tcatch] in *; auto.
  - destruct (p e); cbn; auto.
  - destruct M as ([M|(c & X & q & k' & E1 & P & ->)] & M'); (split; [|apply IH; exact M']); [left; exact M|right].
    exists c, X, q, (fun r => tcatch (k' r) p h). auto.
  - destruct M. auto.
  - destruct M. auto.
Qed.
Lemma fine_do_end f {A} (o : out A) : fine (Do (fun w => ([], f w)) (Done o)).
Proof. split; [left; intros w; constructor|exact Logic.I]. Qed.
Lemma fine_finally {A} (m : task A) f : fine m -> fine (tfinally m f).
Proof.
  intros M. induction m as [[a|e|y]|k IH|g k IH|e k IH|k IH xx IHx]; cbn [fine tfinally] in *; auto; try apply fine_do_end.
  - destruct M as ([M|(c & X & q & k' & E1 & P & ->)] & M'); (split; [|apply IH; exact M']); [left; exact M|right].
    exists c, X, q, (fun r => tfinally (k' r) f). auto.
  - destruct M. auto.
  - destruct M. auto.
Qed.
Lemma fine_get {A B} (f : world -> A) (k : A -> task B) : (forall a, fine (k a)) -> fine (tbind (tget f) k).
Proof. intros K w. apply K. Qed.
Lemma fine_lift {A B} (r : res A) (k : A -> task B) : (forall a, fine (k a)) -> fine (tbind (tlift r) k).
Proof. intros K. destruct r; cbn; auto. Qed.
Lemma fine_lift_end {A} (r : res A) : fine (tlift r). Proof. destruct r; exact Logic.I. Qed.
Lemma fine_do f : fine (tdo f). Proof. apply fine_do_end. Qed.
Lemma fine_emit e : plain e -> fine (temit e). Proof. intros P. split; [left; intros w; repeat constructor; exact P|exact Logic.I]. Qed.
Lemma fine_wait {B} e (k : kind -> task B) : plain e -> (forall r, fine (k r)) -> fine (tbind (twait e) k).
Proof. intros P K. split; [exact P|]. intros r. apply K. Qed.
Lemma fine_lock {A} (m : task A) : fine m -> fine (twith_lock m).
Proof. intros M. cbn [twith_lock fine]. split; [|exact Logic.I]. apply fine_finally. exact M. Qed.
Lemma fine_sleep ms : fine (tsleep ms). Proof. apply fine_wait; [exact Logic.I|]. intros []; exact Logic.I. Qed.
Lemma fine_decode m : fine (tdecode m).
Proof. intros w. destruct (m (w_data w)) as [d [?|?]]; (split; [left; intros w'; constructor|exact Logic.I]). Qed.
#[local] Hint Resolve fine_sleep fine_decode fine_lift_end fine_do : fine.
Ltac fn := repeat match goal with
  | |- fine (tbind (tget _) _) => apply fine_get; intros ?
  | |- fine (tbind (twait _) _) => apply fine_wait; [exact Logic.I|intros ?]
  | |- fine (tbind (tlift _) _) => apply fine_lift; intros ?
  | |- fine (tbind _ _) => apply fine_bind; [|intros ?]
  | |- fine (tcatch _ _ _) => apply fine_catch; [|intros ?]
  | |- fine (if ?b then _ else _) => destruct b
  | |- fine (match ?x with _ => _ end) => destruct x
  | |- fine (tret _) => exact Logic.I
  | |- fine (traise _) => exact Logic.I
  | |- fine (tstuck _) => exact Logic.I
  | |- fine (Done _) => exact Logic.I
  | |- fine (tget _) => intros ?; exact Logic.I
  | |- fine (temit _) => apply fine_emit; exact Logic.I
  | |- fine _ => solve [auto with fine]
  end.
Lemma pack_ok X p b : makeMessage 0 X p = Ok b -> packed X p.
Proof.
  intros E. rewrite makeMessage_spec in E. destruct (_ && _) eqn:K in E; [|discriminate E]. unfold packed, is_u16. clear E. lia.
Qed.
Lemma fine_send {B} c X p (k : kind -> task B) : (forall r, fine (k r)) -> fine (tbind (tsend c X p) (fun _ => tbind (twait (AwaitReply c 2000)) k)).
Proof.
  intros K w. cbn [tsend tget tbind tret fine]. destruct (c_open (get_conn c w)); cbn [tbind fine]; [|split; [exact Logic.I|intros r; apply K]].
  destruct (makeMessage 0 X p) as [b|e] eqn:M; cbn [tlift tbind tret traise fine temit]; [|exact Logic.I].
  split; [|split; [exact Logic.I|intros r; apply K]]. right. exists c, X, p. eexists. split; [reflexivity|]. split; [exact (pack_ok _ _ _ M)|]. reflexivity.
Qed.
Lemma fine_loop X p c mr : forall left att, fine (trequest_loop left att mr c X p).
Proof.
  induction left as [|left IH]; intros att; cbn [trequest_loop]; [exact Logic.I|].
  apply fine_get. intros ok. destruct (negb ok); [exact Logic.I|]. apply fine_get. intros k. destruct (c_closing k); [fn|].
  change (1000 * COM_TIMEOUT) with 2000. apply fine_send. intros r. fn.
Qed.
Lemma fine_request c X p mr : fine (tmake_request c X p mr). Proof. apply fine_loop. Qed.
#[local] Hint Resolve fine_request : fine.
Lemma fine_data X p dec mr c : fine (tdata_request X p dec mr c). Proof. unfold tdata_request. fn. Qed.
#[local] Hint Resolve fine_data : fine.
Lemma fine_pump i mr c : fine (trequest_pump_status i mr c). Proof. unfold trequest_pump_status. fn. Qed.
Lemma fine_version mr c : fine (trequest_gateway_version mr c). Proof. unfold trequest_gateway_version. fn. Qed.
Lemma fine_date mr c : fine (trequest_date_time mr c). Proof. unfold trequest_date_time. fn. Qed.
Lemma fine_command_request X p mr c : fine (tcommand_request X p mr c). Proof. unfold tcommand_request. fn. Qed.
#[local] Hint Resolve fine_pump fine_version fine_date fine_command_request : fine.
Lemma fine_to_gateway ip port mr : fine (tconnect_to_gateway ip port mr).
Proof. unfold tconnect_to_gateway, tcreate_connection, tgateway_connect, tgateway_login. fn. Qed.
Lemma fine_proto : fine tproto_or_fail. Proof. unfold tproto_or_fail. fn. Qed.
Lemma fine_mproto : fine tm_proto_or_fail. Proof. unfold tm_proto_or_fail. fn. Qed.
#[local] Hint Resolve fine_to_gateway fine_proto fine_mproto : fine.
Lemma fine_close c force : fine (tasync_close c force).
Proof.
  unfold tasync_close.
  assert (L : fine (Do (lose c) (tret tt))).
  { split; [left; intros w; unfold lose; destruct (connected c w); [destruct (w_cb w)|]; repeat constructor|exact Logic.I]. }
  fn.
Qed.
Lemma fine_remove : fine tremove_client. Proof. unfold tremove_client. fn. Qed.
#[local] Hint Resolve fine_close fine_remove : fine.
Lemma fine_unsubscribe : fine tunsubscribe_gateway.
Proof. unfold tunsubscribe_gateway. apply fine_get. intros a. destruct (negb a); [exact Logic.I|]. apply fine_lock. fn. Qed.
#[local] Hint Resolve fine_unsubscribe : fine.
Lemma fine_disconnect force : fine (tasync_disconnect force). Proof. unfold tasync_disconnect. fn. Qed.
#[local] Hint Resolve fine_disconnect : fine.
Lemma fine_connected {A} connect (method : Z -> nat -> task A) d : fine connect -> (forall mr c, fine (method mr c)) -> fine (tconnected_request connect method d).
Proof. intros C M. unfold tconnected_request, tattempt_request. fn. Qed.
Lemma fine_subscribe connect : fine connect -> fine (tsubscribe_gateway connect).
Proof.
  intros C. unfold tsubscribe_gateway. apply fine_get. intros a. destruct (negb a); [exact Logic.I|]. apply fine_lock.
  apply fine_get. intros b. destruct (negb b); [|exact Logic.I]. apply fine_get. intros id. apply fine_bind; [apply fine_connected; [exact C|intros; auto with fine]|intros _]. fn.
Qed.
Lemma fine_attach connect c mr : fine connect -> fine (tattach connect c mr).
Proof. intros C. unfold tattach. pose proof (fine_subscribe _ C) as S. fn. Qed.
Lemma fine_poll connect k m : fine connect -> (forall mr c, fine (m mr c)) -> fine (tpoll connect k m).
Proof. intros C M. unfold tpoll. apply fine_bind; [apply fine_connected; assumption|]. intros [b|]; [|exact Logic.I]. apply fine_do. Qed.
Lemma fine_connect : forall n x, fine (tasync_connect n x).
Proof.
  induction n as [|n IH]; intros x; cbn [tasync_connect]; [exact Logic.I|].
  assert (P : fine (tpoll (tasync_connect n no_args) K_CONFIG trequest_pool_config)) by (apply fine_poll; [apply IH|intros; apply fine_data]).
  assert (T : forall c mr, fine (tattach (tasync_connect n no_args) c mr)) by (intros; apply fine_attach, IH).
  fn; auto.
Qed.
#[local] Hint Resolve fine_connect : fine.
Lemma fine_command {A} n (method : Z -> nat -> task A) d : (forall mr c, fine (method mr c)) -> fine (tcommand n method d).
Proof. intros M. apply fine_connected; [apply fine_connect|exact M]. Qed.
Lemma fine_get_poll n k m : (forall mr c, fine (m mr c)) -> fine (tget_poll n k m).
Proof. intros M. apply fine_poll; [apply fine_connect|exact M]. Qed.
Lemma fine_pumps n : forall ids, fine (tpumps_loop n ids).
Proof.
  induction ids as [|i ids IH]; [exact Logic.I|]. cbn [tpumps_loop].
  assert (C : fine (tcommand n (trequest_pump_status i) 1)) by (apply fine_command; intros; apply fine_pump).
  fn; auto.
Qed.
Theorem fine_perform n c : fine (tperform n c).
Proof.
  assert (PD : forall k, fine (tget_poll n k trequest_date_time)) by (intros; apply fine_get_poll; intros; apply fine_date).
  assert (PP : forall ids, fine (tpumps_loop n ids)) by (apply fine_pumps).
  assert (CM : forall X p, fine (tcommand n (tcommand_request X p) 0)) by (intros; apply fine_command; intros; apply fine_command_request).
  assert (SM : forall X b, fine (tcommand n (fun mr c => tmake_request c X b mr) 0)) by (intros; apply fine_command; intros; apply fine_request).
  assert (SU : fine (tsubscribe_gateway (tasync_connect n no_args))) by (apply fine_subscribe, fine_connect).
  assert (RQ : forall b, fine (trequire b)) by (intros; unfold trequire; fn).
  destruct c; cbn [tperform].
  1: fn. 1: apply fine_disconnect.
  1-4: apply fine_get_poll; intros; apply fine_data.
  1: apply PD. 1: apply PP.
  - unfold tasync_update. apply fine_get. intros [|x d]; [exact Logic.I|].
    apply fine_bind; [apply fine_get_poll; intros; apply fine_data|intros _]. apply fine_bind; [apply PP|intros _].
    apply fine_bind; [apply fine_get_poll; intros; apply fine_data|intros _]. apply fine_bind; [apply fine_get_poll; intros; apply fine_data|intros _]. apply PD.
  - destruct (Z.ltb_spec 0 k); [|exact Logic.I]. destruct (Z.ltb_spec k 6); [|exact Logic.I]. apply fine_do.
  - apply fine_get. intros d. apply fine_bind; [apply RQ|intros _]. apply fine_bind; [apply RQ|intros _]. apply CM.
  - apply fine_get. intros d. apply fine_bind; [apply RQ|intros _]. apply fine_bind; [apply RQ|intros _]. apply CM.
  - apply fine_get. intros d. apply fine_bind; [apply RQ|intros _]. apply fine_bind; [apply RQ|intros _]. apply CM.
  - apply fine_bind; [apply RQ|intros _]. apply CM.
  - apply fine_get. intros d. apply fine_lift. intros [[[? ?] ?] ?]. apply CM.
  - apply fine_get. intros d. apply fine_lift. intros [[[[[? ?] ?] ?] ?] ?]. apply CM.
  - apply fine_get. intros d. apply fine_get. intros tz. apply fine_lift. intros [? ?]. apply CM.
  - apply fine_get. intros d. apply fine_get. intros tz. apply fine_lift. intros [? ?]. apply CM.
  - apply fine_bind; [apply SM|intros; exact Logic.I].
  - apply fine_get. intros [c|]; [apply fine_do|exact Logic.I].
  - apply fine_get. intros [c|]; [apply fine_do|exact Logic.I].
  - apply fine_bind; [|intros; exact Logic.I]. unfold tasync_subscribe_client. apply fine_get. intros a. destruct (negb a); [exact Logic.I|].
    apply fine_bind; [apply fine_do|intros _]. apply fine_bind; [apply fine_mproto|intros c]. apply fine_bind; [apply fine_do|intros _].
    apply fine_get. intros need. apply fine_bind; [destruct need; [exact SU|exact Logic.I]|intros; exact Logic.I].
  - unfold tremove_subscription. apply fine_get. intros on. destruct (negb on); [exact Logic.I|].
    apply fine_bind; [apply fine_do|intros _]. apply fine_get. intros more. apply fine_get. intros a. destruct (negb more && a); [|exact Logic.I].
    apply fine_bind; [apply fine_mproto|intros c]. apply fine_do.
  - apply fine_unsubscribe.
  - unfold tasync_ping. apply fine_catch; [|intros; exact Logic.I]. apply fine_bind; [apply fine_mproto|intros c]. apply fine_command_request.
Qed.

(** what a task does until it waits: no message, or one, and then it waits for its answer *)
Definition one_go (t : trace) (m : task unit) : Prop :=
  Forall plain t \/ exists t0 c X p k, t = t0 ++ [Send c X p; AwaitReply c 2000] /\ Forall plain t0 /\ packed X p /\ m = Wait (AwaitReply c 2000) k.
Lemma advance_fine (m : task unit) : forall w t w' m', fine m -> advance m w = (t, w', m') -> one_go t m' /\ fine m'.
Proof.
  induction m as [o|k IH|f k IH|e k IH|k IH xx IHx]; intros w t w' m' M E; cbn [fine advance] in *.
  - injection E as <- <- <-. split; [left; constructor|exact Logic.I].
  - eapply IH; [apply M|exact E].
  - destruct M as (P & M). destruct P as [P|(c & X & p & k' & F & K & ->)].
    + specialize (P w). destruct (f w) as [t1 w1]. destruct (advance k w1) as [[t2 w2] m2] eqn:E2. injection E as <- <- <-. cbn [fst] in P.
      destruct (IH _ _ _ _ M E2) as (G & FM). split; [|exact FM]. destruct G as [G|(t0 & c & X & p & k0 & -> & F & K & ->)]; [left; apply Forall_app; auto|right].
      exists (t1 ++ t0), c, X, p, k0. rewrite <- app_assoc. split; [reflexivity|]. split; [apply Forall_app; auto|auto].
    + rewrite F in E. cbn [advance app] in E. injection E as <- <- <-. split; [|exact M]. right. exists [], c, X, p, k'. cbn [app]. auto.
  - injection E as <- <- <-. split; [left; constructor; [apply M|constructor]|exact M].
  - destruct (m_locked (w_cm w)); [injection E as <- <- <-; split; [left; constructor|exact M]|]. eapply IH; [apply M|exact E].
Qed.
Definition all_fine (P : pool) : Prop := forall m, In m (p_tasks P) -> fine m.
