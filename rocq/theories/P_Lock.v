(** The client manager's lock among overlapping calls: who holds it, and that only its holder
    exchanges registration messages with the adapter. *)
From Verif Require Import Py F64 Struct Utf Utility Const Spec Enum Decode Messages Calls World Request Gateway Traces Paths Api Tasks Pool SpecPool
  P_Base P_Pool.

Definition locked (w : world) : bool := m_locked (w_cm w).

(** where a task is: outside the lock, inside, or inside with a registration message just sent *)
Inductive mode := Free | Hold | Sent.
Definition calm (t : trace) : Prop := forall c X p, In (Send c X p) t -> ~ registration X.
Definition moves (s s' : mode) (f : world -> trace * world) : Prop :=
  forall w,
    match s, s' with
    | Free, Free | Hold, Hold => locked (snd (f w)) = locked w /\ calm (fst (f w))
    | Hold, Sent => locked (snd (f w)) = locked w /\ exists c X p, fst (f w) = [Send c X p] /\ registration X
    | Hold, Free => locked (snd (f w)) = false /\ calm (fst (f w))
    | _, _ => False
    end.
Fixpoint lk {A} (s : mode) (m : task A) (Q : mode -> out A -> Prop) : Prop :=
  match m with
  | Done o => Q s o
  | Look k => forall w, lk s (k w) Q
  | Do f k => exists s', moves s s' f /\ lk s' k Q
  | Wait e k => (forall c X p, e <> Send c X p) /\ forall r, lk (match s with Sent => Hold | _ => s end) (k r) Q
  | Lock k x => match s with Free => lk Hold k Q /\ lk Free x Q | Hold => lk Hold x Q | Sent => False end
  end.

Lemma lk_mono {A} (m : task A) : forall s (Q Q' : mode -> out A -> Prop), lk s m Q -> (forall s o, Q s o -> Q' s o) -> lk s m Q'.
Proof.
  induction m as [o|k IH|f k IH|e k IH|k IH xx IHx]; intros s Q Q' L H; cbn [lk] in *.
  - auto.
  - intros w. eapply IH; eauto.
  - destruct L as (s' & M & L). exists s'. split; [exact M|]. eapply IH; eauto.
  - destruct L as (L0 & L). split; [exact L0|]. intros r. eapply IH; eauto.
  - destruct s; try exact L; [destruct L; split; [eapply IH; eauto|eapply IHx; eauto]|eapply IHx; eauto].
Qed.
Definition after {A B} (f : A -> task B) (Q : mode -> out B -> Prop) : mode -> out A -> Prop :=
  fun s o => match o with Val a => lk s (f a) Q | Exc e => Q s (Exc e) | Stuck y => Q s (Stuck y) end.
Lemma lk_bind {A B} (m : task A) (f : A -> task B) Q : forall s, lk s m (after f Q) -> lk s (tbind m f) Q.
Proof.
  induction m as [o|k IH|g k IH|e k IH|k IH xx IHx]; intros s L; cbn [lk tbind] in *.
  - destruct o; exact L.
  - intros w. apply IH, L.
  - destruct L as (s' & M & L). exists s'. auto.
  - destruct L as (L0 & L). split; [exact L0|]. intros r. apply IH, L.
  - destruct s; auto. destruct L; auto.
Qed.
Lemma lk_catch {A} (m : task A) (p : exn -> bool) (h : exn -> task A) (Q : mode -> out A -> Prop) : forall s,
  lk s m (fun s o => match o with Exc e => if p e then lk s (h e) Q else Q s o | _ => Q s o end) -> lk s (tcatch m p h) Q.
Proof.
  induction m as [o|k IH|g k IH|e k IH|k IH xx IHx]; intros s L; cbn [lk tcatch] in *.
  - destruct o; try exact L. destruct (p e); exact L.
  - intros w. apply IH, L.
  - destruct L as (s' & M & L). exists s'. auto.
  - destruct L as (L0 & L). split; [exact L0|]. intros r. apply IH, L.
  - destruct s; auto. destruct L; auto.
Qed.

(** a task that leaves the lock as it found it, or never ends *)
Definition stuck {A} (o : out A) : Prop := exists y, o = Stuck y.
Definition back {A} (s : mode) : mode -> out A -> Prop := fun s' o => s' = s \/ (s' <> Sent /\ stuck o).
Definition fair {A} (s : mode) (m : task A) : Prop := lk s m (back s).
Definition neat {A} (m : task A) : Prop := forall s, s <> Sent -> fair s m.

Lemma fair_bind {A B} s (m : task A) (f : A -> task B) : fair s m -> (forall a, fair s (f a)) -> fair s (tbind m f).
Proof.
  intros M F. apply lk_bind. eapply lk_mono; [exact M|]. intros s' o [->|(N & y & ->)].
  - destruct o as [a|e|y]; cbn; [apply F|left; reflexivity..].
  - cbn. right. split; [exact N|exists y; reflexivity].
Qed.
Lemma fair_catch {A} s (m : task A) p h : fair s m -> (forall e, fair s (h e)) -> fair s (tcatch m p h).
Proof.
  intros M F. apply lk_catch. eapply lk_mono; [exact M|]. intros s' o [->|(N & y & ->)].
  - destruct o as [a|e|y]; cbn; [left; reflexivity| |left; reflexivity]. destruct (p e); [apply F|left; reflexivity].
  - cbn. right. split; [exact N|exists y; reflexivity].
Qed.
Lemma fair_done {A} s (o : out A) : fair s (Done o). Proof. left. reflexivity. Qed.
Lemma fair_get {A B} s (f : world -> A) (k : A -> task B) : (forall a, fair s (k a)) -> fair s (tbind (tget f) k).
Proof. intros K w. apply K. Qed.
Lemma fair_lift {A B} s (r : res A) (k : A -> task B) : (forall a, fair s (k a)) -> fair s (tbind (tlift r) k).
Proof. intros K. destruct r; [apply K|apply fair_done]. Qed.
Definition same_lock (f : world -> world) : Prop := forall w, locked (f w) = locked w.
Lemma calm_nil : calm []. Proof. intros c X p []. Qed.
Lemma fair_do s f : s <> Sent -> same_lock f -> fair s (tdo f).
Proof. intros N S. exists s. split; [|left; reflexivity]. intros w. destruct s; try contradiction; (split; [apply S|apply calm_nil]). Qed.
Lemma fair_Do {A} s f (k : task A) : s <> Sent -> (forall w, locked (snd (f w)) = locked w) -> (forall w, calm (fst (f w))) -> fair s k -> fair s (Do f k).
Proof. intros N S C K. exists s. split; [|exact K]. intros w. destruct s; try contradiction; (split; [apply S|apply C]). Qed.
Lemma fair_emit s e : s <> Sent -> (forall c X p, e = Send c X p -> ~ registration X) -> fair s (temit e).
Proof.
  intros N C. apply fair_Do; [exact N|reflexivity| |apply fair_done]. intros w c X p [->|[]]. eapply C. reflexivity.
Qed.
Lemma fair_wait {B} s e (k : kind -> task B) : s <> Sent -> (forall c X p, e <> Send c X p) -> (forall r, fair s (k r)) -> fair s (tbind (twait e) k).
Proof. intros N E K. split; [exact E|]. intros r. destruct s; try contradiction; apply K. Qed.
Lemma fair_decode s m : s <> Sent -> fair s (tdecode m).
Proof.
  intros N w. destruct (m (w_data w)) as [d r]. apply fair_Do; [exact N|reflexivity|intros; apply calm_nil|]. destruct r; apply fair_done.
Qed.
Lemma fair_if {A} s (b : bool) (m1 m2 : task A) : fair s m1 -> fair s m2 -> fair s (if b then m1 else m2).
Proof. destruct b; auto. Qed.

(** the lock: what is inside may exchange registration messages *)
Lemma lk_finally {A} (m : task A) f : (forall w, locked (f w) = false) -> forall s, lk s m (back Hold) -> lk s (tfinally m f) (back Free).
Proof.
  intros U. induction m as [o|k IH|g k IH|e k IH|k IH xx IHx]; intros s L; cbn [lk tfinally] in *.
  - destruct L as [->|(N & y & ->)].
    + destruct o; cbn [lk]; [exists Free; split; [intros w; split; [apply U|apply calm_nil]|left; reflexivity]..|].
      right. split; [discriminate|eexists; reflexivity].
    + cbn [lk]. right. split; [exact N|eexists; reflexivity].
  - intros w. apply IH, L.
  - destruct L as (s' & M & L). exists s'. auto.
  - destruct L as (L0 & L). split; [exact L0|]. intros r. apply IH, L.
  - destruct s; auto. destruct L; auto.
Qed.
Lemma neat_with_lock {A} (body : task A) : fair Hold body -> neat (twith_lock body).
Proof. intros B s N. destruct s; [|left; reflexivity|contradiction]. split; [|left; reflexivity]. apply lk_finally; [reflexivity|exact B]. Qed.

Lemma neat_bind {A B} (m : task A) (f : A -> task B) : neat m -> (forall a, neat (f a)) -> neat (tbind m f).
Proof. intros M F s N. apply fair_bind; [apply M, N|intros a; apply F, N]. Qed.
Lemma neat_fair {A} s (m : task A) : s <> Sent -> neat m -> fair s m. Proof. auto. Qed.

(** * requests *)
Lemma fair_sleep s ms : s <> Sent -> fair s (tsleep ms).
Proof. intros N. apply fair_wait; [exact N|discriminate|]. intros r. destruct r; apply fair_done. Qed.

(** who may send a message with this code *)
Definition may (s : mode) (X : Z) : Prop := s = Hold \/ (s = Free /\ ~ registration X).
Lemma may_not s X : may s X -> s <> Sent. Proof. intros [->|(-> & _)]; discriminate. Qed.
Lemma fair_loop X p c : forall left attempt mr s, may s X -> fair s (trequest_loop left attempt mr c X p).
Proof.
  induction left as [|left IH]; intros attempt mr s M; [apply fair_done|]. pose proof (may_not _ _ M) as N. cbn [trequest_loop].
  apply fair_get. intros ok. destruct ok; cbn [negb]; [|apply fair_done].
  assert (F : forall e, fair s (if attempt =? mr then @traise (option bytes) e else tsleep (1000 * (COM_RETRY_WAIT * (attempt + 1))) ;;; trequest_loop left (attempt + 1) mr c X p)).
  { intros e. apply fair_if; [apply fair_done|]. apply fair_bind; [apply fair_sleep, N|]. intros _. apply IH, M. }
  assert (C : fair s (ok <- tget (connected c) ;; if ok then tret (@None bytes) else traise ESLConnection)).
  { apply fair_get. intros a. apply fair_if; apply fair_done. }
  apply fair_get. intros k. apply fair_if; [exact C|].
  assert (W : forall s', s' = s \/ (s' = Sent /\ s = Hold) -> lk s' (r <- twait (AwaitReply c (1000 * COM_TIMEOUT)) ;;
    match r with
    | KReply rc b | KTimeoutReply rc b => if rc =? X + 1 then tret (Some b) else if rc =? CODE_ERROR_LOGIN_REJECTED then traise ESLLogin
        else if (rc =? CODE_ERROR_INVALID_REQUEST) || (rc =? CODE_ERROR_BAD_PARAMETER) then (if attempt =? mr then traise ESLRequest else tsleep (1000 * (COM_RETRY_WAIT * (attempt + 1))) ;;; trequest_loop left (attempt + 1) mr c X p)
        else (if attempt =? mr then traise ESLResponse else tsleep (1000 * (COM_RETRY_WAIT * (attempt + 1))) ;;; trequest_loop left (attempt + 1) mr c X p)
    | KTimeout => if attempt =? mr then traise ESLConnection else tsleep (1000 * (COM_RETRY_WAIT * (attempt + 1))) ;;; trequest_loop left (attempt + 1) mr c X p
    | KCancelFut | KCancelTask => ok <- tget (connected c) ;; if ok then tret None else traise ESLConnection
    | KDone | KOSError => tstuck Unfit
    end) (back s)).
  { intros s' H. split; [discriminate|]. intros r. assert (E : (match s' with Sent => Hold | _ => s' end) = s) by (destruct H as [->|(-> & ->)]; [destruct s; [reflexivity..|contradiction]|reflexivity]).
    rewrite E. clear H E. change (fair s (match r with
    | KReply rc b | KTimeoutReply rc b => if rc =? X + 1 then tret (Some b) else if rc =? CODE_ERROR_LOGIN_REJECTED then traise ESLLogin
        else if (rc =? CODE_ERROR_INVALID_REQUEST) || (rc =? CODE_ERROR_BAD_PARAMETER) then (if attempt =? mr then traise ESLRequest else tsleep (1000 * (COM_RETRY_WAIT * (attempt + 1))) ;;; trequest_loop left (attempt + 1) mr c X p)
        else (if attempt =? mr then traise ESLResponse else tsleep (1000 * (COM_RETRY_WAIT * (attempt + 1))) ;;; trequest_loop left (attempt + 1) mr c X p)
    | KTimeout => if attempt =? mr then traise ESLConnection else tsleep (1000 * (COM_RETRY_WAIT * (attempt + 1))) ;;; trequest_loop left (attempt + 1) mr c X p
    | KCancelFut | KCancelTask => ok <- tget (connected c) ;; if ok then tret None else traise ESLConnection
    | KDone | KOSError => tstuck Unfit
    end)).
    destruct r; try (apply F); try exact C; try apply fair_done; repeat first [apply F | apply fair_done | apply fair_if]. }
  apply lk_bind. unfold tsend. intros w. cbn [tbind tget tret]. destruct (c_open (get_conn c w)).
  - destruct (makeMessage 0 X p); cbn [tlift tbind lk after temit tret traise].
    + destruct M as [->|(-> & R)].
      * destruct (Z.eq_dec X 12522) as [E1|E1]; [|destruct (Z.eq_dec X 12524) as [E2|E2]].
        -- exists Sent. split; [intros w'; split; [reflexivity|]; exists c, X, p; split; [reflexivity|left; exact E1]|]. apply W. right. auto.
        -- exists Sent. split; [intros w'; split; [reflexivity|]; exists c, X, p; split; [reflexivity|right; exact E2]|]. apply W. right. auto.
        -- exists Hold. split; [|apply W; left; reflexivity]. intros w'. split; [reflexivity|]. intros c' X' p' [J|[]]. injection J as _ <- _. intros [J|J]; contradiction.
      * exists Free. split; [|apply W; left; reflexivity]. intros w'. split; [reflexivity|]. intros c' X' p' [J|[]]. injection J as _ <- _. exact R.
    + left. reflexivity.
  - cbn [lk after tret]. apply W. left. reflexivity.
Qed.
Lemma fair_request X p c mr s : may s X -> fair s (tmake_request c X p mr). Proof. apply fair_loop. Qed.
Lemma may_other s X : s <> Sent -> ~ registration X -> may s X. Proof. intros N R. destruct s; [right; auto|left; reflexivity|contradiction]. Qed.

Ltac fr := first [apply fair_done | assumption | discriminate].
Lemma fair_data_request X p dec mr c s : may s X -> fair s (tdata_request X p dec mr c).
Proof.
  intros M. apply fair_bind; [apply fair_request, M|]. intros r. destruct (nonempty r); [|fr].
  apply fair_bind; [apply fair_decode; apply (may_not _ _ M)|intros; fr].
Qed.
Lemma not_reg X : X <> 12522 -> X <> 12524 -> ~ registration X. Proof. intros A B [C|C]; contradiction. Qed.
Ltac nr := apply may_other; [assumption|apply not_reg; discriminate].
Lemma neat_version mr c : neat (trequest_gateway_version mr c).
Proof. intros s N. apply fair_get. intros fl. apply fair_data_request. nr. Qed.
Lemma neat_pump i mr c : neat (trequest_pump_status i mr c).
Proof. intros s N. apply fair_lift. intros p. apply fair_data_request. nr. Qed.
Lemma neat_date mr c : neat (trequest_date_time mr c).
Proof.
  intros s N. apply fair_bind; [apply fair_request; nr|]. intros r. destruct (nonempty r); [|fr].
  apply fair_get. intros now. apply fair_bind; [apply fair_decode, N|intros; fr].
Qed.
Lemma fair_command_request X p mr c s : may s X -> fair s (tcommand_request X p mr c).
Proof. intros M. apply fair_lift. intros q. apply fair_bind; [apply fair_request, M|]. intros [[|]|]; fr. Qed.

Lemma neat_create ip port : neat (tcreate_connection ip port).
Proof. intros s N. apply fair_wait; [exact N|discriminate|]. intros r. destruct r; try fr. intros w. fr. Qed.
Lemma neat_challenge c mr : neat (tgateway_connect c mr).
Proof.
  intros s N. apply fair_get. intros k. apply fair_bind; [apply fair_if; [apply fair_emit; [exact N|discriminate]|fr]|]. intros _.
  apply fair_bind; [apply fair_sleep, N|]. intros _. apply fair_get. intros ok. destruct ok; cbn [negb]; [|fr].
  apply fair_bind; [apply fair_request; nr|]. intros [b|]; [|fr]. destruct (decodeMessageString b); fr.
Qed.
Lemma neat_login c mr : neat (tgateway_login c mr).
Proof. intros s N. apply fair_lift. intros m. apply fair_bind; [apply fair_request; nr|]. intros; fr. Qed.
Lemma neat_to_gateway ip port mr : neat (tconnect_to_gateway ip port mr).
Proof.
  apply neat_bind; [apply neat_create|]. intros c. apply neat_bind; [apply neat_challenge|]. intros mac. apply neat_bind; [apply neat_login|].
  intros ok s N. fr.
Qed.

(** * gateway and client manager *)
Lemma neat_m_proto : neat tm_proto_or_fail. Proof. intros s N w. cbn. destruct (m_proto (w_cm w)); fr. Qed.
Lemma neat_proto : neat tproto_or_fail. Proof. intros s N w. cbn. destruct (w_proto w); fr. Qed.
Lemma lose_locked c w : locked (snd (lose c w)) = locked w.
Proof. unfold lose. destruct (connected c w); reflexivity. Qed.
Lemma lose_calm c w : calm (fst (lose c w)).
Proof. unfold lose. destruct (connected c w); [|apply calm_nil]. intros c' X p. cbn. destruct (w_cb w); cbn; intuition discriminate. Qed.
Lemma neat_close c force : neat (tasync_close c force).
Proof.
  intros s N. apply fair_bind; [apply fair_do; [exact N|intros w; reflexivity]|]. intros _. apply fair_wait; [exact N|discriminate|].
  assert (K : fair s (k <- tget (get_conn c) ;;
      (if c_open k then temit (CloseTransport c) ;;; tdo (mark_shut c) else tret tt) ;;;
      still <- tget (connected c) ;;
      if negb still then tret tt
      else
        r2 <- twait (AwaitClosed c) ;;
        match r2 with
        | KDone => Do (lose c) (tret tt)
        | KCancelTask => traise ECancelled
        | _ => tstuck Unfit
        end)).
  { apply fair_get. intros k. apply fair_bind.
    - apply fair_if; [|fr]. apply fair_bind; [apply fair_emit; [exact N|discriminate]|]. intros _. apply fair_do; [exact N|intros w; reflexivity].
    - intros _. apply fair_get. intros still. apply fair_if; [fr|]. apply fair_wait; [exact N|discriminate|]. intros r2. destruct r2; try fr.
      apply fair_Do; [exact N|apply lose_locked|apply lose_calm|fr]. }
  intros r. destruct r; try fr; exact K.
Qed.
Lemma fair_remove : fair Hold tremove_client.
Proof.
  apply fair_catch; [|intros; fr]. apply fair_bind; [apply neat_m_proto; discriminate|]. intros c. apply fair_get. intros id.
  apply fair_command_request. left. reflexivity.
Qed.
Lemma neat_unsubscribe : neat tunsubscribe_gateway.
Proof.
  intros s N. apply fair_get. intros a. apply fair_if; [fr|]. apply neat_with_lock; [|exact N].
  apply fair_get. intros b. apply fair_if; [|fr]. apply fair_bind; [apply fair_do; [discriminate|intros w; reflexivity]|]. intros _.
  apply fair_bind; [apply neat_m_proto; discriminate|]. intros c.
  apply fair_bind; [apply fair_do; [discriminate|intros w; reflexivity]|]. intros _.
  apply fair_bind; [apply fair_do; [discriminate|intros w; reflexivity]|]. intros _. apply fair_remove.
Qed.
Lemma neat_disconnect force : neat (tasync_disconnect force).
Proof.
  intros s N. apply fair_get. intros b. apply fair_bind; [apply fair_if; [apply neat_unsubscribe, N|fr]|]. intros _.
  apply fair_bind; [apply neat_proto, N|]. intros c. apply neat_close, N.
Qed.
Lemma fair_attempt {A} s connect (method : Z -> nat -> task A) mr : s <> Sent -> fair s connect -> (forall mr c, fair s (method mr c)) ->
  fair s (tattempt_request connect method mr).
Proof. intros N C M. apply fair_bind; [exact C|]. intros ok. apply fair_if; [fr|]. apply fair_bind; [apply neat_proto, N|]. intros c. apply M. Qed.
Lemma fair_connected {A} s connect (method : Z -> nat -> task A) d : s <> Sent -> fair s connect -> (forall mr c, fair s (method mr c)) ->
  fair s (tconnected_request connect method d).
Proof.
  intros N C M. apply fair_get. intros mr. apply fair_catch; [apply fair_attempt; assumption|]. intros _.
  apply fair_bind; [apply neat_disconnect, N|]. intros _. apply fair_bind; [apply fair_sleep, N|]. intros _. apply fair_attempt; assumption.
Qed.
Lemma neat_subscribe connect : neat connect -> neat (tsubscribe_gateway connect).
Proof.
  intros C s N. apply fair_get. intros a. apply fair_if; [fr|]. apply neat_with_lock; [|exact N].
  apply fair_get. intros b. apply fair_if; [|fr]. apply fair_get. intros id.
  apply fair_bind; [apply fair_connected; [discriminate|apply C; discriminate|intros; apply fair_command_request; left; reflexivity]|]. intros _.
  apply fair_bind; [apply fair_do; [discriminate|intros w; reflexivity]|]. intros _. apply fair_bind; [apply neat_m_proto; discriminate|]. intros c.
  apply fair_do; [discriminate|intros w; reflexivity].
Qed.
Lemma fold_locked c l : forall w, locked (fold_left (fun w code => register c code (HClient code) w) l w) = locked w.
Proof. induction l as [|x l IH]; intros w; [reflexivity|]. cbn [fold_left]. rewrite IH. reflexivity. Qed.
Lemma neat_attach connect c mr : neat connect -> neat (tattach connect c mr).
Proof.
  intros C s N. apply fair_bind; [apply fair_do; [exact N|intros w; reflexivity]|]. intros _. apply fair_get. intros need. apply fair_if; [|fr].
  apply fair_bind; [apply fair_do; [exact N|intros w; reflexivity]|]. intros _.
  apply fair_bind; [apply fair_do; [exact N|intros w; apply fold_locked]|]. intros _. apply neat_subscribe; assumption.
Qed.
Lemma neat_poll connect k m : neat connect -> (forall mr c, neat (m mr c)) -> neat (tpoll connect k m).
Proof.
  intros C M s N. apply fair_bind; [apply fair_connected; [exact N|apply C, N|intros; apply M, N]|]. intros [b|]; [|fr].
  apply fair_do; [exact N|intros w; reflexivity].
Qed.
Lemma neat_data X p dec mr c : X <> 12522 -> X <> 12524 -> neat (tdata_request X p dec mr c).
Proof. intros A B s N. apply fair_data_request, may_other; [exact N|apply not_reg; assumption]. Qed.
Lemma neat_connect : forall n x, neat (tasync_connect n x).
Proof.
  induction n as [|n IH]; intros x s N; [fr|]. cbn [tasync_connect]. apply fair_get. intros up. destruct up; [fr|].
  apply fair_bind; [apply fair_do; [exact N|intros w; reflexivity]|]. intros _. apply fair_get. intros no. destruct no; [fr|].
  do 3 (apply fair_get; intros ?). apply fair_bind; [apply neat_to_gateway, N|]. intros [[c mac]|]; [|fr].
  apply fair_bind; [apply fair_do; [exact N|intros w; reflexivity]|]. intros _. apply fair_get. intros mr1.
  apply fair_bind; [apply neat_version, N|]. intros v. apply fair_bind; [apply fair_do; [exact N|intros w; reflexivity]|]. intros _.
  apply fair_get. intros d. apply fair_if; [|fr].
  apply fair_bind; [apply neat_poll; [apply IH|intros; apply neat_data; discriminate|exact N]|]. intros _.
  apply fair_bind; [apply neat_proto, N|]. intros c2. apply fair_get. intros mr2.
  apply fair_bind; [apply neat_attach; [apply IH|exact N]|]. intros _. fr.
Qed.
Lemma neat_command {A} n (method : Z -> nat -> task A) d : (forall mr c, neat (method mr c)) -> neat (tcommand n method d).
Proof. intros M s N. apply fair_connected; [exact N|apply neat_connect, N|intros; apply M, N]. Qed.
Lemma neat_get_poll n k m : (forall mr c, neat (m mr c)) -> neat (tget_poll n k m).
Proof. intros M. apply neat_poll; [apply neat_connect|exact M]. Qed.
Lemma neat_setting n X p d : X <> 12522 -> X <> 12524 -> neat (tcommand n (tcommand_request X p) d).
Proof. intros A B. apply neat_command. intros mr c s N. apply fair_command_request, may_other; [exact N|apply not_reg; assumption]. Qed.
Lemma pumps_entry_locked w : locked (pumps_entry w) = locked w.
Proof. unfold pumps_entry. repeat match goal with |- context [match ?x with _ => _ end] => destruct x end; reflexivity. Qed.
Lemma store_pump_locked i b w : locked (store_pump i b w) = locked w.
Proof. unfold store_pump. repeat match goal with |- context [match ?x with _ => _ end] => destruct x end; reflexivity. Qed.
Lemma neat_pumps n : forall ids, neat (tpumps_loop n ids).
Proof.
  induction ids as [|i ids IH]; intros s N; [fr|]. cbn [tpumps_loop]. apply fair_get. intros f. apply fair_lift. intros flags.
  apply fair_bind; [|intros _; apply IH, N]. apply fair_if; [fr|]. apply fair_bind; [apply fair_do; [exact N|intros w; apply pumps_entry_locked]|]. intros _.
  apply fair_bind; [apply neat_command; [intros; apply neat_pump|exact N]|]. intros [b|]; [|fr]. apply fair_do; [exact N|intros w; apply store_pump_locked].
Qed.
Lemma fair_require s b : fair s (trequire b).
Proof. apply fair_lift. intros ok. destruct ok; fr. Qed.
Definition plain (c : api_call) : Prop := forall X m, c = SendMessage X m -> ~ registration X.
Lemma neat_perform n c : plain c -> neat (tperform n c).
Proof.
  intros P s N. destruct c; cbn [tperform];
    try (apply neat_get_poll; [intros; first [apply neat_data; discriminate|apply neat_date]|exact N]);
    try (repeat match goal with
         | |- fair _ (tbind (tget _) _) => apply fair_get; intros ?
         | |- fair _ (tbind (trequire _) _) => apply fair_bind; [apply fair_require|intros _]
         | |- fair _ (tbind (tlift _) _) => apply fair_lift; intros ?
         | x : _ * _ |- _ => destruct x
         end; apply neat_setting; [discriminate..|exact N]).
  - apply fair_bind; [apply neat_connect, N|intros; fr].
  - apply neat_disconnect, N.
  - apply neat_pumps, N.
  - unfold tasync_update. apply fair_get. intros d. destruct d; [fr|].
    apply fair_bind; [apply neat_get_poll; [intros; apply neat_data; discriminate|exact N]|intros _].
    apply fair_bind; [apply neat_pumps, N|intros _].
    apply fair_bind; [apply neat_get_poll; [intros; apply neat_data; discriminate|exact N]|intros _].
    apply fair_bind; [apply neat_get_poll; [intros; apply neat_data; discriminate|exact N]|intros _].
    apply neat_get_poll; [intros; apply neat_date|exact N].
  - apply fair_if; [|fr]. apply fair_do; [exact N|intros w; reflexivity].
  - apply fair_bind; [|intros; fr]. apply neat_command; [|exact N]. intros mr c s' N'. apply fair_request, may_other; [exact N'|]. eapply P. reflexivity.
  - apply fair_get. intros [c|]; [|fr]. apply fair_do; [exact N|intros w; reflexivity].
  - apply fair_get. intros [c|]; [|fr]. apply fair_do; [exact N|intros w; reflexivity].
  - unfold tasync_subscribe_client. apply fair_bind; [|intros; fr]. apply fair_get. intros a. apply fair_if; [fr|].
    apply fair_bind; [apply fair_do; [exact N|intros w; reflexivity]|]. intros _. apply fair_bind; [apply neat_m_proto, N|]. intros c.
    apply fair_bind; [apply fair_do; [exact N|intros w; reflexivity]|]. intros _. apply fair_get. intros need.
    apply fair_bind; [apply fair_if; [apply neat_subscribe; [apply neat_connect|exact N]|fr]|]. intros _. fr.
  - unfold tremove_subscription. apply fair_get. intros on. apply fair_if; [fr|].
    apply fair_bind; [apply fair_do; [exact N|intros w; reflexivity]|]. intros _. apply fair_get. intros more. apply fair_get. intros a. apply fair_if; [|fr].
    apply fair_bind; [apply neat_m_proto, N|]. intros c. apply fair_do; [exact N|intros w; reflexivity].
  - apply neat_unsubscribe, N.
  - unfold tasync_ping. apply fair_catch; [|intros; fr]. apply fair_bind; [apply neat_m_proto, N|]. intros c.
    apply fair_command_request, may_other; [exact N|apply not_reg; discriminate].
Qed.

(** * all tasks together *)
Definition reg_end (T : trace) : Prop := exists T0 c X p, T = T0 ++ [Send c X p] /\ registration X.
Definition waiting (T : trace) : Prop := exists T0 c X p c' ms, T = T0 ++ [Send c X p; AwaitReply c' ms] /\ registration X.
Definition clean (T : trace) : Prop := ~ reg_end T /\ ~ waiting T.
Lemma clean_nil : clean [].
Proof. split; intros (T0 & ?); [destruct H as (? & ? & ? & H & _)|destruct H as (? & ? & ? & ? & ? & H & _)]; destruct T0; discriminate H. Qed.
Lemma clean_step T e : ~ reg_end T -> (forall c X p, e = Send c X p -> ~ registration X) -> clean (T ++ [e]).
Proof.
  intros C E. split.
  - intros (T0 & c & X & p & H & R). apply app_inj_tail in H. destruct H as (_ & ->). exact (E _ _ _ eq_refl R).
  - intros (T0 & c & X & p & c' & ms & H & R).
    change [Send c X p; AwaitReply c' ms] with ([Send c X p] ++ [AwaitReply c' ms]) in H. rewrite app_assoc in H. apply app_inj_tail in H. destruct H as (-> & _).
    apply C. exists T0, c, X, p. auto.
Qed.
Lemma clean_app T t : clean T -> calm t -> clean (T ++ t).
Proof.
  revert T. induction t as [|e t IH]; intros T C K; [rewrite app_nil_r; exact C|].
  replace (T ++ e :: t) with ((T ++ [e]) ++ t) by (rewrite <- app_assoc; reflexivity). apply IH.
  - apply clean_step; [apply C|]. intros c X p ->. apply (K c X p). left. reflexivity.
  - intros c X p J. apply (K c X p). right. exact J.
Qed.

Lemma calm_app a b : calm a -> calm b -> calm (a ++ b).
Proof. intros A B c X p J. apply in_app_or in J. destruct J; [eapply A|eapply B]; eassumption. Qed.
Lemma advance_lk {A} (m : task A) (Q : mode -> out A -> Prop) : (forall o, ~ Q Sent o) -> forall s w T t w' m', lk s m Q ->
  (s <> Free -> locked w = true) -> (s <> Sent -> clean T) -> advance m w = (t, w', m') ->
  exists s', s' <> Sent /\ lk s' m' Q /\ (s' = Hold -> locked w' = true) /\ (s' = Hold -> s = Free -> locked w = false) /\
    (s' = Free -> locked w' = match s with Free => locked w | _ => false end) /\
    (s' = Free -> clean (T ++ t)) /\ (s = Free -> locked w = true -> calm t).
Proof.
  intros QS. induction m as [o|k IH|f k IH|e k IH|k IH xx IHx]; intros s w T t w' m' L O C E; cbn [advance] in E.
  - injection E as <- <- <-. cbn [lk] in L. exists s. destruct s; [| |destruct (QS _ L)].
    + split; [discriminate|]. split; [exact L|]. split; [discriminate|]. split; [discriminate|]. split; [reflexivity|]. split; [intros _; rewrite app_nil_r; apply C; discriminate|intros _ _; apply calm_nil].
    + split; [discriminate|]. split; [exact L|]. split; [intros _; apply O; discriminate|]. split; [discriminate|]. split; [discriminate|]. split; discriminate.
  - cbn [lk] in L. eapply IH; [apply L|exact O|exact C|exact E].
  - cbn [lk] in L. destruct L as (s1 & M & L). specialize (M w). destruct (f w) as [t1 w1] eqn:F. cbn [fst snd] in M.
    destruct (advance k w1) as [[t2 w2] m2] eqn:AD. injection E as <- <- <-.
    destruct (IH s1 w1 (T ++ t1) t2 w2 m2 L) as (s' & S1 & S2 & S3 & S4 & S5 & S6 & S7); [| |exact AD|].
    + intros N. destruct s, s1; try destruct M as (M & _); try contradiction; rewrite M; apply O; discriminate.
    + intros N. destruct s, s1; try contradiction; destruct M as (_ & M); (apply clean_app; [apply C; discriminate|exact M]).
    + exists s'. split; [exact S1|]. split; [exact S2|]. split; [exact S3|]. split; [|split; [|split]].
      * intros -> ->. destruct s1; try contradiction. destruct M as (M & _). rewrite <- M. auto.
      * intros ->. rewrite (S5 eq_refl). destruct s, s1; try contradiction; try reflexivity; destruct M as (M & _); exact M.
      * intros ->. rewrite app_assoc. auto.
      * intros -> LW. destruct s1; try contradiction. destruct M as (M1 & M2). apply calm_app; [exact M2|]. apply S7; [reflexivity|]. rewrite M1. exact LW.
  - injection E as <- <- <-. cbn [lk] in L. destruct L as (L0 & L). exists (match s with Sent => Hold | _ => s end).
    destruct s; (split; [discriminate|]); (split; [split; [exact L0|exact L]|]).
    + split; [discriminate|]. split; [discriminate|]. split; [reflexivity|].
      assert (K : forall c X p, e = Send c X p -> ~ registration X) by (intros c X p ->; destruct (L0 c X p eq_refl)).
      split; [intros _; apply clean_step; [apply C; discriminate|exact K]|]. intros _ _ c X p [->|[]]. eapply K. reflexivity.
    + split; [intros _; apply O; discriminate|]. split; [discriminate|]. split; [discriminate|]. split; discriminate.
    + split; [intros _; apply O; discriminate|]. split; [discriminate|]. split; [discriminate|]. split; discriminate.
  - cbn [lk] in L. fold (locked w) in E. destruct s; [| |destruct L].
    + destruct (locked w) eqn:LW.
      * injection E as <- <- <-. exists Free. split; [discriminate|]. split; [exact L|]. split; [discriminate|]. split; [discriminate|]. split; [auto|].
        split; [intros _; rewrite app_nil_r; apply C; discriminate|intros _ _; apply calm_nil].
      * destruct L as (L & _). destruct (IH Hold (put_cm (cmset_locked true) w) T t w' m' L) as (s' & S1 & S2 & S3 & S4 & S5 & S6 & S7); [reflexivity|intros _; apply C; discriminate|exact E|].
        exists s'. split; [exact S1|]. split; [exact S2|]. split; [exact S3|]. split; [auto|]. split; [exact S5|]. split; [exact S6|]. intros _ B. discriminate B.
    + rewrite O in E by discriminate. injection E as <- <- <-. exists Hold. split; [discriminate|]. split; [exact L|]. split; [intros _; apply O; discriminate|].
      split; [discriminate|]. split; [discriminate|]. split; discriminate.
Qed.

Record Linv (P : Pool.pool) (owner : option nat) : Prop := {
  L_locked : locked (p_world P) = match owner with Some _ => true | None => false end;
  L_owner : forall j, owner = Some j -> exists m, nth_error (p_tasks P) j = Some m /\ lk Hold m (back Free);
  L_other : forall j m, nth_error (p_tasks P) j = Some m -> owner <> Some j -> lk Free m (back Free) /\ clean (own j (p_log P));
  L_none : forall j, (List.length (p_tasks P) <= j)%nat -> own j (p_log P) = [];
  L_log : forall g1 i c X p g2, p_log P = g1 ++ By i (Send c X p) :: g2 -> registration X -> forall j, j <> i -> ~ waiting (own j g1) }.

Lemma lset_other {X} i (x : X) : forall l j, j <> i -> nth_error (lset i x l) j = nth_error l j.
Proof. induction i as [|i IH]; intros [|y l] [|j] N; cbn; try reflexivity; try contradiction. apply IH. congruence. Qed.
Lemma lset_eq {X} i (x : X) : forall l, (i < List.length l)%nat -> nth_error (lset i x l) i = Some x.
Proof. induction i as [|i IH]; intros [|y l] L; cbn in *; try lia; [reflexivity|]. apply IH. lia. Qed.
Lemma lset_id {X} i (x : X) : forall l, nth_error l i = Some x -> lset i x l = l.
Proof. induction i as [|i IH]; intros [|y l] E; cbn in *; try discriminate E; [injection E as ->; reflexivity|]. rewrite IH by exact E. reflexivity. Qed.
Lemma lset_length {X} i (x : X) : forall l, List.length (lset i x l) = List.length l.
Proof. induction i as [|i IH]; intros [|y l]; cbn; try reflexivity. rewrite IH. reflexivity. Qed.
Lemma own_started i j c d g : own i (Started j c d :: g) = own i g. Proof. reflexivity. Qed.
Lemma own_env i t : own i (map Env t) = []. Proof. induction t as [|e t IH]; [reflexivity|exact IH]. Qed.

(** where a message in a longer log is *)
Lemma split_log {X} (g x g1 g2 : list X) (e : X) : g ++ x = g1 ++ e :: g2 ->
  (exists g3, g = g1 ++ e :: g3) \/ exists x1 x2, x = x1 ++ e :: x2 /\ g1 = g ++ x1.
Proof.
  revert g1. induction g as [|y g IH]; intros g1 E; cbn [app] in E.
  - right. exists g1, g2. auto.
  - destruct g1 as [|z g1]; cbn [app] in E; injection E as -> E.
    + left. exists g. reflexivity.
    + destruct (IH _ E) as [(g3 & ->)|(x1 & x2 & -> & ->)]; [left; exists g3; reflexivity|right; exists x1, x2; auto].
Qed.

(** task [i] takes a step from mode [s] *)
Lemma Linv_step P owner i s m head w T t w' m' tasks' : Linv P owner ->
  (forall j, own j head = if Nat.eqb i j then T else []) -> (forall j e, In (By j e) head -> exists r, e = Got r) ->
  lk s m (back Free) -> s = (if match owner with Some k => Nat.eqb k i | None => false end then Hold else Free) ->
  locked w = locked (p_world P) -> clean (own i (p_log P) ++ T) ->
  (forall j, j <> i -> nth_error tasks' j = nth_error (p_tasks P) j) -> nth_error tasks' i = Some m' ->
  (forall j, (List.length tasks' <= j)%nat -> (List.length (p_tasks P) <= j)%nat) -> (i < List.length tasks')%nat ->
  advance m w = (t, w', m') ->
  exists owner', Linv (mkPool w' tasks' (p_log P ++ head ++ map (By i) t)) owner'.
Proof.
  intros I HO HG L S LW C T1 T2 T3 T4 AD.
  assert (OI : forall j, j <> i -> own j (p_log P ++ head ++ map (By i) t) = own j (p_log P)).
  { intros j N. rewrite !own_app, own_other, HO by exact N. replace (Nat.eqb i j) with false by (symmetry; apply Nat.eqb_neq; congruence). rewrite !app_nil_r. reflexivity. }
  assert (OW : own i (p_log P ++ head ++ map (By i) t) = (own i (p_log P) ++ T) ++ t).
  { rewrite !own_app, own_by, HO, Nat.eqb_refl, app_assoc. reflexivity. }
  assert (LO : s <> Free -> locked w = true).
  { rewrite LW, (L_locked _ _ I), S. destruct owner; [reflexivity|]. intros N. destruct (N eq_refl). }
  assert (SN : s <> Sent) by (rewrite S; destruct owner as [k|]; [destruct (Nat.eqb k i)|]; discriminate).
  destruct (advance_lk m (back Free) ltac:(intros o [B|(B & _)]; [discriminate B|apply B; reflexivity]) s w (own i (p_log P) ++ T) t w' m' L LO (fun _ => C) AD)
    as (s' & S1 & S2 & S3 & S4 & S5 & S6 & S7).
  assert (LG : forall g1 k c X p g2, p_log P ++ head ++ map (By i) t = g1 ++ By k (Send c X p) :: g2 -> registration X -> forall j, j <> k -> ~ waiting (own j g1)).
  { intros g1 k c X p g2 E R j N. destruct (split_log _ _ _ _ _ E) as [(g3 & G)|(x1 & x2 & E1 & ->)]; [eapply (L_log _ _ I); eassumption|].
    destruct (split_log _ _ _ _ _ E1) as [(g3 & G)|(x3 & x4 & E2 & ->)].
    - destruct (HG k (Send c X p)) as (r & B); [rewrite G; apply in_or_app; right; left; reflexivity|discriminate B].
    - assert (J : In (By k (Send c X p)) (map (By i) t)) by (rewrite E2; apply in_or_app; right; left; reflexivity).
      apply in_map_iff in J. destruct J as (e & J1 & J2). injection J1 as <- ->.
      assert (K : own j (p_log P ++ head ++ x3) = own j (p_log P)).
      { rewrite !own_app, HO. replace (Nat.eqb i j) with false by (symmetry; apply Nat.eqb_neq; congruence).
        assert (Y : own j x3 = []). { assert (Y : own j (map (By i) t) = []) by (apply own_other; exact N). rewrite E2, own_app in Y. apply app_eq_nil in Y. apply Y. }
        rewrite Y, !app_nil_r. reflexivity. }
      rewrite K. assert (NO : owner <> Some j).
      { intros ->. cbn [locked] in *. assert (Z : s = Free) by (rewrite S; destruct (Nat.eqb_spec j i); [contradiction|reflexivity]).
        apply (S7 Z) with (c := c) (X := X) (p := p); [rewrite LW, (L_locked _ _ I); reflexivity|exact J2|exact R]. }
      destruct (nth_error (p_tasks P) j) as [mj|] eqn:NJ.
      + apply (L_other _ _ I _ _ NJ NO).
      + apply nth_error_None in NJ. rewrite (L_none _ _ I _ NJ). apply clean_nil. }
  exists (match s' with Free => match s with Free => owner | _ => None end | _ => Some i end).
  split; cbn [p_world p_tasks p_log].
  - destruct s'; [|apply S3; reflexivity|contradiction]. rewrite (S5 eq_refl). destruct s; [|reflexivity|contradiction]. rewrite LW. apply (L_locked _ _ I).
  - intros j EJ. destruct s'; [|injection EJ as <-; exists m'; auto|contradiction].
    destruct s; [|discriminate EJ|contradiction]. assert (N : j <> i).
    { intros ->. rewrite EJ, Nat.eqb_refl in S. discriminate S. }
    rewrite (T1 _ N). apply (L_owner _ _ I _ EJ).
  - intros j mj NJ NO. destruct (Nat.eq_dec j i) as [->|N].
    + rewrite T2 in NJ. injection NJ as <-. rewrite OW. destruct s'; [auto|destruct (NO eq_refl)|contradiction].
    + rewrite (OI _ N). rewrite (T1 _ N) in NJ. apply (L_other _ _ I _ _ NJ). intros EO. subst owner.
      assert (Z : s = Free) by (rewrite S; destruct (Nat.eqb_spec j i); [contradiction|reflexivity]). subst s.
      destruct s'; [rewrite Z in NO; destruct (NO eq_refl)| |contradiction]. rewrite LW, (L_locked _ _ I) in S4. discriminate (S4 eq_refl Z).
  - intros j GE. assert (N : j <> i) by lia. rewrite (OI _ N). apply (L_none _ _ I), T3, GE.
  - exact LG.
Qed.

Lemma Linv_pstep n P owner e : (forall c, e = Pool.Call c -> plain c) -> Linv P owner -> exists owner', Linv (pstep n P e) owner'.
Proof.
  intros PL I. destruct e as [c|i k clock|i|c|c code b|]; [cbn [pstep]..|].
  - destruct (advance (tperform n c) (p_world P)) as [[t w'] m'] eqn:AD.
    assert (NO : owner <> Some (List.length (p_tasks P))).
    { intros E. destruct (L_owner _ _ I _ E) as (m & NJ & _). rewrite (proj2 (nth_error_None (p_tasks P) _) (le_n _)) in NJ. discriminate NJ. }
    change (p_log P ++ Started (List.length (p_tasks P)) c (w_data (p_world P)) :: map (By (List.length (p_tasks P))) t) with
      (p_log P ++ [Started (List.length (p_tasks P)) c (w_data (p_world P))] ++ map (By (List.length (p_tasks P))) t).
    eapply (Linv_step P owner (List.length (p_tasks P)) Free (tperform n c) _ (p_world P) []); [exact I| | | | | | | | | | |exact AD].
    + intros j. cbn. destruct (Nat.eqb _ j); reflexivity.
    + intros j e [J|[]]. discriminate J.
    + apply neat_perform; [apply PL; reflexivity|discriminate].
    + destruct owner as [k|]; [|reflexivity]. destruct (Nat.eqb_spec k (List.length (p_tasks P))); [subst; destruct (NO eq_refl)|reflexivity].
    + reflexivity.
    + rewrite (L_none _ _ I) by lia. apply clean_nil.
    + intros j N. destruct (Nat.lt_ge_cases j (List.length (p_tasks P))) as [LT|GE].
      * apply nth_error_app1. exact LT.
      * rewrite (proj2 (nth_error_None _ _) GE). apply nth_error_None. rewrite app_length. cbn. lia.
    + rewrite nth_error_app2, Nat.sub_diag by lia. reflexivity.
    + intros j. rewrite app_length. cbn. lia.
    + rewrite app_length. cbn. lia.
  - set (s := if match owner with Some k => Nat.eqb k i | None => false end then Hold else Free).
    assert (K : forall m0 M W, nth_error (p_tasks P) i = Some m0 -> lk s M (back Free) -> locked W = locked (p_world P) ->
      exists owner', Linv (let '(t, w', m') := advance M W in mkPool w' (lset i m' (p_tasks P)) (p_log P ++ [By i (Got (mkResp k [] None clock))] ++ map (By i) t)) owner').
    { intros m0 M W NI LM LW. destruct (advance M W) as [[t w'] m'] eqn:AD.
      assert (LT : (i < List.length (p_tasks P))%nat) by (apply nth_error_Some; rewrite NI; discriminate).
      eapply (Linv_step P owner i s M _ _ [Got (mkResp k [] None clock)]); [exact I| | |exact LM|reflexivity|exact LW| | | | | |exact AD].
      + intros j. cbn. destruct (Nat.eqb i j); reflexivity.
      + intros j e' [J|[]]. injection J as <- <-. eauto.
      + split.
        * intros (T0 & c & X & p & H & _). apply app_inj_tail in H. destruct H as (_ & H). discriminate H.
        * intros (T0 & c & X & p & c' & ms & H & _). change [Send c X p; AwaitReply c' ms] with ([Send c X p] ++ [AwaitReply c' ms]) in H.
          rewrite app_assoc in H. apply app_inj_tail in H. destruct H as (_ & H). discriminate H.
      + intros j N. apply lset_other. congruence.
      + apply lset_eq. exact LT.
      + intros j. rewrite lset_length. auto.
      + rewrite lset_length. exact LT. }
    assert (LS : forall m, nth_error (p_tasks P) i = Some m -> lk s m (back Free)).
    { intros m NI. unfold s. destruct owner as [j|]; [destruct (Nat.eqb_spec j i) as [->|NE]|].
      - destruct (L_owner _ _ I _ eq_refl) as (m1 & NJ & L). rewrite NI in NJ. injection NJ as <-. apply L.
      - destruct (L_other _ _ I _ _ NI) as (L & _); [congruence|]. apply L.
      - destruct (L_other _ _ I _ _ NI) as (L & _); [discriminate|]. apply L. }
    destruct (nth_error (p_tasks P) i) as [[o|q|f q|e q|q x]|] eqn:NI; try (exists owner; exact I).
    + destruct (fits e k); [|exists owner; exact I]. apply (K _ _ _ eq_refl).
      * pose proof (LS _ eq_refl) as (_ & L). specialize (L k). unfold s in *. destruct owner as [j|]; [destruct (Nat.eqb j i)|]; exact L.
      * unfold opened_by. destruct e; try reflexivity. destruct k; reflexivity.
    + destruct k; try (exists owner; exact I). apply (K _ _ _ eq_refl); [|reflexivity].
      pose proof (LS _ eq_refl) as L. cbn [lk] in L. unfold s in *. destruct owner as [j|]; [destruct (Nat.eqb j i)|]; first [exact L|exact (proj2 L)].
  - destruct (nth_error (p_tasks P) i) as [[o|q|f q|e q|q x]|] eqn:NI; try (exists owner; exact I).
    destruct (advance (Lock q x) (p_world P)) as [[t w'] m'] eqn:AD.
    assert (LT : (i < List.length (p_tasks P))%nat) by (apply nth_error_Some; rewrite NI; discriminate).
    destruct (match owner with Some k => Nat.eqb k i | None => false end) eqn:EO.
    + assert (LK : locked (p_world P) = true) by (rewrite (L_locked _ _ I); destruct owner; [reflexivity|discriminate EO]).
      cbn [advance] in AD. fold (locked (p_world P)) in AD. rewrite LK in AD. injection AD as <- <- <-. exists owner.
      rewrite (lset_id _ _ _ NI). cbn [map app]. rewrite app_nil_r. destruct P. exact I.
    + destruct (L_other _ _ I _ _ NI) as (L & C).
      { intros ->. rewrite Nat.eqb_refl in EO. discriminate EO. }
      eapply (Linv_step P owner i Free (Lock q x) [] (p_world P) []); [exact I| | | | | | | | | | |exact AD].
      * intros j. destruct (Nat.eqb i j); reflexivity.
      * intros j e' [].
      * exact L.
      * rewrite EO. reflexivity.
      * reflexivity.
      * rewrite app_nil_r. exact C.
      * intros j N. apply lset_other. congruence.
      * apply lset_eq. exact LT.
      * intros j. rewrite lset_length. auto.
      * rewrite lset_length. exact LT.
  - destruct (lose c (p_world P)) as [t w'] eqn:LS. exists owner. pose proof (lose_locked c (p_world P)) as K. rewrite LS in K. cbn [snd] in K.
    assert (O : forall j, own j (p_log P ++ map Env t) = own j (p_log P)) by (intros j; rewrite own_app, own_env, app_nil_r; reflexivity).
    split; cbn [p_world p_tasks p_log].
    + rewrite K. apply (L_locked _ _ I).
    + apply (L_owner _ _ I).
    + intros j m NJ NO. rewrite O. apply (L_other _ _ I _ _ NJ NO).
    + intros j GE. rewrite O. apply (L_none _ _ I _ GE).
    + intros g1 i c' X p g2 E R j N. destruct (split_log _ _ _ _ _ E) as [(g3 & G)|(x1 & x2 & E1 & ->)]; [eapply (L_log _ _ I); eassumption|].
      assert (J : In (By i (Send c' X p)) (map Env t)) by (rewrite E1; apply in_or_app; right; left; reflexivity).
      apply in_map_iff in J. destruct J as (e & J & _). discriminate J.
  - destruct (handler_of c code (p_world P)) as [h|]; [destruct h|]; try (exists owner; exact I).
    exists owner. assert (O : forall j, own j (p_log P ++ [Pushed c code b]) = own j (p_log P)) by (intros j; rewrite own_app; cbn; rewrite app_nil_r; reflexivity).
    split; cbn [p_world p_tasks p_log].
    + apply (L_locked _ _ I).
    + apply (L_owner _ _ I).
    + intros j m NJ NO. rewrite O. apply (L_other _ _ I _ _ NJ NO).
    + intros j GE. rewrite O. apply (L_none _ _ I _ GE).
    + intros g1 i c' X p g2 E R j N. destruct (split_log _ _ _ _ _ E) as [(g3 & G)|(x1 & x2 & E1 & ->)]; [eapply (L_log _ _ I); eassumption|].
      assert (J : In (By i (Send c' X p)) [Pushed c code b]) by (rewrite E1; apply in_or_app; right; left; reflexivity).
      destruct J as [J|[]]. discriminate J.
  - destruct (pstep_handle_at n P) as [->|(c & code & b & l & cbs & _ & _ & ->)]; [exists owner; exact I|].
    exists owner. assert (O : forall j, own j (p_log P ++ [Applied c code b cbs]) = own j (p_log P)) by (intros j; rewrite own_app; cbn; rewrite app_nil_r; reflexivity).
    split; cbn [p_world p_tasks p_log].
    + apply (L_locked _ _ I).
    + apply (L_owner _ _ I).
    + intros j m NJ NO. rewrite O. apply (L_other _ _ I _ _ NJ NO).
    + intros j GE. rewrite O. apply (L_none _ _ I _ GE).
    + intros g1 i c' X p g2 E R j N. destruct (split_log _ _ _ _ _ E) as [(g3 & G)|(x1 & x2 & E1 & ->)]; [eapply (L_log _ _ I); eassumption|].
      assert (J : In (By i (Send c' X p)) [Applied c code b cbs]) by (rewrite E1; apply in_or_app; right; left; reflexivity).
      destruct J as [J|[]]. discriminate J.
Qed.
Lemma Linv_start w : locked w = false -> Linv (start w) None.
Proof.
  intros L. split; cbn.
  - exact L.
  - discriminate.
  - intros [|j] m; discriminate.
  - reflexivity.
  - intros [|] ? ? ? ? ? E; discriminate E.
Qed.
Lemma Linv_run n w es : locked w = false -> (forall c, In (Pool.Call c) es -> plain c) -> exists owner, Linv (prun n (start w) es) owner.
Proof.
  intros L. unfold prun. assert (G : exists owner, Linv (start w) owner) by (exists None; apply Linv_start, L). revert G. generalize (start w) as P.
  induction es as [|e es IH]; intros P (owner & I) PL; cbn [fold_left]; [exists owner; exact I|]. apply IH.
  - eapply Linv_pstep; [|exact I]. intros c ->. apply PL. left. reflexivity.
  - intros c J. apply PL. right. exact J.
Qed.
