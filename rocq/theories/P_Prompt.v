(** What a call does with the answer to its message: at once, without sending anything else. *)
From Verif Require Import Py F64 Struct Utf Utility Const Spec Enum Decode Messages Calls World Request Gateway Traces Paths Api Tasks Pool SpecPool.
From Verif Require Import P_Base P_Util P_Pool P_Moves P_Path.

(** one step of [m] in the worlds with [pre] returns *)
Definition lands {A} (pre : world -> Prop) (F : world -> world * A) (m : task A) : Prop :=
  forall w, pre w -> advance m w = ([], fst (F w), Done (Val (snd (F w)))).
Lemma advance_bind {A B} (m : task A) (f : A -> task B) : forall w w' a, advance m w = ([], w', Done (Val a)) -> advance (tbind m f) w = advance (f a) w'.
Proof.
  induction m as [[a0|e|y]|k IH|g k IH|e k IH|k IH xx IHx]; intros w w' a E; cbn [advance tbind] in *; try discriminate E.
  - injection E as -> ->. reflexivity.
  - apply IH, E.
  - destruct (g w) as [t1 w1]. destruct (advance k w1) as [[t2 w2] m2] eqn:E2. injection E as E -> ->. destruct t1; [|discriminate E]. cbn [app] in E. subst t2.
    rewrite (IH _ _ _ E2). destruct (advance (f a) w') as [[? ?] ?]. reflexivity.
  - destruct (m_locked (w_cm w)); [discriminate E|]. apply IH, E.
Qed.
Lemma advance_catch {A} (m : task A) p h : forall w w' a, advance m w = ([], w', Done (Val a)) -> advance (tcatch m p h) w = ([], w', Done (Val a)).
Proof.
  induction m as [[a0|e|y]|k IH|g k IH|e k IH|k IH xx IHx]; intros w w' a E; cbn [advance tcatch] in *; try discriminate E.
  - exact E.
  - apply IH, E.
  - destruct (g w) as [t1 w1]. destruct (advance k w1) as [[t2 w2] m2] eqn:E2. injection E as E -> ->. destruct t1; [|discriminate E]. cbn [app] in E. subst t2.
    rewrite (IH _ _ _ E2). reflexivity.
  - destruct (m_locked (w_cm w)); [discriminate E|]. apply IH, E.
Qed.

Section Answer.
  Variables (X : Z) (b : bytes).
  Definition nosend (t : trace) : Prop := forall c p, ~ In (Send c X p) t.
  Definition asks {A} (G : task A -> Prop) (f : world -> trace * world) (k : task A) : Prop :=
    exists c p k', (forall w, f w = ([Send c X p], w)) /\ k = Wait (AwaitReply c 2000) k' /\ G (k' (KReply (X + 1) b)).
  Definition quiet (e : ev) : Prop := match e with Send _ _ _ => False | _ => True end.
  (** wherever [m] sends a message with code [X] it waits for the answer; with the answer (X+1, b) it goes on as [G] says *)
  Fixpoint aware {A} (G : task A -> Prop) (m : task A) : Prop :=
    match m with
    | Done _ => True
    | Look k => forall w, aware G (k w)
    | Do f k => ((forall w, nosend (fst (f w))) \/ asks G f k) /\ aware G k
    | Wait e k => quiet e /\ forall r, aware G (k r)
    | Lock k x => aware G k /\ aware G x
    end.
  Definition silent {A} (m : task A) : Prop := aware (fun _ => False) m.
  Lemma aware_weak {A} (G G' : task A -> Prop) m : (forall x, G x -> G' x) -> aware G m -> aware G' m.
  Proof.
    intros H. induction m as [o|k IH|f k IH|e k IH|k IH xx IHx]; cbn [aware]; auto.
    - intros ([N|(c & p & k' & E1 & -> & K)] & A9); (split; [|apply IH; exact A9]); [left; exact N|right]. exists c, p, k'. auto.
    - intros (? & ?). auto.
    - intros (? & ?). auto.
  Qed.
  Lemma silent_aware {A} (G : task A -> Prop) m : silent m -> aware G m. Proof. apply aware_weak. contradiction. Qed.
  Lemma aware_bind {A B} (G : task A -> Prop) (G' : task B -> Prop) (m : task A) (f : A -> task B) :
    aware G m -> (forall x, G x -> G' (tbind x f)) -> (forall a, aware G' (f a)) -> aware G' (tbind m f).
  Proof.
    intros M H F. induction m as [[a|e|y]|k IH|g k IH|e k IH|k IH xx IHx]; cbn [aware tbind] in *; auto.
    - destruct M as ([N|(c & p & k' & E1 & -> & K)] & A0); (split; [|apply IH; exact A0]); [left; exact N|right]. exists c, p, (fun r => tbind (k' r) f). auto.
    - destruct M. auto.
    - destruct M. auto.
  Qed.
  Lemma aware_catch {A} (G G' : task A -> Prop) (m : task A) p h :
    aware G m -> (forall x, G x -> G' (tcatch x p h)) -> (forall e, aware G' (h e)) -> aware G' (tcatch m p h).
  Proof.
    intros M H F. induction m as [[a|e|y]|k IH|g k IH|e k IH|k IH xx IHx]; cbn [aware tcatch] in *; auto.
    - destruct (p e); cbn; auto.
    - destruct M as ([N|(c & q & k' & E1 & -> & K)] & A0); (split; [|apply IH; exact A0]); [left; exact N|right]. exists c, q, (fun r => tcatch (k' r) p h). auto.
    - destruct M. auto.
    - destruct M. auto.
  Qed.
  Lemma sil_bind {A B} (m : task A) (f : A -> task B) : silent m -> (forall a, silent (f a)) -> silent (tbind m f).
  Proof. intros M F. eapply aware_bind; [exact M|intros ? []|exact F]. Qed.
  Lemma aw_bind {A B} (G : task B -> Prop) (m : task A) (f : A -> task B) : silent m -> (forall a, aware G (f a)) -> aware G (tbind m f).
  Proof. intros M F. eapply aware_bind; [exact M|intros ? []|exact F]. Qed.
  Lemma sil_catch {A} (m : task A) p h : silent m -> (forall e, silent (h e)) -> silent (tcatch m p h).
  Proof. intros M F. eapply aware_catch; [exact M|intros ? []|exact F]. Qed.
  Lemma sil_do_end {A} f (o : out A) : silent (Do (fun w => ([], f w)) (Done o)).
  Proof. split; [left; intros w c p []|exact Logic.I]. Qed.
  Lemma sil_finally {A} (m : task A) f : silent m -> silent (tfinally m f).
  Proof.
    intros M. unfold silent in *. induction m as [[a|e|y]|k IH|g k IH|e k IH|k IH xx IHx]; cbn [aware tfinally] in *; auto; try apply sil_do_end.
    - destruct M as ([N|(c & p & k' & _ & _ & [])] & A0). split; [left; exact N|apply IH; exact A0].
    - destruct M. auto.
    - destruct M. auto.
  Qed.
  Lemma sil_lock {A} (m : task A) : silent m -> silent (twith_lock m).
  Proof. intros M. split; [apply sil_finally, M|exact Logic.I]. Qed.
  Lemma sil_get {A B} (f : world -> A) (k : A -> task B) : (forall a, silent (k a)) -> silent (tbind (tget f) k).
  Proof. intros K w. apply K. Qed.
  Lemma aw_get {A B} (G : task B -> Prop) (f : world -> A) (k : A -> task B) : (forall a, aware G (k a)) -> aware G (tbind (tget f) k).
  Proof. intros K w. apply K. Qed.
  Lemma sil_lift {A} (r : res A) : silent (tlift r). Proof. destruct r; exact Logic.I. Qed.
  Lemma sil_do f : silent (tdo f). Proof. apply sil_do_end. Qed.
  Lemma sil_emit e : (forall c p, e <> Send c X p) -> silent (temit e).
  Proof. intros H. split; [left; intros w c p [J|[]]; exact (H c p J)|exact Logic.I]. Qed.
  Lemma sil_wait e : quiet e -> silent (twait e). Proof. intros Q. split; [exact Q|]. intros r. exact Logic.I. Qed.
  Lemma sil_sleep ms : silent (tsleep ms). Proof. apply sil_bind; [apply sil_wait; exact Logic.I|]. intros []; exact Logic.I. Qed.
  Lemma sil_decode m : silent (tdecode m).
  Proof. intros w. destruct (m (w_data w)) as [d [?|?]]; (split; [left; intros w' c p []|exact Logic.I]). Qed.
  #[local] Hint Resolve sil_sleep sil_decode sil_lift sil_do : sil.
  Ltac sl := repeat match goal with
    | |- silent (tbind (tget _) _) => apply sil_get; intros ?
    | |- silent (tbind _ _) => apply sil_bind; [|intros ?]
    | |- silent (tcatch _ _ _) => apply sil_catch; [|intros ?]
    | |- silent (if ?b then _ else _) => destruct b
    | |- silent (match ?x with _ => _ end) => destruct x
    | |- silent (tret _) => exact Logic.I
    | |- silent (traise _) => exact Logic.I
    | |- silent (tstuck _) => exact Logic.I
    | |- silent (Done _) => exact Logic.I
    | |- silent (twait _) => apply sil_wait; exact Logic.I
    | |- silent (tget _) => intros ?; exact Logic.I
    | |- silent (temit (Raw _ _)) => apply sil_emit; discriminate
    | |- silent (temit (CloseTransport _)) => apply sil_emit; discriminate
    | |- silent _ => solve [auto with sil]
    end.
  (** ** a request *)
  Definition gives {A} (a : A) : task A -> Prop := fun m => m = tret a.
  Lemma aware_loop p c mr : forall left att, aware (gives (Some b)) (trequest_loop left att mr c X p).
  Proof.
    induction left as [|left IH]; intros att; cbn [trequest_loop]; [exact Logic.I|].
    apply aw_get. intros ok. destruct (negb ok); [exact Logic.I|]. apply aw_get. intros k. destruct (c_closing k); [apply silent_aware; sl|].
    assert (K : forall r, aware (gives (Some b)) (match r with
          | KReply rc b0 | KTimeoutReply rc b0 => if rc =? X + 1 then tret (Some b0) else if rc =? CODE_ERROR_LOGIN_REJECTED then traise ESLLogin
             else if (rc =? CODE_ERROR_INVALID_REQUEST) || (rc =? CODE_ERROR_BAD_PARAMETER)
             then if att =? mr then traise ESLRequest else tsleep (1000 * (COM_RETRY_WAIT * (att + 1))) ;;; trequest_loop left (att + 1) mr c X p
             else if att =? mr then traise ESLResponse else tsleep (1000 * (COM_RETRY_WAIT * (att + 1))) ;;; trequest_loop left (att + 1) mr c X p
          | KTimeout => if att =? mr then traise ESLConnection else tsleep (1000 * (COM_RETRY_WAIT * (att + 1))) ;;; trequest_loop left (att + 1) mr c X p
          | KCancelFut | KCancelTask => ok <- tget (connected c) ;; if ok then tret None else traise ESLConnection
          | KDone | KOSError => tstuck Unfit end)).
    { assert (R : forall ms, aware (gives (Some b)) (tsleep ms ;;; trequest_loop left (att + 1) mr c X p)) by (intros ms; apply aw_bind; [apply sil_sleep|intros _; apply IH]).
      intros r. destruct r; repeat match goal with |- aware _ (if ?x then _ else _) => destruct x end; try exact Logic.I; try apply R; apply silent_aware; sl. }
    intros w. cbn [tsend tget tbind tret aware]. destruct (c_open (get_conn c w)); cbn [tbind aware]; [|split; [exact Logic.I|intros r; apply K]].
    destruct (makeMessage 0 X p) as [m|e]; cbn [tlift tbind tret traise aware temit]; [|exact Logic.I].
    split; [|split; [exact Logic.I|intros r; apply K]]. right. exists c, p. eexists. split; [reflexivity|]. split; [reflexivity|]. unfold gives. cbn [tbind tret]. rewrite (Z.eqb_refl (X + 1)). reflexivity.
  Qed.
  Lemma sil_loop Y p c mr : Y <> X -> forall left att, silent (trequest_loop left att mr c Y p).
  Proof.
    intros NY. induction left as [|left IH]; intros att; cbn [trequest_loop]; [exact Logic.I|].
    apply sil_get. intros ok. destruct (negb ok); [exact Logic.I|]. apply sil_get. intros k. destruct (c_closing k); [sl|].
    assert (S : silent (tsend c Y p)).
    { unfold tsend. apply sil_get. intros k0. destruct (c_open k0); [|exact Logic.I]. apply sil_bind; [apply sil_lift|intros _]. apply sil_emit. intros c' p' E. injection E as _ E _. contradiction. }
    apply sil_bind; [exact S|intros _]. apply sil_bind; [apply sil_wait; exact Logic.I|]. intros r.
    assert (R : forall ms, silent (tsleep ms ;;; trequest_loop left (att + 1) mr c Y p)) by (intros ms; apply sil_bind; [apply sil_sleep|intros _; apply IH]).
    destruct r; repeat match goal with |- silent (if ?x then _ else _) => destruct x end; try exact Logic.I; try apply R; sl.
  Qed.
  Lemma aware_request c p mr : aware (gives (Some b)) (tmake_request c X p mr). Proof. apply aware_loop. Qed.
  Lemma sil_request c Y p mr : Y <> X -> silent (tmake_request c Y p mr). Proof. intros N. apply sil_loop, N. Qed.
  Lemma sil_data Y p dec mr c : Y <> X -> silent (tdata_request Y p dec mr c).
  Proof. intros N. unfold tdata_request. apply sil_bind; [apply sil_request, N|intros r]. sl. Qed.
  Lemma sil_command_request Y p mr c : Y <> X -> silent (tcommand_request Y p mr c).
  Proof. intros N. unfold tcommand_request. apply sil_bind; [apply sil_lift|intros q]. apply sil_bind; [apply sil_request, N|intros r]. sl. Qed.

  (** ** connecting: other codes *)
  Section Connecting.
    Hypothesis NC : ~ connecting_code X.
    Ltac no := let E := fresh in intros E; apply NC; rewrite <- E; vm_compute; intuition.
    Lemma sil_version mr c : silent (trequest_gateway_version mr c).
    Proof. unfold trequest_gateway_version. apply sil_get. intros fl. apply sil_data. no. Qed.
    Lemma sil_config mr c : silent (trequest_pool_config mr c). Proof. apply sil_data. no. Qed.
    Lemma sil_to_gateway ip port mr : silent (tconnect_to_gateway ip port mr).
    Proof.
      unfold tconnect_to_gateway. apply sil_bind; [unfold tcreate_connection; sl|intros c].
      apply sil_bind.
      - unfold tgateway_connect. apply sil_get. intros k. apply sil_bind; [sl|intros _]. apply sil_bind; [apply sil_sleep|intros _]. apply sil_get. intros ok.
        destruct (negb ok); [exact Logic.I|]. apply sil_bind; [apply sil_request; no|intros r]. sl.
      - intros mac. apply sil_bind; [|intros ok; sl]. unfold tgateway_login. apply sil_bind; [apply sil_lift|intros m]. apply sil_bind; [apply sil_request; no|intros r; sl].
    Qed.
    Lemma sil_proto : silent tproto_or_fail. Proof. unfold tproto_or_fail. sl. Qed.
    Lemma sil_mproto : silent tm_proto_or_fail. Proof. unfold tm_proto_or_fail. sl. Qed.
    #[local] Hint Resolve sil_proto sil_mproto sil_version sil_config sil_to_gateway : sil.
    Lemma sil_close c force : silent (tasync_close c force).
    Proof.
      unfold tasync_close.
      assert (L : silent (Do (lose c) (tret tt))).
      { split; [left; intros w c' p J|exact Logic.I]. unfold lose in J. destruct (connected c w); [destruct (w_cb w)|]; cbn in J; repeat (destruct J as [J|J]; [discriminate J|]); exact J. }
      sl; exact L.
    Qed.
    Lemma sil_remove : silent tremove_client.
    Proof. unfold tremove_client. apply sil_catch; [|intros; exact Logic.I]. apply sil_bind; [apply sil_mproto|intros c]. apply sil_get. intros id. apply sil_command_request. no. Qed.
    #[local] Hint Resolve sil_close sil_remove : sil.
    Lemma sil_unsubscribe : silent tunsubscribe_gateway.
    Proof. unfold tunsubscribe_gateway. apply sil_get. intros a. destruct (negb a); [exact Logic.I|]. apply sil_lock. sl. Qed.
    #[local] Hint Resolve sil_unsubscribe : sil.
    Lemma sil_disconnect force : silent (tasync_disconnect force). Proof. unfold tasync_disconnect. sl. Qed.
    #[local] Hint Resolve sil_disconnect : sil.
    Lemma sil_connected {A} connect (method : Z -> nat -> task A) d : silent connect -> (forall mr c, silent (method mr c)) -> silent (tconnected_request connect method d).
    Proof.
      intros C M. unfold tconnected_request, tattempt_request.
      assert (T : forall mr, silent (ok <- connect ;; if negb ok then traise EAttribute else c <- tproto_or_fail ;; method mr c)).
      { intros mr. apply sil_bind; [exact C|intros ok]. destruct (negb ok); [exact Logic.I|]. apply sil_bind; [apply sil_proto|intros c; apply M]. }
      apply sil_get. intros mr. apply sil_catch; [apply T|intros e]. apply sil_bind; [apply sil_disconnect|intros _]. apply sil_bind; [apply sil_sleep|intros _; apply T].
    Qed.
    Lemma sil_subscribe connect : silent connect -> silent (tsubscribe_gateway connect).
    Proof.
      intros C. unfold tsubscribe_gateway. apply sil_get. intros a. destruct (negb a); [exact Logic.I|]. apply sil_lock.
      apply sil_get. intros u. destruct (negb u); [|exact Logic.I]. apply sil_get. intros id.
      apply sil_bind; [apply sil_connected; [exact C|intros; apply sil_command_request; no]|intros _]. sl.
    Qed.
    Lemma sil_attach connect c mr : silent connect -> silent (tattach connect c mr).
    Proof. intros C. unfold tattach. pose proof (sil_subscribe _ C) as S. sl; exact S. Qed.
    Lemma sil_connect : forall n x, silent (tasync_connect n x).
    Proof.
      induction n as [|n IH]; intros x; cbn [tasync_connect]; [exact Logic.I|].
      assert (P : silent (tpoll (tasync_connect n no_args) K_CONFIG trequest_pool_config)).
      { unfold tpoll. apply sil_bind; [apply sil_connected; [apply IH|apply sil_config]|]. intros [v|]; [apply sil_do|exact Logic.I]. }
      assert (T : forall c mr, silent (tattach (tasync_connect n no_args) c mr)) by (intros; apply sil_attach, IH).
      sl; auto.
    Qed.
    (** ** the calls *)
    Lemma aware_connected {A} (pre : world -> Prop) (F : world -> world * A) connect (method : Z -> nat -> task A) d :
      silent connect -> (forall mr c, aware (lands pre F) (method mr c)) -> aware (lands pre F) (tconnected_request connect method d).
    Proof.
      intros C M. unfold tconnected_request, tattempt_request.
      assert (T : forall mr, aware (lands pre F) (ok <- connect ;; if negb ok then traise EAttribute else c <- tproto_or_fail ;; method mr c)).
      { intros mr. apply aw_bind; [exact C|intros ok]. destruct (negb ok); [exact Logic.I|]. apply aw_bind; [apply sil_proto|intros c; apply M]. }
      apply aw_get. intros mr. eapply aware_catch; [apply T| |].
      - intros x Lx w H. apply advance_catch, Lx, H.
      - intros e. apply aw_bind; [apply sil_disconnect|intros _]. apply aw_bind; [apply sil_sleep|intros _; apply T].
    Qed.
    Lemma aware_tcommand {A} n (pre : world -> Prop) (F : world -> world * A) (method : Z -> nat -> task A) d :
      (forall mr c, aware (lands pre F) (method mr c)) -> aware (lands pre F) (tcommand n method d).
    Proof. intros M. apply aware_connected; [apply sil_connect|exact M]. Qed.
    Definition anywhere (w : world) : Prop := True.
    Lemma gives_lands {A} (a : A) m : gives a m -> lands anywhere (fun w => (w, a)) m.
    Proof. intros -> w _. reflexivity. Qed.
    Lemma aware_setting pl mr c : b = [] -> aware (lands anywhere (fun w => (w, tt))) (tcommand_request X pl mr c).
    Proof.
      intros Eb. unfold tcommand_request. apply aw_bind; [apply sil_lift|intros q]. eapply aware_bind; [apply aware_request| |].
      - intros x E. unfold gives in E. subst x b. intros w _. reflexivity.
      - intros r. apply silent_aware. sl.
    Qed.
    (** what an answered query leaves *)
    Definition stored (dec : bytes -> dict -> dict * res unit) (K : key) (w : world) : world :=
      match b with [] => w | _ => set_last (dset K (VBytes b) (w_last w)) (set_data (fst (dec b (w_data w))) w) end.
    Definition decodes (dec : bytes -> dict -> dict * res unit) (w : world) : Prop := b <> [] -> snd (dec b (w_data w)) = Ok tt.
    Definition fetched (dec : bytes -> dict -> dict * res unit) (w : world) : world * option bytes :=
      match b with [] => (w, None) | _ => (set_data (fst (dec b (w_data w))) w, Some b) end.
    Lemma aware_fetch (dec : bytes -> DM unit) pl mr c : aware (lands (decodes dec) (fetched dec)) (tdata_request X pl dec mr c).
    Proof.
      unfold tdata_request. eapply aware_bind; [apply aware_request| |].
      - intros x E. unfold gives in E. subst x. intros w D. unfold decodes, fetched in *. cbn [tbind tret]. destruct b as [|y l]; [reflexivity|]. cbn [nonempty tbind tdecode advance].
        specialize (D ltac:(discriminate)). destruct (dec (y :: l) (w_data w)) as [d r]. cbn [snd fst] in *. subst r. reflexivity.
      - intros r. apply silent_aware. sl.
    Qed.
    Lemma aware_tpoll n K (dec : spec_float -> bytes -> DM unit) (method : Z -> nat -> task (option bytes)) :
      (forall mr c, aware (lands (fun w => decodes (dec (w_clock w)) w) (fun w => fetched (dec (w_clock w)) w)) (method mr c)) ->
      aware (lands (fun w => decodes (dec (w_clock w)) w) (fun w => (stored (dec (w_clock w)) K w, tt))) (tpoll (tasync_connect n no_args) K method).
    Proof.
      intros M. unfold tpoll. eapply aware_bind; [apply aware_connected; [apply sil_connect|exact M]| |].
      - intros x Lx w D. rewrite (advance_bind _ _ _ _ _ (Lx w D)). unfold fetched, stored. destruct b; reflexivity.
      - intros [v|]; apply silent_aware; sl.
    Qed.
    Lemma aware_date mr c : X = CODE_GET_DATETIME_QUERY -> aware (lands (fun w => decodes (decode_date_time (w_clock w)) w) (fun w => fetched (decode_date_time (w_clock w)) w)) (trequest_date_time mr c).
    Proof.
      intros EX. unfold trequest_date_time. rewrite <- EX. eapply aware_bind; [apply aware_request| |].
      - intros x E. unfold gives in E. subst x. intros w D. unfold decodes, fetched in *. cbn [tbind tret]. destruct b as [|y l]; [reflexivity|]. cbn [nonempty tbind tdecode tget tret advance].
        specialize (D ltac:(discriminate)). destruct (decode_date_time (w_clock w) (y :: l) (w_data w)) as [d r]. cbn [snd fst] in *. subst r. reflexivity.
      - intros r. apply silent_aware. sl.
    Qed.
  End Connecting.

  (** ** along a path *)
  Definition told_to {A} (G : task A -> Prop) (t : trace) (m : task A) : Prop :=
    (forall t0 c p, t <> t0 ++ [Send c X p]) /\
    (forall t0 c p, t = t0 ++ [Send c X p; AwaitReply c 2000] -> exists k, m = Wait (AwaitReply c 2000) k /\ G (k (KReply (X + 1) b))).
  Lemma last_two {T} (a t t0 : list T) x y : a ++ t = t0 ++ [x; y] -> (exists t1, t = t1 ++ [x; y]) \/ (exists t1, a = t1 ++ [x] /\ t = [y]) \/ (a = t0 ++ [x; y] /\ t = []).
  Proof.
    intros E. apply app_eq_app in E. destruct E as (l & [(-> & E)|(-> & E)]); [|left; eauto]. destruct l as [|z l].
    - cbn [app] in E. left. exists []. exact (eq_sym E).
    - injection E as -> E. destruct l as [|z' l]; cbn [app] in E; [right; left; eauto|]. injection E as <- E. destruct l; [|discriminate E]. cbn in E. subst t. right. right. auto.
  Qed.
  Lemma last_one {T} (a t t0 : list T) x : a ++ t = t0 ++ [x] -> (exists t1, t = t1 ++ [x]) \/ (a = t0 ++ [x] /\ t = []).
  Proof.
    intros E. destruct t as [|y t] using rev_ind; [rewrite app_nil_r in E; right; auto|]. rewrite app_assoc in E. apply app_inj_tail in E. destruct E as (_ & ->). left. eauto.
  Qed.
  Lemma advance_told {A} (G : task A -> Prop) (m : task A) : forall w t w' m', aware G m -> advance m w = (t, w', m') -> told_to G t m' /\ aware G m'.
  Proof.
    assert (Nil : forall m : task A, told_to G [] m) by (intros m0; split; intros t0 c p E; destruct t0; discriminate E).
    induction m as [o|k IH|f k IH|e k IH|k IH xx IHx]; intros w t w' m' M E; cbn [advance aware] in *.
    - injection E as <- _ <-. split; [apply Nil|exact M].
    - exact (IH _ _ _ _ _ (M w) E).
    - destruct M as (S & M). destruct (f w) as [t1 w1] eqn:F. destruct (advance k w1) as [[t2 w2] m2] eqn:E2. injection E as <- <- <-. destruct (IH _ _ _ _ M E2) as ((T1 & T2) & A2). split; [|exact A2].
      destruct S as [N|(c & p & k' & Ef & Ek & K)].
      + specialize (N w). rewrite F in N. cbn [fst] in N. split; intros t0 c p E.
        * destruct (last_one _ _ _ _ E) as [(t3 & ->)|(-> & _)]; [eapply T1; reflexivity|]. eapply N, in_or_app. right. left. reflexivity.
        * destruct (last_two _ _ _ _ _ E) as [(t3 & ->)|[(t3 & -> & _)|(-> & _)]]; [eapply T2; reflexivity| |]; exfalso; eapply N, in_or_app; right; left; reflexivity.
      + rewrite Ef in F. injection F as <- <-. subst k. cbn [advance] in E2. injection E2 as <- <- <-. split; intros t0 c0 p0 E.
        * destruct t0 as [|? [|? []]]; discriminate E.
        * destruct t0 as [|? t0]; [injection E as <- <-; exists k'; auto|]. destruct t0 as [|? []]; discriminate E.
    - injection E as <- _ <-. split; [|exact M]. destruct M as (Q & _). split; intros t0 c p E; [destruct t0 as [|? []]; [injection E as ->; exact Q|discriminate E..]|destruct t0 as [|? []]; discriminate E].
    - destruct (m_locked (w_cm w)); [injection E as <- _ <-; split; [apply Nil|exact M]|]. exact (IH _ _ _ _ (proj1 M) E).
  Qed.
  Lemma told_after {A} (G : task A -> Prop) t r t' (m : task A) : told_to G t' m -> told_to G (t ++ Got r :: t') m.
  Proof.
    intros (T1 & T2). split; intros t0 c p E; rewrite (app_assoc t [Got r] t' : t ++ Got r :: t' = _) in E.
    - destruct (last_one _ _ _ _ E) as [(t3 & ->)|(Q & _)]; [eapply T1; reflexivity|]. apply app_inj_tail in Q. destruct Q. discriminate.
    - destruct (last_two _ _ _ _ _ E) as [(t3 & ->)|[(t3 & Q & _)|(Q & _)]]; [eapply T2; reflexivity|apply app_inj_tail in Q; destruct Q; discriminate|].
      change [Send c X p; AwaitReply c 2000] with ([Send c X p] ++ [AwaitReply c 2000]) in Q. rewrite app_assoc in Q. apply app_inj_tail in Q. destruct Q; discriminate.
  Qed.
  Lemma path_told {A} (U : world -> Prop) (G : task A -> Prop) (m : task A) w0 t m' : aware G m -> path U m w0 t m' -> told_to G t m' /\ aware G m'.
  Proof.
    intros M P. induction P as [t w' m' E|t e k kd clk w t' w' m' P (T & (_ & IH)) F Uw E|t k x w t' w' m' P (T & IH) Uw E|t k x clk w t' w' m' P (T & IH) Uw E].
    - eapply advance_told; eassumption.
    - destruct (advance_told G _ _ _ _ _ (IH kd) E) as (T' & A'). split; [apply told_after; exact T'|exact A'].
    - destruct (advance_told G _ _ _ _ _ IH E) as ((T1 & T2) & A'). split; [|exact A']. destruct T as (S1 & S2). split; intros t0 c p Q.
      + destruct (last_one _ _ _ _ Q) as [(t3 & ->)|(-> & _)]; [eapply T1; reflexivity|eapply S1; reflexivity].
      + destruct (last_two _ _ _ _ _ Q) as [(t3 & ->)|[(t3 & -> & _)|(-> & _)]]; [eapply T2; reflexivity|edestruct S1; reflexivity|]. destruct (S2 _ _ _ eq_refl) as (k0 & K & _). discriminate K.
    - destruct (advance_told G _ _ _ _ _ (proj2 IH) E) as (T' & A'). split; [apply told_after; exact T'|exact A'].
  Qed.
End Answer.

(** ** every task is on a path of its call *)
Definition called (n : nat) (P : pool) : Prop :=
  (forall i, (List.length (p_tasks P) <= i)%nat -> begun i (p_log P) = []) /\
  (forall i m, nth_error (p_tasks P) i = Some m -> exists c d w0, begun i (p_log P) = [(c, d)] /\ path (fun _ => True) (tperform n c) w0 (own i (p_log P)) m).
Lemma begun_step n P e : match e with Call _ => True | _ => (forall i, begun i (p_log (pstep n P e)) = begun i (p_log P)) /\ List.length (p_tasks (pstep n P e)) = List.length (p_tasks P) end.
Proof.
  destruct P as [w ts g].
  assert (R : forall w' i m h t, (forall j, begun j h = []) -> (forall j, begun j (p_log (mkPool w' (lset i m ts) (g ++ h ++ map (By i) t))) = begun j g) /\ List.length (p_tasks (mkPool w' (lset i m ts) (g ++ h ++ map (By i) t))) = List.length ts).
  { intros w' i m h t H. cbn [p_log p_tasks]. split; [intros j; rewrite !begun_app, H, begun_by, !app_nil_r; reflexivity|apply lset_len]. }
  destruct e as [c|i k clk|i|c|c code b|]; [exact Logic.I|cbn [pstep p_world p_tasks p_log]..|].
  - destruct (nth_error ts i) as [[| | |e0 k0|k0 x0]|]; try (split; reflexivity); [destruct (fits e0 k)|destruct k]; try (split; reflexivity);
    (destruct (advance _ _) as [[t w'] m]; apply (R w' i m [By i (Got _)] t); reflexivity).
  - destruct (nth_error ts i) as [[| | | |k0 x0]|]; try (split; reflexivity). destruct (advance _ _) as [[t w'] m]. apply (R w' i m [] t). reflexivity.
  - destruct (lose c w) as [t w']. cbn [p_log p_tasks]. split; [|reflexivity]. intros j. rewrite begun_app, begun_env, app_nil_r. reflexivity.
  - destruct (handler_of c code w) as [[h|h]|]; cbn [p_log p_tasks]; (split; [|reflexivity]); intros j; try reflexivity. rewrite begun_app. apply app_nil_r.
  - destruct (pstep_handle n w ts g) as [->|(c0 & code0 & b0 & l0 & cbs & _ & _ & ->)]; cbn [p_log p_tasks]; (split; [|reflexivity]); intros j; try reflexivity. rewrite begun_app. apply app_nil_r.
Qed.
Lemma called_step n P e : within P -> called n P -> called n (pstep n P e).
Proof.
  intros W (B0 & H). pose proof (begun_step n P e) as B.
  assert (Old : forall i m0 m, nth_error (p_tasks P) i = Some m0 -> nth_error (p_tasks (pstep n P e)) i = Some m -> begun i (p_log (pstep n P e)) = begun i (p_log P) ->
    exists c d w0, begun i (p_log (pstep n P e)) = [(c, d)] /\ path (fun _ => True) (tperform n c) w0 (own i (p_log (pstep n P e))) m).
  { intros i m0 m N0 N E. destruct (H _ _ N0) as (c & d & w0 & Bi & T). exists c, d, w0. split; [rewrite E; exact Bi|].
    destruct (travels_step (fun _ => True) n c w0 i P e Logic.I) as (m1 & N1 & T1); [exists m0; auto|]. rewrite N in N1. injection N1 as <-. exact T1. }
  destruct e as [c|i k clk|i|c|c code b|].
  2-6: destruct B as (B & Le); (split; [intros j L; rewrite B; apply B0; rewrite <- Le; exact L|]); intros j m N;
    (destruct (nth_error (p_tasks P) j) as [m0|] eqn:N0; [eapply Old; eauto|exfalso; apply nth_error_None in N0; assert (j < List.length (p_tasks P))%nat by (rewrite <- Le; apply nth_error_Some; congruence); lia]).
  clear B. assert (Bg : forall i, i <> List.length (p_tasks P) -> begun i (p_log (pstep n P (Call c))) = begun i (p_log P)).
  { intros i D. destruct P as [w ts g]. cbn [pstep p_world p_tasks p_log] in *. destruct (advance _ _) as [[t w'] m]. cbn [p_log].
    change (Started (List.length ts) c (w_data w) :: map (By (List.length ts)) t) with ([Started (List.length ts) c (w_data w)] ++ map (By (List.length ts)) t).
    rewrite !begun_app, begun_by, app_nil_r. cbn [begun flat_map]. replace (Nat.eqb (List.length ts) i) with false by (symmetry; apply Nat.eqb_neq; congruence). apply app_nil_r. }
  assert (Le : List.length (p_tasks (pstep n P (Call c))) = Datatypes.S (List.length (p_tasks P))).
  { destruct P as [w ts g]. cbn [pstep p_world p_tasks p_log] in *. destruct (advance _ _) as [[t w'] m]. cbn [p_tasks]. rewrite app_length. cbn [List.length]. lia. }
  split; [intros j L; rewrite Le in L; rewrite Bg by lia; apply B0; lia|]. intros j m N.
  destruct (nth_error (p_tasks P) j) as [m0|] eqn:N0; [eapply Old; eauto; apply Bg; assert (j < List.length (p_tasks P))%nat by (apply nth_error_Some; congruence); lia|].
  apply nth_error_None in N0. assert (j < List.length (p_tasks (pstep n P (Call c))))%nat by (apply nth_error_Some; congruence). assert (j = List.length (p_tasks P)) by lia. subst j. clear Old Bg Le H0.
  destruct P as [w ts g]. cbn [pstep p_world p_tasks p_log] in *. destruct (advance (tperform n c) w) as [[t w'] m'] eqn:A. cbn [p_tasks p_log] in *.
  rewrite nth_error_app2, Nat.sub_diag in N by lia. injection N as <-. exists c, (w_data w), w.
  change (Started (List.length ts) c (w_data w) :: map (By (List.length ts)) t) with ([Started (List.length ts) c (w_data w)] ++ map (By (List.length ts)) t).
  rewrite !own_app, !begun_app, begun_by, own_by, B0 by lia. pose proof (within_own _ (List.length ts) W (Nat.le_refl _)) as E. cbn [p_log] in E. rewrite E. cbn [own begun flat_map app].
  rewrite Nat.eqb_refl. split; [reflexivity|]. eapply path_start. exact A.
Qed.
Lemma called_run n es : forall P, within P -> called n P -> called n (prun n P es).
Proof. induction es as [|e es IH]; intros P W H; [exact H|]. apply IH; [apply within_step, W|apply called_step; assumption]. Qed.
