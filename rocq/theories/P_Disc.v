(** What a disconnect has done when it returns, whatever runs between its steps (C104). *)
From Verif Require Import Py F64 Struct Utf Utility Const Spec Enum Decode Messages Calls World Request Gateway Traces Paths Api Tasks Pool P_Moves.
From Verif Require P_Base.

(** None: the disconnect has not looked up the connection yet; Some (c, d): it closes [c], and
    if [d], [c] is known to be lost *)
Definition aim := option (nat * bool).
Definition holds (s : aim) (w : world) : Prop := match s with Some (c, true) => connected c w = false | _ => True end.
(** how the aim may change when the task looks at [w] *)
Definition takes_aim (s s' : aim) (w : world) : Prop :=
  match s, s' with
  | None, None => True
  | None, Some (c, _) => w_proto w = Some c
  | Some (c, _), Some (c', _) => c = c'
  | Some _, None => False
  end.
Definition same_aim (s s' : aim) : Prop := option_map fst s = option_map fst s'.
Fixpoint aims (s : aim) (m : task unit) : Prop :=
  match m with
  | Done o => o = Val tt -> exists c, s = Some (c, true)
  | Look k => forall w, holds s w -> exists s', takes_aim s s' w /\ holds s' w /\ aims s' (k w)
  | Do f k => exists s', same_aim s s' /\ (forall w, holds s w -> holds s' (snd (f w)) /\ w_proto (snd (f w)) = w_proto w) /\ aims s' k
  | Wait _ k => forall r, aims s (k r)
  | Lock k x => aims s k /\ aims s x
  end.

(** while it has no aim: nothing that a task without one does matters, except the connection it is on *)
Fixpoint stays {A} (m : task A) : Prop :=
  match m with
  | Done _ => True
  | Look k => forall w, stays (k w)
  | Do f k => (forall w, w_proto (snd (f w)) = w_proto w) /\ stays k
  | Wait _ k => forall r, stays (k r)
  | Lock k x => stays k /\ stays x
  end.
Lemma aims_bind {A} (m : task A) (f : A -> task unit) : stays m -> (forall a, aims None (f a)) -> aims None (tbind m f).
Proof.
  intros M F. induction m as [[a|e|y]|k IH|g k IH|e k IH|k IH xx IHx]; cbn [stays aims tbind] in *; auto; try discriminate.
  - intros w _. exists None. split; [exact Logic.I|]. split; [exact Logic.I|]. auto.
  - destruct M as (P & M). exists None. split; [reflexivity|]. split; [intros w _; split; [exact Logic.I|apply P]|auto].
  - destruct M. auto.
Qed.
Lemma stays_bind {A B} (m : task A) (f : A -> task B) : stays m -> (forall a, stays (f a)) -> stays (tbind m f).
Proof.
  intros M F. induction m as [[a|e|y]|k IH|g k IH|e k IH|k IH xx IHx]; cbn [stays tbind] in *; auto;
  destruct M; split; auto.
Qed.
Lemma stays_catch {A} (m : task A) p h : stays m -> (forall e, stays (h e)) -> stays (tcatch m p h).
Proof.
  intros M F. induction m as [[a|e|y]|k IH|g k IH|e k IH|k IH xx IHx]; cbn [stays tcatch] in *; auto.
  - destruct (p e); cbn; auto.
  - destruct M. split; auto.
  - destruct M. split; auto.
Qed.
Lemma stays_finally {A} (m : task A) f : stays m -> (forall w, w_proto (f w) = w_proto w) -> stays (tfinally m f).
Proof.
  intros M F. induction m as [[a|e|y]|k IH|g k IH|e k IH|k IH xx IHx]; cbn [stays tfinally] in *; auto;
  destruct M; split; auto.
Qed.
Ltac st := repeat match goal with
  | |- stays (tbind _ _) => apply stays_bind; [|intros ?]
  | |- stays (tcatch _ _ _) => apply stays_catch; [|intros ?]
  | |- stays (if ?b then _ else _) => destruct b
  | |- stays (match ?x with _ => _ end) => destruct x
  | |- stays (Done _) => exact Logic.I
  | |- stays (tret _) => exact Logic.I
  | |- stays (traise _) => exact Logic.I
  | |- stays (tstuck _) => exact Logic.I
  | |- stays (tget _) => intros ?; exact Logic.I
  | |- stays (twait _) => intros ?; exact Logic.I
  | |- stays (tlift ?r) => destruct r; exact Logic.I
  | |- stays (temit _) => split; [reflexivity|exact Logic.I]
  | |- stays (tdo _) => split; [reflexivity|exact Logic.I]
  end.
Lemma stays_loop X p c mr : forall left att, stays (trequest_loop left att mr c X p).
Proof. induction left as [|left IH]; intros att; cbn [trequest_loop]; unfold tsleep, tsend; st; apply IH. Qed.
Lemma stays_unsubscribe : stays tunsubscribe_gateway.
Proof.
  unfold tunsubscribe_gateway. apply stays_bind; [intros w; exact Logic.I|]. intros a. destruct (negb a); [exact Logic.I|].
  cbn [twith_lock stays]. split; [|exact Logic.I]. apply stays_finally; [|reflexivity]. unfold tremove_client, tcommand_request, tm_proto_or_fail, tmake_request. st. apply stays_loop.
Qed.
Lemma lose_proto c w : w_proto (snd (lose c w)) = w_proto w.
Proof. unfold lose. destruct (connected c w); reflexivity. Qed.
Lemma lose_gone c w : connected c (snd (lose c w)) = false.
Proof.
  unfold lose. destruct (connected c w) eqn:C; cbn [snd]; [|exact C]. unfold connected, get_conn, upd_conn. cbn [set_conns w_conns].
  rewrite nth_lset, Nat.eqb_refl. destruct (Nat.ltb_spec c (List.length (w_conns w))) as [L|L]; [reflexivity|].
  rewrite nth_overflow; [reflexivity|exact L].
Qed.
Lemma aims_close c force : aims (Some (c, false)) (tasync_close c force).
Proof.
  assert (LAST : aims (Some (c, false)) (tbind (tget (connected c)) (fun still : bool => if negb still then tret tt
     else tbind (twait (AwaitClosed c)) (fun r2 => match r2 with KDone => Do (lose c) (tret tt) | KCancelTask => traise ECancelled | _ => tstuck Unfit end)))).
  { intros w _. destruct (connected c w) eqn:C; cbn [negb].
    - exists (Some (c, false)). split; [reflexivity|]. split; [exact Logic.I|]. cbn [tbind tret twait aims]. try rewrite C. cbn [negb tbind twait aims]. intros [] ; try (intros E; discriminate E).
      cbn [aims]. exists (Some (c, true)). split; [reflexivity|]. split; [|intros _; exists c; reflexivity].
      intros w' _. split; [apply lose_gone|apply lose_proto].
    - exists (Some (c, true)). split; [reflexivity|]. split; [exact C|]. cbn [tbind tret aims]. try rewrite C. cbn [negb]. intros _. exists c. reflexivity. }
  unfold tasync_close. cbn [tdo tbind aims]. exists (Some (c, false)). split; [reflexivity|]. split; [intros w _; split; [exact Logic.I|reflexivity]|].
  cbn [tret tbind]. match goal with |- aims _ (tbind (twait _) ?k) => change (forall r, aims (Some (c, false)) (k r)) end. cbn beta.
  assert (MID : aims (Some (c, false)) (tbind (tget (get_conn c)) (fun k => tbind (if c_open k then tbind (temit (CloseTransport c)) (fun _ => tdo (mark_shut c)) else tret tt)
       (fun _ => tbind (tget (connected c)) (fun still : bool => if negb still then tret tt
       else tbind (twait (AwaitClosed c)) (fun r2 => match r2 with KDone => Do (lose c) (tret tt) | KCancelTask => traise ECancelled | _ => tstuck Unfit end)))))).
  { intros w _. exists (Some (c, false)). split; [reflexivity|]. split; [exact Logic.I|].
    cbn [tret tbind tget]. destruct (c_open (get_conn c w)); [|exact LAST].
    cbn [temit tdo tret tbind aims]. exists (Some (c, false)). split; [reflexivity|]. split; [intros w1 _; split; [exact Logic.I|reflexivity]|].
    exists (Some (c, false)). split; [reflexivity|]. split; [intros w1 _; split; [exact Logic.I|reflexivity]|]. exact LAST. }
  intros []; try (intros E; discriminate E); exact MID.
Qed.
Lemma aims_disconnect force : aims None (tasync_disconnect force).
Proof.
  unfold tasync_disconnect. intros w _. exists None. split; [exact Logic.I|]. split; [exact Logic.I|]. cbn [tret tbind tget].
  apply aims_bind; [destruct (is_client w); [apply stays_unsubscribe|exact Logic.I]|]. intros _.
  intros w1 _. destruct (w_proto w1) as [c|] eqn:P.
  - exists (Some (c, false)). split; [exact P|]. split; [exact Logic.I|]. cbn [tret tbind]. try rewrite P. apply aims_close.
  - exists None. split; [exact Logic.I|]. split; [exact Logic.I|]. cbn [tret tbind]. try rewrite P. intros E; discriminate E.
Qed.

(** one stretch of the task *)
Lemma advance_aims (m : task unit) : forall s w t w' m', aims s m -> holds s w -> advance m w = (t, w', m') ->
  w_proto w' = w_proto w /\ exists s', takes_aim s s' w' /\ holds s' w' /\ aims s' m'.
Proof.
  assert (TR : forall a b c w w', w_proto w' = w_proto w -> takes_aim a b w -> takes_aim b c w' -> takes_aim a c w').
  { intros [[a1 a2]|] [[b1 b2]|] [[c1 c2]|] w w' E; cbn; intuition congruence. }
  assert (RF : forall a w, takes_aim a a w \/ a = None) by (intros [[? ?]|] w; cbn; auto).
  assert (R : forall a w, takes_aim a a w) by (intros [[? ?]|] w; cbn; auto).
  assert (SA : forall a b w, same_aim a b -> takes_aim a b w).
  { intros [[? ?]|] [[? ?]|] w E; unfold same_aim in E; cbn in *; try exact Logic.I; congruence. }
  induction m as [o|k IH|f k IH|e k IH|k IH xx IHx]; intros s w t w' m' A H E; cbn [aims advance] in *.
  - injection E as _ <- <-. split; [reflexivity|]. exists s. auto.
  - destruct (A w H) as (s1 & T1 & H1 & A1). destruct (IH _ _ _ _ _ _ A1 H1 E) as (P & s2 & T2 & H2 & A2).
    split; [exact P|]. exists s2. split; [eapply TR; eassumption|auto].
  - destruct A as (s1 & S1 & F & A1). destruct (F w H) as (H1 & P1). destruct (f w) as [t1 w1]. cbn [snd] in *.
    destruct (advance k w1) as [[t2 w2] m2] eqn:E2. injection E as _ <- <-. destruct (IH _ _ _ _ _ A1 H1 E2) as (P & s2 & T2 & H2 & A2).
    split; [congruence|]. exists s2. split; [|auto]. eapply TR; [|apply SA; exact S1|exact T2]. exact P.
  - injection E as _ <- <-. split; [reflexivity|]. exists s. auto.
  - destruct (m_locked (w_cm w)); [injection E as _ <- <-; split; [reflexivity|]; exists s; auto|].
    destruct (IH _ _ _ _ _ (proj1 A) (ltac:(destruct s as [[? []]|]; exact H) : holds s (put_cm (cmset_locked true) w)) E) as (P & X). split; [exact P|exact X].
Qed.

(** task [i] of the pool [p] is such a disconnect: [h c] says that [c] was its aim at some time *)
Definition on_course (i : nat) (h : nat -> Prop) (p : pool) : Prop :=
  exists s m, nth_error (p_tasks p) i = Some m /\ aims s m /\
    match s with None => True | Some (c, d) => h c /\ (c < List.length (w_conns (p_world p)))%nat /\ (d = true -> connected c (p_world p) = false) end.

Lemma lset_same {X} i (x : X) : forall l, (i < List.length l)%nat -> nth_error (lset i x l) i = Some x.
Proof. induction i as [|i IH]; intros [|y l] L; cbn in *; try lia; auto. apply IH. lia. Qed.
Lemma lset_other {X} i (x : X) : forall l j, j <> i -> nth_error (lset i x l) j = nth_error l j.
Proof. induction i as [|i IH]; intros [|y l] [|j] N; cbn in *; auto; lia. Qed.
Lemma nth_some {X} (l : list X) i x : nth_error l i = Some x -> (i < List.length l)%nat.
Proof. intros E. apply nth_error_Some. congruence. Qed.

Section Course.
  Variables (n i : nat) (h : nat -> Prop).
  Lemma course_step p e : all_made p -> on_course i h p ->
    (forall c, w_proto (p_world (pstep n p e)) = Some c -> h c /\ (c < List.length (w_conns (p_world (pstep n p e))))%nat) ->
    on_course i h (pstep n p e).
  Proof.
    intros AM (s & m & N & A & I) HP.
    destruct (pstep_made goes_on goes_keeps n p e AM) as (G & _).
    (* the task itself ran *)
    assert (RUN : forall w0 m0 t w' m' l, aims s m0 -> goes_on (p_world p) w0 -> advance m0 w0 = (t, w', m') ->
      w' = p_world (pstep n p e) -> l = p_tasks (pstep n p e) -> nth_error l i = Some m' -> on_course i h (pstep n p e)).
    { intros w0 m0 t w' m' l A0 G0 E Ew El Nl.
      assert (H0 : holds s w0). { destruct s as [[c []]|]; cbn [holds]; auto. destruct I as (_ & L & D). destruct G0 as (_ & G0). apply (G0 c). split; [exact L|]. auto. }
      destruct (advance_aims _ _ _ _ _ _ A0 H0 E) as (P & s' & T & H' & A'). exists s', m'. split; [congruence|]. split; [exact A'|].
      destruct s' as [[c d]|]; [|exact Logic.I]. destruct s as [[c0 d0]|]; cbn [takes_aim] in T.
      - subst c0. destruct I as (I1 & I2 & _). split; [exact I1|]. split; [destruct G; lia|]. intros ->. rewrite <- Ew. exact H'.
      - rewrite Ew in T. destruct (HP c T) as (HC & LC). split; [exact HC|]. split; [exact LC|]. intros ->. rewrite <- Ew. exact H'. }
    (* it did not *)
    assert (REST : nth_error (p_tasks (pstep n p e)) i = Some m -> on_course i h (pstep n p e)).
    { intros N'. exists s, m. split; [exact N'|]. split; [exact A|]. destruct s as [[c d]|]; [|exact Logic.I]. destruct I as (I1 & I2 & I3). split; [exact I1|].
      destruct G as (G1 & G2). split; [lia|]. intros D. apply (G2 c). split; auto. }
    destruct p as [w ts g]. cbn [p_world p_tasks p_log] in *. destruct e as [c|j k clk|j|c|c code b|].
    - apply REST. cbn [pstep p_world p_tasks p_log]. destruct (advance _ _) as [[t w'] m1]. cbn [p_tasks]. rewrite nth_error_app1; [exact N|eapply nth_some; exact N].
    - destruct (Nat.eq_dec j i) as [->|D].
      + cbn [pstep p_world p_tasks p_log] in *. rewrite N in *. destruct m as [| | |e0 k0|k0 x0]; try (apply REST; exact N).
        * destruct (fits e0 k); [|apply REST; exact N].
          destruct (advance (k0 k) (set_clock clk (opened_by e0 k w))) as [[t w'] m'] eqn:E. cbn [p_tasks p_world] in *.
          eapply (RUN (set_clock clk (opened_by e0 k w))); [exact (A k)| |exact E|reflexivity|reflexivity|apply lset_same; eapply nth_some; exact N].
          destruct goes_keeps as (K1 & K2 & _ & _ & K5 & K6 & _). eapply K2; [|apply K6]. destruct e0; try apply K1. destruct k; try apply K1. apply K5.
        * destruct k; try (apply REST; exact N). destruct (advance x0 (set_clock clk w)) as [[t w'] m'] eqn:E. cbn [p_tasks p_world] in *.
          eapply (RUN (set_clock clk w)); [exact (proj2 A)| |exact E|reflexivity|reflexivity|apply lset_same; eapply nth_some; exact N].
          destruct goes_keeps as (_ & _ & _ & _ & _ & K6 & _). apply K6.
      + apply REST. cbn [pstep p_world p_tasks p_log].
        destruct (nth_error ts j) as [[| | |e0 k0|k0 x0]|]; try exact N; [destruct (fits e0 k); [|exact N]|destruct k; try exact N];
        destruct (advance _ _) as [[t w'] m1]; cbn [p_tasks]; rewrite lset_other by congruence; exact N.
    - destruct (Nat.eq_dec j i) as [->|D].
      + cbn [pstep p_world p_tasks p_log] in *. rewrite N in *. destruct m as [| | | |k0 x0]; try (apply REST; exact N).
        destruct (advance (Lock k0 x0) w) as [[t w'] m'] eqn:E. cbn [p_tasks p_world] in *.
        eapply (RUN w); [exact A| |exact E|reflexivity|reflexivity|apply lset_same; eapply nth_some; exact N]. apply goes_keeps.
      + apply REST. cbn [pstep p_world p_tasks p_log]. destruct (nth_error ts j) as [[| | | |k0 x0]|]; try exact N.
        destruct (advance _ _) as [[t w'] m1]. cbn [p_tasks]. rewrite lset_other by congruence. exact N.
    - apply REST. cbn [pstep p_world p_tasks p_log]. destruct (lose c w). exact N.
    - apply REST. cbn [pstep p_world p_tasks p_log]. destruct (handler_of c code w) as [[]|]; exact N.
    - apply REST. destruct (pstep_handle n w ts g) as [->|(c0 & code0 & b0 & l0 & cbs & _ & _ & ->)]; exact N.
  Qed.
End Course.
Lemma course_call n force p (h : nat -> Prop) :
  (forall c, w_proto (p_world (pstep n p (Call (Disconnect force)))) = Some c ->
     h c /\ (c < List.length (w_conns (p_world (pstep n p (Call (Disconnect force))))))%nat) ->
  on_course (List.length (p_tasks p)) h (pstep n p (Call (Disconnect force))).
Proof.
  destruct p as [w ts g]. cbn [pstep p_world p_tasks p_log]. destruct (advance (tperform n (Disconnect force)) w) as [[t w'] m] eqn:E. cbn [p_world p_tasks].
  intros HP. destruct (advance_aims _ None _ _ _ _ (aims_disconnect force) Logic.I E) as (P & s & T & H & A).
  exists s, m. cbn [p_tasks p_world]. split; [rewrite nth_error_app2, Nat.sub_diag by lia; reflexivity|]. split; [exact A|].
  destruct s as [[c d]|]; [|exact Logic.I]. destruct (HP c T) as (HC & LC). split; [exact HC|]. split; [exact LC|]. intros ->. exact H.
Qed.

(** tasks that leave the current connection what it is *)
Definition all_stay (p : pool) : Prop := forall m, In m (p_tasks p) -> stays m.
Lemma advance_stays {A} (m : task A) : forall w t w' m', stays m -> advance m w = (t, w', m') -> w_proto w' = w_proto w /\ stays m'.
Proof.
  induction m as [o|k IH|f k IH|e k IH|k IH xx IHx]; intros w t w' m' M E; cbn [stays advance] in *.
  - injection E as _ <- <-. auto.
  - eapply IH; [apply M|exact E].
  - destruct M as (P & M). specialize (P w). destruct (f w) as [t1 w1]. cbn [snd] in P. destruct (advance k w1) as [[t2 w2] m2] eqn:E2. injection E as _ <- <-.
    destruct (IH _ _ _ _ M E2) as (A1 & A2). split; [congruence|exact A2].
  - injection E as _ <- <-. auto.
  - destruct (m_locked (w_cm w)); [injection E as _ <- <-; auto|]. destruct (IH _ _ _ _ (proj1 M) E) as (A1 & A2). split; [exact A1|exact A2].
Qed.
Lemma stays_close c force : stays (tasync_close c force).
Proof. unfold tasync_close. st; split; (apply lose_proto || exact Logic.I). Qed.
Lemma stays_disconnect force : stays (tasync_disconnect force).
Proof. unfold tasync_disconnect, tproto_or_fail. st; [apply stays_unsubscribe|apply stays_close]. Qed.
Lemma pstep_stays n p e : (forall c, e = Call c -> exists force, c = Disconnect force) -> all_stay p ->
  w_proto (p_world (pstep n p e)) = w_proto (p_world p) /\ all_stay (pstep n p e).
Proof.
  intros NC AM. destruct p as [w ts g]. unfold all_stay in *. cbn [p_tasks] in AM.
  destruct e as [c|i k clk|i|c|c code b|]; [cbn [pstep p_world p_tasks p_log]..|].
  - destruct (NC c eq_refl) as (force & ->). destruct (advance (tperform n (Disconnect force)) w) as [[t w'] m] eqn:E.
    destruct (advance_stays _ _ _ _ _ (stays_disconnect force) E) as (A1 & A2). cbn [p_world p_tasks]. split; [exact A1|].
    intros m0 J. apply in_app_or in J. destruct J as [J|[<-|[]]]; auto.
  - destruct (nth_error ts i) as [[| | |e0 k0|k0 x0]|] eqn:N; try (cbn [p_world p_tasks]; auto; fail).
    + destruct (fits e0 k); [|auto]. destruct (advance _ _) as [[t w'] m] eqn:E. cbn [p_world p_tasks].
      pose proof (AM _ (nth_error_In _ _ N)) as M. destruct (advance_stays _ _ _ _ _ (M k) E) as (A1 & A2). split.
      * rewrite A1. destruct e0; try reflexivity. destruct k; reflexivity.
      * intros m0 J. apply in_lset in J. destruct J as [->|J]; auto.
    + destruct k; auto. destruct (advance _ _) as [[t w'] m] eqn:E. cbn [p_world p_tasks].
      pose proof (AM _ (nth_error_In _ _ N)) as M. destruct (advance_stays _ _ _ _ _ (proj2 M) E) as (A1 & A2). split; [exact A1|].
      intros m0 J. apply in_lset in J. destruct J as [->|J]; auto.
  - destruct (nth_error ts i) as [[| | | |k0 x0]|] eqn:N; try (cbn [p_world p_tasks]; auto; fail).
    destruct (advance _ _) as [[t w'] m] eqn:E. cbn [p_world p_tasks].
    pose proof (AM _ (nth_error_In _ _ N)) as M. destruct (advance_stays _ _ _ _ _ M E) as (A1 & A2). split; [exact A1|].
    intros m0 J. apply in_lset in J. destruct J as [->|J]; auto.
  - pose proof (lose_proto c w) as L. destruct (lose c w) as [t w']. cbn [p_world p_tasks snd] in *. auto.
  - destruct (handler_of c code w) as [[h|h]|]; auto.
  - destruct (pstep_handle n w ts g) as [->|(c0 & code0 & b0 & l0 & cbs & _ & _ & ->)]; cbn [p_world p_tasks]; auto.
Qed.
Lemma prun_stays n es : forall p, (forall c, In (Call c) es -> exists force, c = Disconnect force) -> all_stay p ->
  w_proto (p_world (prun n p es)) = w_proto (p_world p) /\ all_stay (prun n p es).
Proof.
  induction es as [|e es IH]; intros p NC AM; [auto|]. cbn [prun fold_left].
  destruct (pstep_stays n p e) as (A1 & A2); [intros c ->; apply NC; left; reflexivity|exact AM|].
  destruct (IH (pstep n p e)) as (B1 & B2); [intros c J; apply NC; right; exact J|exact A2|]. unfold prun in *. split; [congruence|exact B2].
Qed.
