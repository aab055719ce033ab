(** What a disconnect does: the goodbye, and then the closing of one connection. *)
From Verif Require Import Py F64 Struct Utf Utility Const Spec Enum Decode Messages World Request Gateway Traces Paths Api Tasks Pool SpecPool SpecKeep.
From Verif Require Import P_Base P_Util P_Pool P_Moves P_Path.
From Verif Require P_Pool2.

(** ** paths and sequences *)
Lemma advance_bind_all {A B} (m : task A) (f : A -> task B) : forall w t w' m', advance m w = (t, w', m') ->
  advance (tbind m f) w = match m' with Done (Val a) => let '(t2, w2, m2) := advance (f a) w' in (t ++ t2, w2, m2) | _ => (t, w', tbind m' f) end.
Proof.
  induction m as [[a0|e|y]|k IH|g k IH|e k IH|k IH xx IHx]; intros w t w' m' E; cbn [advance tbind] in *; try (injection E as <- <- <-; try reflexivity).
  - cbn [app]. destruct (advance (f a0) w) as [[? ?] ?]. reflexivity.
  - apply IH, E.
  - destruct (g w) as [t1 w1]. destruct (advance k w1) as [[t2 w2] m2] eqn:E2. injection E as <- <- <-. rewrite (IH _ _ _ _ E2).
    destruct m2 as [[a|e|y]| | | |]; try reflexivity. destruct (advance (f a) w2) as [[t3 w3] m3]. rewrite app_assoc. reflexivity.
  - destruct (m_locked (w_cm w)); [injection E as <- <- <-; reflexivity|]. apply IH, E.
Qed.
Definition going {A} (m : task A) : Prop := forall a, m <> Done (Val a).
Lemma path_bind {A B} U (m : task A) (f : A -> task B) w0 t x : path U (tbind m f) w0 t x ->
  (exists m', path U m w0 t m' /\ x = tbind m' f /\ going m') \/
  (exists t1 a w1 t2, path U m w0 t1 (Done (Val a)) /\ t = t1 ++ t2 /\ path U (f a) w1 t2 x).
Proof.
  intros P. induction P as [t w' x E|t e k kd clk w t' w' x P IH Fi Uw E|t k xx w t' w' x P IH Uw E|t k xx clk w t' w' x P IH Uw E].
  - destruct (advance m w0) as [[t1 w1] m1] eqn:E1. rewrite (advance_bind_all m f _ _ _ _ E1) in E. pose proof (path_start U m w0 _ _ _ E1) as P1.
    destruct m1 as [[a|e|y]| | | |]; try (injection E as <- <- <-; left; eexists; split; [exact P1|split; [reflexivity|intros a0; discriminate]]).
    destruct (advance (f a) w1) as [[t2 w2] m2] eqn:E2. injection E as <- <- <-. right. exists t1, a, w1, t2. split; [exact P1|]. split; [reflexivity|]. eapply path_start, E2.
  - destruct IH as [(m' & P' & Ex & G)|(t1 & a & w1 & t2 & P1 & -> & P2)].
    + destruct m' as [[a|e'|y]| | |e' k'|]; cbn [tbind] in Ex; try discriminate Ex; [destruct (G a); reflexivity|]. injection Ex as -> ->.
      destruct (advance (k' kd) (set_clock clk (opened_by e' kd w))) as [[t1 w1] m1] eqn:E1. rewrite (advance_bind_all _ f _ _ _ _ E1) in E. pose proof (path_resume U m w0 _ _ _ _ _ _ _ _ _ P' Fi Uw E1) as P1.
      destruct m1 as [[a|e0|y]| | | |]; try (injection E as <- <- <-; left; eexists; split; [exact P1|split; [reflexivity|intros a0; discriminate]]).
      destruct (advance (f a) w1) as [[t2 w2] m2] eqn:E2. injection E as <- <- <-. right. exists (t ++ Got (mkResp kd [] None clk) :: t1), a, w1, t2. split; [exact P1|]. split; [rewrite <- app_assoc; reflexivity|]. eapply path_start, E2.
    + right. exists t1, a, w1, (t2 ++ Got (mkResp kd [] None clk) :: t'). split; [exact P1|]. split; [rewrite <- app_assoc; reflexivity|]. eapply path_resume; eassumption.
  - destruct IH as [(m' & P' & Ex & G)|(t1 & a & w1 & t2 & P1 & -> & P2)].
    + destruct m' as [[a|e'|y]| | | |k' x']; cbn [tbind] in Ex; try discriminate Ex; [destruct (G a); reflexivity|]. injection Ex as -> ->.
      change (Lock (tbind k' f) (tbind x' f)) with (tbind (Lock k' x') f) in E.
      destruct (advance (Lock k' x') w) as [[t1 w1] m1] eqn:E1. rewrite (advance_bind_all _ f _ _ _ _ E1) in E. pose proof (path_enter U m w0 _ _ _ _ _ _ _ P' Uw E1) as P1.
      destruct m1 as [[a|e0|y]| | | |]; try (injection E as <- <- <-; left; eexists; split; [exact P1|split; [reflexivity|intros a0; discriminate]]).
      destruct (advance (f a) w1) as [[t2 w2] m2] eqn:E2. injection E as <- <- <-. right. exists (t ++ t1), a, w1, t2. split; [exact P1|]. split; [rewrite <- app_assoc; reflexivity|]. eapply path_start, E2.
    + right. exists t1, a, w1, (t2 ++ t'). split; [exact P1|]. split; [rewrite <- app_assoc; reflexivity|]. eapply path_enter; eassumption.
  - destruct IH as [(m' & P' & Ex & G)|(t1 & a & w1 & t2 & P1 & -> & P2)].
    + destruct m' as [[a|e'|y]| | | |k' x']; cbn [tbind] in Ex; try discriminate Ex; [destruct (G a); reflexivity|]. injection Ex as -> ->.
      destruct (advance x' (set_clock clk w)) as [[t1 w1] m1] eqn:E1. rewrite (advance_bind_all _ f _ _ _ _ E1) in E. pose proof (path_cancel U m w0 _ _ _ _ _ _ _ _ P' Uw E1) as P1.
      destruct m1 as [[a|e0|y]| | | |]; try (injection E as <- <- <-; left; eexists; split; [exact P1|split; [reflexivity|intros a0; discriminate]]).
      destruct (advance (f a) w1) as [[t2 w2] m2] eqn:E2. injection E as <- <- <-. right. exists (t ++ Got (mkResp KCancelTask [] None clk) :: t1), a, w1, t2. split; [exact P1|]. split; [rewrite <- app_assoc; reflexivity|]. eapply path_start, E2.
    + right. exists t1, a, w1, (t2 ++ Got (mkResp KCancelTask [] None clk) :: t'). split; [exact P1|]. split; [rewrite <- app_assoc; reflexivity|]. eapply path_cancel; eassumption.
Qed.

(** ** what is left of a task does only [Q] *)
Section Only.
  Variable Q : ev -> Prop.
  Fixpoint does {A} (m : task A) : Prop :=
    match m with
    | Done _ => True
    | Look k => forall w, does (k w)
    | Do f k => (forall w, Forall Q (fst (f w))) /\ does k
    | Wait e k => Q e /\ forall r, does (k r)
    | Lock k x => does k /\ does x
    end.
  Lemma does_bind {A B} (m : task A) (f : A -> task B) : does m -> (forall a, does (f a)) -> does (tbind m f).
  Proof.
    intros M F. induction m as [[a|e|y]|k IH|g k IH|e k IH|k IH xx IHx]; cbn [does tbind] in *; auto; destruct M; auto.
  Qed.
  Lemma advance_does {A} (m : task A) : forall w t w' m', does m -> advance m w = (t, w', m') -> Forall Q t /\ does m'.
  Proof.
    induction m as [o|k IH|f k IH|e k IH|k IH xx IHx]; intros w t w' m' M E; cbn [advance does] in *.
    - injection E as <- _ <-. auto.
    - exact (IH _ _ _ _ _ (M w) E).
    - destruct M as (S & M). specialize (S w). destruct (f w) as [t1 w1]. destruct (advance k w1) as [[t2 w2] m2] eqn:E2. injection E as <- <- <-. destruct (IH _ _ _ _ M E2). split; [apply Forall_app; auto|assumption].
    - injection E as <- _ <-. destruct M. split; [repeat constructor; assumption|]. split; assumption.
    - destruct (m_locked (w_cm w)); [injection E as <- _ <-; auto|]. exact (IH _ _ _ _ (proj1 M) E).
  Qed.
  Hypothesis HG : forall r, Q (Got r).
  Lemma path_does {A} U (m : task A) w0 e k : (forall w, exists w', advance m w = ([e], w', Wait e k)) -> (forall r, does (k r)) ->
    forall t x, path U m w0 t x -> (t = [e] /\ x = Wait e k) \/ (exists r t', t = e :: Got r :: t' /\ Forall Q t' /\ does x).
  Proof.
    intros Hd K t x P. induction P as [t w' x E|t e0 k0 kd clk w t' w' x P IH Fi Uw E|t k0 xx w t' w' x P IH Uw E|t k0 xx clk w t' w' x P IH Uw E].
    - destruct (Hd w0) as (w1 & E1). rewrite E1 in E. injection E as <- _ <-. left. auto.
    - destruct IH as [(-> & Ex)|(r & t1 & -> & F & D)].
      + injection Ex as -> ->. destruct (advance_does _ _ _ _ _ (K kd) E) as (F & D). right. eexists _, t'. split; [reflexivity|]. auto.
      + destruct (advance_does _ _ _ _ _ (proj2 D kd) E) as (F' & D'). right. exists r, (t1 ++ Got (mkResp kd [] None clk) :: t'). split; [reflexivity|]. split; [apply Forall_app; split; [exact F|constructor; [apply HG|exact F']]|exact D'].
    - destruct IH as [(-> & Ex)|(r & t1 & -> & F & D)]; [discriminate Ex|].
      destruct (advance_does _ _ _ _ _ D E) as (F' & D'). right. exists r, (t1 ++ t'). split; [reflexivity|]. split; [apply Forall_app; auto|exact D'].
    - destruct IH as [(-> & Ex)|(r & t1 & -> & F & D)]; [discriminate Ex|].
      destruct (advance_does _ _ _ _ _ (proj2 D) E) as (F' & D'). right. exists r, (t1 ++ Got (mkResp KCancelTask [] None clk) :: t'). split; [reflexivity|]. split; [apply Forall_app; split; [exact F|constructor; [apply HG|exact F']]|exact D'].
  Qed.
End Only.

(** ** the disconnect *)
From Verif Require Import SpecBye.
Lemma path_same {A} U (m m2 : task A) w0 t x : advance m w0 = advance m2 w0 -> path U m w0 t x -> path U m2 w0 t x.
Proof.
  intros Q P. induction P as [t w' x E|t e k kd clk w t' w' x P IH Fi Uw E|t k xx w t' w' x P IH Uw E|t k xx clk w t' w' x P IH Uw E].
  - eapply path_start. rewrite <- Q. exact E.
  - eapply path_resume; eassumption.
  - eapply path_enter; eassumption.
  - eapply path_cancel; eassumption.
Qed.
Lemma path_done {A} U (o : out A) w0 t x : path U (Done o) w0 t x -> t = [] /\ x = Done o.
Proof.
  intros P. remember (Done o) as m eqn:M. induction P as [t w' x E|t e k kd clk w t' w' x P IH Fi Uw E|t k xx w t' w' x P IH Uw E|t k xx clk w t' w' x P IH Uw E].
  - subst m. injection E as <- _ <-. auto.
  - destruct IH as (_ & K). subst m. discriminate K.
  - destruct IH as (_ & K). subst m. discriminate K.
  - destruct IH as (_ & K). subst m. discriminate K.
Qed.
Lemma close_path U c force w t x : path U (tasync_close c force) w t x -> closes c force t.
Proof.
  intros P. unfold tasync_close in P. unfold closes. cbn [tdo tbind twait tret] in P.
  match type of P with path U (Do ?f (Wait ?e0 ?k0)) _ _ _ => destruct (path_does (part_of_close c) ltac:(intros ?; exact Logic.I) U (Do f (Wait e0 k0)) w e0 k0) with (t := t) (x := x) as [(-> & _)|(r & t' & -> & F & _)] end.
  - intros w1. eexists. reflexivity.
  - assert (Fin : does (part_of_close c) (still <- tget (connected c) ;; if negb still then tret tt else r2 <- twait (AwaitClosed c) ;;
        match r2 with KDone => Do (lose c) (tret tt) | KCancelTask => traise ECancelled | _ => tstuck Unfit end)%t).
    { intros w1. destruct (connected c w1); cbn [negb tbind tret does twait]; [|exact Logic.I]. split; [reflexivity|]. intros []; try exact Logic.I. split; [|exact Logic.I].
      intros w2. unfold lose. destruct (connected c w2); [destruct (w_cb w2)|]; repeat constructor. }
    assert (K : does (part_of_close c) (k <- tget (get_conn c) ;; (if c_open k then temit (CloseTransport c) ;;; tdo (mark_shut c) else tret tt) ;;;
        still <- tget (connected c) ;; if negb still then tret tt else r2 <- twait (AwaitClosed c) ;;
        match r2 with KDone => Do (lose c) (tret tt) | KCancelTask => traise ECancelled | _ => tstuck Unfit end)%t).
    { intros w1. cbn [tbind tret]. apply does_bind; [|intros _; exact Fin]. destruct (c_open (get_conn c w1)); [|exact Logic.I].
      split; [intros w2; repeat constructor|]. split; [intros w2; constructor|exact Logic.I]. }
    intros r. destruct r; try exact Logic.I; exact K.
  - exact P.
  - eexists. split; [reflexivity|constructor].
  - eexists. split; [reflexivity|]. constructor; [exact Logic.I|exact F].
Qed.

Lemma stands_once X p c t m : stands X p c t m -> asked_once c X p t.
Proof. intros [(_ & S & _)|(s & k & Hs & -> & _)]; [exact S|right; exists s; auto]. Qed.
Lemma stands_done X p c t m a : stands X p c t m -> m = Done (Val a) -> answered_all t.
Proof. intros [(_ & _ & S)|(s & k & Hs & _ & -> & _)] E; [exact S|discriminate E]. Qed.
Lemma disconnect_path U n id w p force : pack_Is [VInt 0; VInt id] = Ok p -> (exists b, makeMessage 0 12524 p = Ok b) ->
  (is_client w = true -> has id w /\ U = has id) ->
  forall t m, path U (tperform n (Disconnect force)) w t m ->
  (m = traise ECancelled /\ exists r, r_kind r = KCancelTask /\ t = [Got r]) \/
  exists c a b, t = a ++ b /\ asked_once c 12524 p a /\ (b = [] \/ answered_all a /\ exists c', closes c' force b).
Proof.
  intros PK MK HU t m P. cbn [tperform] in P. unfold tasync_disconnect in P. set (F := fun b : bool => tbind (if b then tunsubscribe_gateway else tret tt) _) in P.
  assert (P1 : path U (F (is_client w)) w t m) by (eapply path_same; [|exact P]; reflexivity). clear P. unfold F in P1. clear F.
  assert (Un : forall t1 m1, path U (if is_client w then tunsubscribe_gateway else tret tt) w t1 m1 ->
    (m1 = traise ECancelled /\ exists r, r_kind r = KCancelTask /\ t1 = [Got r]) \/
    exists c, asked_once c 12524 p t1 /\ (forall a, m1 = Done (Val a) -> answered_all t1)).
  { intros t1 m1 P. destruct (is_client w).
    - destruct (HU eq_refl) as (Hw & ->). change tunsubscribe_gateway with (tperform n Unregister) in P.
      destruct (unregister_path n id w p PK MK Hw _ _ P) as [(-> & k & -> & _)|[H|(c & S)]].
      + right. exists 0%nat. split; [left; reflexivity|]. intros a E. discriminate E.
      + left. exact H.
      + right. exists c. split; [eapply stands_once, S|]. intros a E. eapply stands_done; eassumption.
    - destruct (path_done _ _ _ _ _ P) as (-> & ->). right. exists 0%nat. split; [left; reflexivity|]. intros _ _. left. reflexivity. }
  destruct (path_bind _ _ _ _ _ _ P1) as [(m' & P & -> & G)|(t1 & a & w1 & t2 & P & -> & P2)].
  - destruct (Un _ _ P) as [(-> & H)|(c & A & _)]; [left; split; [reflexivity|exact H]|]. right. exists c, t, []. rewrite app_nil_r. auto.
  - right. destruct (Un _ _ P) as [(E & _)|(c & A & D)]; [discriminate E|]. exists c, t1, t2. split; [reflexivity|]. split; [exact A|].
    assert (P3 : path U (match w_proto w1 with Some c => tasync_close c force | None => traise EAttribute end) w1 t2 m).
    { eapply path_same; [|exact P2]. unfold tproto_or_fail. cbn [tget tbind advance tret]. destruct (w_proto w1); reflexivity. }
    destruct (w_proto w1) as [c'|].
    + right. split; [eapply D; reflexivity|]. exists c'. eapply close_path, P3.
    + left. exact (proj1 (path_done _ _ _ _ _ P3)).
Qed.
(** registered, the lock free and the connection open: the goodbye goes out at once *)
Lemma swallowed_first X p c w b : makeMessage 0 X p = Ok b -> connected c w = true -> c_closing (get_conn c w) = false -> c_open (get_conn c w) = true ->
  exists k, advance (swallowed X (Ok p) c) w = ([Send c X p; AwaitReply c 2000], w, Wait (AwaitReply c 2000) k).
Proof.
  intros HB C CC O. unfold swallowed, tcommand_request, tmake_request. change (Z.to_nat (0 + 1)) with 1%nat. cbn [trequest_loop tlift tbind tret tget tcatch advance].
  rewrite C. cbn [negb tget tbind tcatch advance]. rewrite CC. unfold tsend. cbn [tget tbind tcatch advance]. rewrite HB.
  cbn -[get_conn]. rewrite ?O. cbn -[get_conn]. eexists. reflexivity.
Qed.
Lemma goodbye_first n id w p force c : pack_Is [VInt 0; VInt id] = Ok p -> (exists b, makeMessage 0 12524 p = Ok b) ->
  is_client w = true -> m_locked (w_cm w) = false -> m_proto (w_cm w) = Some c -> m_id (w_cm w) = id -> c_closing (get_conn c w) = false -> c_open (get_conn c w) = true ->
  exists w' m, advance (tperform n (Disconnect force)) w = ([Send c 12524 p; AwaitReply c 2000], w', m).
Proof.
  intros PK (mb & MK) IC L PR HI CC CO. assert (At : attached w = true) by (unfold is_client in IC; apply andb_prop in IC; tauto).
  assert (MC : m_is_client (w_cm w) = true) by (unfold is_client in IC; apply andb_prop in IC; tauto).
  assert (C : connected c w = true) by (unfold attached in At; rewrite PR in At; exact At).
  assert (Lt : (c < List.length (w_conns w))%nat).
  { unfold get_conn in CO. destruct (Nat.ltb_spec c (List.length (w_conns w))) as [Q|Q]; [exact Q|]. rewrite nth_overflow in CO by exact Q. discriminate CO. }
  assert (Un : exists w' k, advance tunsubscribe_gateway w = ([Send c 12524 p; AwaitReply c 2000], w', Wait (AwaitReply c 2000) k)).
  { rewrite unsubscribe_eq, At. cbn [negb advance]. rewrite L. set (w1 := put_cm (cmset_locked true) w). unfold leave. set (body := tbind _ _).
    assert (Bd : exists w4 k, advance body w1 = ([Send c 12524 p; AwaitReply c 2000], w4, Wait (AwaitReply c 2000) k)).
    { unfold body. cbn [tget tbind advance]. assert (M1 : m_is_client (w_cm w1) = true) by exact MC. rewrite M1.
      unfold tm_proto_or_fail, tremove_client. cbn [tdo tget tbind tret tcatch advance app].
      set (w2 := put_cm (cmset_client false) w1). assert (P2 : m_proto (w_cm w2) = Some c) by exact PR. rewrite P2. cbn [tdo tbind tret tget tcatch advance].
      set (w3 := unregister_all c (keepalive false c w2)). unfold tm_proto_or_fail. cbn [tget tbind tcatch advance]. assert (P3 : m_proto (w_cm w3) = Some c) by exact PR. rewrite P3. cbn [tbind tret tget tcatch advance].
      assert (I3 : m_id (w_cm w3) = id) by exact HI. rewrite I3, PK.
      assert (G : get_conn c w3 = mkConn (c_connected (get_conn c w)) (c_closing (get_conn c w)) (c_open (get_conn c w)) [] false).
      { assert (E2 : get_conn c w2 = get_conn c w) by reflexivity. assert (L2 : List.length (w_conns w2) = List.length (w_conns w)) by reflexivity.
        unfold w3, unregister_all, keepalive. rewrite P_Pool2.upd_same, P_Pool2.upd_same, E2; [reflexivity|rewrite L2; exact Lt|]. unfold upd_conn. cbn [set_conns w_conns]. rewrite lset_len, L2. exact Lt. }
      destruct (swallowed_first 12524 p c w3 mb MK) as (k & E); [unfold connected; rewrite G; exact C|rewrite G; exact CC|rewrite G; exact CO|].
      unfold swallowed in E. change CODE_REMOVE_CLIENT_QUERY with 12524. exists w3, k. rewrite E. reflexivity. }
    destruct Bd as (w4 & k & E). pose proof (advance_fin body (put_cm (cmset_locked false)) _ _ _ _ E) as F. cbn [tfinally] in F. exists w4. eexists. exact F. }
  destruct Un as (w' & k & E). cbn [tperform]. unfold tasync_disconnect. cbn [tget tbind tret advance]. rewrite IC. cbv iota.
  rewrite (advance_bind_all _ _ _ _ _ _ E). eexists _, _. reflexivity.
Qed.
