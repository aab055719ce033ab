From Verif Require Import Py F64 Struct Utf Utility Const Spec Enum Decode World Request Gateway Traces Paths Api P_Base P_Util P_Dict P_Monad P_Request P_Sat P_Paths P_Frame P_Gw1 P_Gw6 P_Gw7 P_Calm P_Gw8 P_Gw9 P_Gw10 P_Gw11.
Open Scope m_scope.

(** ------------------------------------------------------------------ *)
(** * debug entries other than those of connecting *)
Definition same_key (k : key) : wrel := fun w _ w' => dget k (w_last w') = dget k (w_last w).
Lemma key_closed k : ~ connect_key k -> closed anything (same_key k).
Proof.
  intros N. constructor; unfold same_key; try (intros; reflexivity).
  - intros; congruence.
  - intros w e r rest l w1 E P I. apply interfere_fields in I. destruct I as (_ & _ & _ & -> & _). reflexivity.
  - intros w r rest l w1 E I. apply interfere_fields in I. destruct I as (_ & _ & _ & -> & _). unfold opened. destruct (r_kind r); reflexivity.
  - intros w c l w1 I. apply lose_fields in I. destruct I as (_ & _ & _ & _ & -> & _). reflexivity.
  - intros w k0 v C. cbn [set_last w_last]. rewrite dget_dset. destruct (key_eqb k k0) eqn:X; [|reflexivity]. apply key_eqb_eq in X. subst. contradiction.
Qed.
Lemma perform_key n k c w t w' o : perform n c w = (t, w', o) -> ~ connect_key k -> ~ In k (call_keys c) -> dget k (w_last w') = dget k (w_last w).
Proof.
  intros E N I. eapply (sat_perform anything (same_key k) (key_closed k N)) in E; try (intros; exact Logic.I); [exact E|..].
  - intros; reflexivity.
  - intros; reflexivity.
  - intros k0 J w0 v. unfold same_key. cbn [set_last w_last]. rewrite dget_dset. destruct (key_eqb k k0) eqn:X; [|reflexivity]. apply key_eqb_eq in X. subst. contradiction.
Qed.
Lemma command_key {A} n (method : Z -> nat -> M A) delay k : ~ connect_key k -> (forall mr c w t w' o, method mr c w = (t, w', o) -> kept w w') ->
  Sat (same_key k) (command n method delay).
Proof.
  intros N K. eapply sat_command_api; [apply (key_closed k N)|intros; exact Logic.I|]. intros mr c w t w' o E. apply K in E. unfold same_key.
  destruct E as (_ & _ & _ & -> & _). reflexivity.
Qed.

(** ------------------------------------------------------------------ *)
(** * traces of requests: after a message comes the wait and its end *)
Definition dangle (t : trace) : Prop := forall a c X p a2, t = a ++ Send c X p :: a2 -> exists c' ms r a3, a2 = AwaitReply c' ms :: Got r :: a3.
Lemma dangle_app t1 t2 : dangle t1 -> dangle t2 -> dangle (t1 ++ t2).
Proof.
  intros D1 D2 a c X p a2 E. destruct (split_app _ _ _ _ _ E) as [(a3 & E1 & ->)|(b1 & _ & E1)].
  - apply D1 in E1. destruct E1 as (c' & ms & r & a4 & ->). cbn. eauto 6.
  - apply D2 in E1. exact E1.
Qed.
Lemma dangle_none t : (forall c X p, ~ In (Send c X p) t) -> dangle t.
Proof. intros N a c X p a2 ->. exfalso. eapply N. apply in_or_app. right. left. reflexivity. Qed.
Lemma dangle_losses l : only_losses l -> dangle l.
Proof. intros L. apply dangle_none. intros c X p. apply losses_no_send. exact L. Qed.
Lemma dangle_ask c X p w r l : only_losses l -> dangle (sent c X p w ++ AwaitReply c 2000 :: Got r :: l).
Proof.
  intros L. unfold sent. destruct (c_open _).
  - intros a c0 X0 p0 a2 E. cbn [app] in E. destruct a as [|e a]; cbn [app] in E.
    + injection E as <- <- <- <-. eauto 6.
    + injection E as <- E. destruct a as [|e a]; [discriminate|]. injection E as <- E. destruct a as [|e a]; [discriminate|]. injection E as <- E.
      exfalso. eapply losses_no_send; [exact L|]. rewrite E. apply in_or_app. right. left. reflexivity.
  - cbn [app]. apply dangle_none. intros c0 X0 p0 [I|[I|I]]; try discriminate. eapply losses_no_send; eassumption.
Qed.
Lemma run_dangle c X p mr n a w t w' o : lrun c X p mr n a w t w' o -> (forall y, o <> Stuck y) -> dangle t.
Proof.
  induction 1; intros N; try (apply dangle_none; intros ? ? ? []; fail); try (exfalso; eapply N; reflexivity).
  - apply dangle_ask. eapply interfere_l; eassumption.
  - match goal with |- dangle (?x1 ++ ?x2 :: ?x3 :: l ++ ?x4) => replace (x1 ++ x2 :: x3 :: l ++ x4) with ((x1 ++ x2 :: x3 :: l) ++ x4) by (rewrite <- app_assoc; reflexivity) end.
    apply dangle_app; [apply dangle_ask; eapply interfere_l; eassumption|]. apply dangle_none. intros c0 X0 p0 [I|[I|I]]; try discriminate.
    eapply losses_no_send; [|exact I]. eapply interfere_l; eassumption.
  - match goal with |- dangle (?x1 ++ ?x2 :: ?x3 :: l ++ ?x4) => replace (x1 ++ x2 :: x3 :: l ++ x4) with ((x1 ++ x2 :: x3 :: l) ++ x4) by (rewrite <- app_assoc; reflexivity) end.
    apply dangle_app; [apply dangle_ask; eapply interfere_l; eassumption|].
    change (Sleep (1000 * (a + 1)) :: Got r2 :: l2 ++ t) with ((Sleep (1000 * (a + 1)) :: Got r2 :: l2) ++ t). apply dangle_app; [|apply IHlrun; exact N].
    apply dangle_none. intros c0 X0 p0 [I|[I|I]]; try discriminate. eapply losses_no_send; [|exact I]. eapply interfere_l; eassumption.
Qed.
Lemma answered_split X q a b : dangle a -> answered X q (a ++ b) -> answered X q a \/ answered X q b.
Proof.
  intros D (t1 & c & p & ms & t2 & E). destruct (split_app _ _ _ _ _ E) as [(a2 & E1 & E2)|(b1 & _ & E1)].
  - left. destruct (D _ _ _ _ _ E1) as (c' & ms' & r & a3 & ->). cbn [app] in E2. injection E2 as Q1 Q2 Q3 _. subst.
    do 5 eexists. reflexivity.
  - right. exists b1, c, p, ms, t2. exact E1.
Qed.

(** ------------------------------------------------------------------ *)
(** * C66: what a successful poll stores *)
Lemma reading_val X p dec mr c w t w' r : reading X p dec mr c w = (t, w', Val r) ->
  (forall q b, In q (replies t) -> answer_of q = Some (X + 1, b) -> r = nonempty (Some b)) /\
  (forall b, r = Some b -> exists q, In (Got q) t /\ answer_of q = Some (X + 1, b)).
Proof.
  intros E. apply reading_inv in E. destruct E as (w1 & o1 & E1 & E2). destruct o1 as [r1|e|y]; [|destruct E2; discriminate..].
  apply request_run in E1.
  assert (R : r = nonempty r1).
  { destruct (nonempty r1) as [b|]; destruct E2 as (_ & E2); [|congruence]. destruct (snd _); congruence. }
  split.
  - intros q b I A. destruct (run_final _ _ _ _ _ _ _ _ _ _ _ E1 I) as [(e & J)|(En & _)].
    + exfalso. apply judge_answer in A. congruence.
    + unfold ends in En. apply judge_answer in A. rewrite A in En. injection En as ->. exact R.
  - intros b ->. destruct r1 as [[|x b1]|]; try discriminate. injection R as ->. apply run_answer in E1.
    destruct E1 as (rs & q & E & A). exists q. split; [|exact A]. apply replies_got. rewrite E. apply in_or_app. right. left. reflexivity.
Qed.
Lemma reading_dangle X p dec mr c w t w' o : reading X p dec mr c w = (t, w', o) -> (forall y, o <> Stuck y) -> dangle t.
Proof.
  intros E N. apply reading_inv in E. destruct E as (w1 & o1 & E1 & E2). apply request_run in E1. eapply run_dangle; [exact E1|].
  intros y ->. destruct E2 as (_ & ->). eapply N. reflexivity.
Qed.
Lemma silent_dangle X t w w' q : silent X w t w' -> answered X q t -> False.
Proof. intros S (t1 & c & p & ms & t2 & ->). eapply S. apply in_or_app. right. left. reflexivity. Qed.

Lemma attempt_val {A} (connect : M bool) (method : Z -> nat -> M A) mr w t w' a : attempt_request connect method mr w = (t, w', Val a) ->
  exists ta tb wa c, t = ta ++ tb /\ connect w = (ta, wa, Val true) /\ w_proto wa = Some c /\ method mr c wa = (tb, w', Val a).
Proof.
  unfold attempt_request. intros E. apply bind_inv in E.
  destruct E as [(ta & wa & b & tb & E1 & E2 & ->)|[(e & E1 & X)|(y & E1 & X)]]; try discriminate.
  destruct b; cbn [negb] in E2; [|discriminate]. unfold proto_or_fail in E2. rewrite bind_assoc, bind_get in E2.
  destruct (w_proto wa) as [c|] eqn:P; [|discriminate]. rewrite bind_ret in E2. exists ta, tb, wa, c. auto.
Qed.
(** a command that returns a value: by the first attempt, or by the second after the first
    failed with a communication error *)
Lemma command_val {A} n (method : Z -> nat -> M A) delay w t w' a : command n method delay w = (t, w', Val a) ->
  attempt_request (async_connect n no_args) method (w_retries w) w = (t, w', Val a) \/
  exists t1 w1 e td wd ts ws t2,
    attempt_request (async_connect n no_args) method (w_retries w) w = (t1, w1, Exc e) /\ is_comm_error e = true /\
    async_disconnect true w1 = (td, wd, Val tt) /\ msleep (1000 * delay) wd = (ts, ws, Val tt) /\
    attempt_request (async_connect n no_args) method (w_retries w) ws = (t2, w', Val a) /\ t = t1 ++ td ++ ts ++ t2.
Proof.
  unfold command, connected_request. rewrite bind_get. unfold mcatch. intros E.
  destruct (attempt_request (async_connect n no_args) method (w_retries w) w) as [[t1 w1] o1] eqn:E1.
  destruct o1 as [x|e|y]; [left; exact E| |discriminate]. destruct (is_comm_error e) eqn:Ce; [|discriminate].
  match type of E with (match ?x with _ => _ end) = _ => destruct x as [[t2 w2] o2] eqn:E2 end. injection E as <- <- ->.
  right. apply bind_inv in E2.
  destruct E2 as [(td & wd & u0 & t3 & Ed & E3 & ->)|[(e' & Ed & X)|(y & Ed & X)]]; try discriminate. apply bind_inv in E3.
  destruct E3 as [(ts & ws & u1 & t4 & Es & E4 & ->)|[(e' & Es & X)|(y & Es & X)]]; try discriminate.
  destruct u0, u1. exists t1, w1, e, td, wd, ts, ws, t4. auto 8.
Qed.
Lemma command_stored n X p dec delay w t w' r : ~ connecting X -> (forall w b, calm (dec w b)) ->
  command n (reading X p dec) delay w = (t, w', Val r) ->
  (forall q b, answered X q t -> answer_of q = Some (X + 1, b) -> r = nonempty (Some b)) /\
  (forall b, r = Some b -> b <> [] /\ exists q, In (Got q) t /\ answer_of q = Some (X + 1, b)).
Proof.
  intros N Cm E. pose proof (reading_once X p dec Cm) as Q.
  assert (Ne : forall mr c w1 t1 w1' b, reading X p dec mr c w1 = (t1, w1', Val (Some b)) -> b <> []).
  { intros mr c w1 t1 w1' b E1 ->. apply reading_inv in E1. destruct E1 as (? & o1 & _ & E2). destruct o1 as [r1|e|y]; [|destruct E2; discriminate..].
    destruct r1 as [[|x1 b1]|]; cbn [nonempty] in E2; destruct E2 as (_ & E2); try discriminate. destruct (snd _); discriminate. }
  apply command_val in E. destruct E as [E|(t1 & w1 & e & td & wd & ts & ws & t2 & E1 & Ce & Ed & Es & E & ->)].
  - apply attempt_val in E. destruct E as (ta & tb & wa & c & -> & E1 & P & E2). pose proof (connect_silent n X N _ _ _ _ E1) as S.
    pose proof (reading_val _ _ _ _ _ _ _ _ _ E2) as (V1 & V2). split.
    + intros q b An Aw. eapply V1; [|exact Aw]. apply answered_replies with (X := X). eapply answered_app; eassumption.
    + intros b ->. split; [eapply Ne; exact E2|]. destruct (V2 b eq_refl) as (q & I & A). exists q. split; [apply in_or_app; auto|exact A].
  - apply attempt_val in E. destruct E as (ta & tb & wa & c & -> & E3 & P & E4). pose proof (connect_silent n X N _ _ _ _ E3) as S.
    pose proof (reading_val _ _ _ _ _ _ _ _ _ E4) as (V1 & V2). split.
    + pose proof (attempt_inv _ _ _ _ _ _ _ _ _ Q N E1) as (tc & te & wc & -> & _ & Sc & D1).
      intros q b An Aw. rewrite <- app_assoc in An. apply (answered_app _ _ _ _ _ _ Sc) in An.
      assert (Dte : dangle te /\ (answered X q te -> False)).
      { destruct D1 as [(-> & _)|(c1 & _ & D1)].
        - split; [apply dangle_none; intros ? ? ? []|]. intros (x & ? & ? & ? & ? & F). destruct x; discriminate.
        - split; [eapply reading_dangle; [exact D1|discriminate]|]. intros An1. apply answered_replies in An1.
          eapply (q_bad _ _ _ Q); try eassumption. exact Logic.I. }
      destruct Dte as (Dte & Nte). apply answered_split in An; [|exact Dte]. destruct An as [An|An]; [destruct (Nte An)|].
      apply (answered_app _ _ _ _ _ _ (disconnect_silent _ _ N _ _ _ _ Ed)) in An.
      assert (Ss : silent X wd ts ws) by (eapply sat_sleep; [apply silent_closed|exact Es]).
      apply (answered_app _ _ _ _ _ _ Ss) in An. apply (answered_app _ _ _ _ _ _ S) in An. eapply V1; [|exact Aw]. apply answered_replies with (X := X). exact An.
    + intros b ->. split; [eapply Ne; exact E4|]. destruct (V2 b eq_refl) as (q & I & A). exists q. split; [|exact A].
      apply in_or_app. right. apply in_or_app. right. apply in_or_app. right. apply in_or_app. auto.
Qed.

Lemma bind_ext {A B} (m : M A) (f f' : A -> M B) w : (forall a w, f a w = f' a w) -> mbind m f w = mbind m f' w.
Proof. intros H. unfold mbind. destruct (m w) as [[t w1] [a|e|y]]; try reflexivity. rewrite H. reflexivity. Qed.
Lemma command_ext {A} n (m1 m2 : Z -> nat -> M A) delay w : (forall mr c w, m1 mr c w = m2 mr c w) -> command n m1 delay w = command n m2 delay w.
Proof.
  intros H. unfold command, connected_request. rewrite !bind_get.
  assert (G : forall w0, attempt_request (async_connect n no_args) m1 (w_retries w) w0 = attempt_request (async_connect n no_args) m2 (w_retries w) w0).
  { intros w0. unfold attempt_request. apply bind_ext. intros b w1. destruct (negb b); [reflexivity|]. apply bind_ext. intros c w2. apply H. }
  unfold mcatch. rewrite G. destruct (attempt_request _ m2 _ w) as [[tx wx] [a|e|y]]; try reflexivity. destruct (is_comm_error e); [|reflexivity].
  match goal with |- (match ?x with _ => _ end) = (match ?y with _ => _ end) => assert (J : x = y) end.
  { apply bind_ext. intros u w1. apply bind_ext. intros u2 w2. apply G. }
  rewrite J. reflexivity.
Qed.

Lemma poll_stored n k X p dec (method : Z -> nat -> M (option bytes)) w t w' o : ~ connecting X -> ~ connect_key k -> (forall w b, calm (dec w b)) ->
  (forall mr c w, method mr c w = reading X p dec mr c w) ->
  poll (async_connect n no_args) k method w = (t, w', o) ->
  match o with
  | Val _ => (forall q b, answered X q t -> answer_of q = Some (X + 1, b) -> b <> [] -> dget k (w_last w') = Some (VBytes b)) /\
             (dget k (w_last w') = dget k (w_last w) \/
              exists q b, In (Got q) t /\ answer_of q = Some (X + 1, b) /\ b <> [] /\ dget k (w_last w') = Some (VBytes b))
  | _ => dget k (w_last w') = dget k (w_last w)
  end.
Proof.
  intros N Nk Cm M E. apply poll_trace in E. destruct E as (w1 & o1 & E & D).
  assert (K : dget k (w_last w1) = dget k (w_last w)).
  { eapply command_key; [exact Nk| |exact E]. intros mr c w0 t0 w0' o0 E0. rewrite M in E0. eapply reading_kept; exact E0. }
  rewrite (command_ext n _ _ 1 w M) in E. destruct o1 as [r|e|y].
  - apply command_stored in E; [|exact N|exact Cm]. destruct E as (V1 & V2). destruct r as [b|]; destruct D as (-> & ->).
    + destruct (V2 b eq_refl) as (Nb & q & I & A). cbn [set_last w_last]. rewrite dget_dset.
      replace (key_eqb k k) with true by (symmetry; apply key_eqb_eq; reflexivity). split.
      * intros q' b' An Aw Nb'. specialize (V1 _ _ An Aw). destruct b'; [congruence|]. injection V1 as ->. reflexivity.
      * right. exists q, b. auto.
    + split; [|left; exact K]. intros q b An Aw Nb. specialize (V1 _ _ An Aw). destruct b; [congruence|discriminate].
  - destruct D as (-> & ->). exact K.
  - destruct D as (-> & ->). exact K.
Qed.
