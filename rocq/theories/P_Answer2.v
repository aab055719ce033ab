(** A request waits until the first message with its id comes: the calls and the connections. *)
From Verif Require Import Py F64 Struct Utf Utility Const Spec Enum Decode Messages Calls World Request Gateway Traces Paths Api Tasks Pool SpecPool Net SpecNet P_Base P_Util.
From Verif Require Import P_Net1 P_Net2 P_Net3 P_Net4 P_Net5 P_Net6 P_Net8 P_Answer.
From Verif Require Protocol P_Proto1 P_Proto2 P_Proto3 P_Proto4 P_Pool P_Pool2 Prop_Pool Prop_Net.
Import Protocol(pstate, pevent, OutRequest, OutWrite, OutCompleted).

Definition heeded (N : net) (i c f : nat) : Prop := exists s, nth_error (n_links N) c = Some s /\ waits s f.
Record heeds (N : net) : Prop := {
  K_fit : Forall fit (n_links N);
  K_wait : forall i c f, n_slot N i = ForReply c f Fair -> heeded N i c f }.
Lemma fit_at N c s : Forall fit (n_links N) -> nth_error (n_links N) c = Some s -> fit s.
Proof. intros F E. rewrite Forall_forall in F. apply F. eapply nth_error_In, E. Qed.
Lemma fit_all c e N : P_Proto2.wf_event e -> tells e = true -> Forall fit (n_links N) -> Forall fit (n_links (feed c e N)).
Proof.
  intros W T F. unfold feed. destruct (nth_error (n_links N) c) as [s|] eqn:E; [|exact F]. cbn [n_links].
  pose proof (fit_step s e W T (fit_at N c s F E)) as A. clear - F A. revert c. induction F as [|y l Q F IH]; intros [|c]; cbn [lset]; constructor; auto.
Qed.
Lemma heeds_feed c e N : P_Proto2.wf_event e -> tells e = true -> (forall f i, e = Protocol.EvCancel f -> n_slot N i <> ForReply c f Fair) -> heeds N -> heeds (feed c e N).
Proof.
  intros W T NC [A B]. split; [apply fit_all; assumption|]. intros i c' f E. rewrite feed_slot in E. destruct (B i c' f E) as (s & Es & K).
  unfold heeded. rewrite feed_links. destruct (Nat.eqb_spec c' c) as [->|NE]; [|eauto]. rewrite Es. cbn [option_map]. eexists. split; [reflexivity|].
  apply waits_step; auto; [eapply fit_at; eassumption|]. intros ->. exact (NC f i eq_refl E).
Qed.
Lemma heeds_put i x N : (forall c f, x <> ForReply c f Fair) -> heeds N -> heeds (put_slot i x N).
Proof. intros H [A B]. split; cbn [put_slot n_links n_slot]; auto. intros j c f E. destruct (Nat.eqb j i); [destruct (H _ _ E)|]. exact (B j c f E). Qed.
Lemma heeds_note x N : heeds N -> heeds (note x N). Proof. intros [A B]. split; auto. Qed.
Lemma put_feed i x c e N : put_slot i x (feed c e N) = feed c e (put_slot i x N).
Proof. unfold feed. cbn [put_slot n_links]. destruct (nth_error (n_links N) c); reflexivity. Qed.
Lemma heeds_hear N x : heeds N -> (forall i c e, x = By i e -> P_Pool2.names c e -> (c < List.length (n_links N))%nat) -> heeds (hear N x).
Proof.
  intros K H. assert (Nt : heeds (note (Api x) N)) by (apply heeds_note, K).
  unfold hear. destruct x as [|i []|[]| |]; try exact Nt.
  - rewrite put_feed. assert (Lc : (c < List.length (n_links N))%nat) by (eapply H; [reflexivity|left; left; eauto]).
    destruct (nth_error (n_links N) c) as [s|] eqn:E; [|apply nth_error_None in E; lia].
    assert (Lk : link c (note (Api (By i (Send c code payload))) N) = s) by (unfold link; cbn [note n_links]; apply nth_error_nth, E). rewrite Lk.
    destruct Nt as [A B]. split.
    + apply fit_all; [exact Logic.I|reflexivity|exact A].
    + intros j c' f E'. rewrite feed_slot in E'. cbn [put_slot n_slot] in E'. unfold heeded. rewrite feed_links. destruct (Nat.eqb_spec j i) as [->|NJ].
      * injection E' as <- <-. rewrite Nat.eqb_refl. cbn [put_slot note n_links]. rewrite E. cbn [option_map]. eexists. split; [reflexivity|]. apply waits_new. eapply fit_at; [exact A|exact E].
      * destruct (B j c' f E') as (s' & Es & Ks). cbn [put_slot note n_links] in *. destruct (Nat.eqb_spec c' c) as [->|]; [|eauto]. rewrite Es. cbn [option_map]. eexists. split; [reflexivity|].
        apply waits_step; [eapply fit_at; [exact A|exact Es]|exact Logic.I|reflexivity|discriminate|exact Ks].
  - rewrite put_feed. apply heeds_feed; [exact Logic.I|reflexivity|discriminate|]. apply heeds_put; [discriminate|exact Nt].
  - apply heeds_put; [discriminate|exact Nt].
  - apply heeds_feed; [exact Logic.I|reflexivity|discriminate|exact Nt].
  - apply heeds_feed; [exact Logic.I|reflexivity|discriminate|exact Nt].
Qed.
Lemma heeds_hears xs : forall N, heeds N -> (forall i c e, In (By i e) xs -> P_Pool2.names c e -> (c < List.length (n_links N))%nat) -> heeds (fold_left hear xs N).
Proof.
  induction xs as [|x xs IH]; intros N K H; [exact K|]. cbn [fold_left]. apply IH.
  - apply heeds_hear; [exact K|]. intros i c e ->. eapply H. left. reflexivity.
  - intros i c e J Nm. rewrite hear_size. eapply H; [right; exact J|exact Nm].
Qed.
Lemma heeds_grow P ls N : Forall fit ls -> heeds N -> heeds (mkNet P (n_links N ++ ls) (n_slot N) (n_log N)).
Proof.
  intros F [A B]. split; cbn [n_links n_slot].
  - apply Forall_app. auto.
  - intros i c f E. destruct (B i c f E) as (s & Es & R). exists s. split; [|exact R]. cbn [n_links]. rewrite nth_error_app1; [exact Es|]. apply nth_error_Some. congruence.
Qed.
(** two tasks do not wait for one request *)
Lemma slot_once n w0 N i j c f x y : whole n w0 N -> n_slot N i = ForReply c f x -> n_slot N j = ForReply c f y -> i = j.
Proof.
  intros Wh E1 E2. pose proof Wh as (_ & S). destruct (proj1 (S i) _ _ _ E1) as (_ & (ga & X & p & id & gb & L1 & _)). destruct (proj1 (S j) _ _ _ E2) as (_ & (ga' & X' & p' & id' & gb' & L2 & _)).
  assert (Q : ga ++ [Api (By i (Send c X p))] = ga' ++ [Api (By j (Send c X' p'))]).
  { eapply (Prop_Net.request_once n w0 N c f); [exact Wh| |]; [rewrite L1, <- app_assoc; reflexivity|rewrite L2, <- app_assoc; reflexivity]. }
  apply app_inj_tail in Q. destruct Q as (_ & Q). congruence.
Qed.
Section Run.
  Variables (n : nat) (cid mr : option Z) (rnd : Z) (h : host) (w0 : world).
  Hypothesis W0 : new_gateway cid mr rnd [] h = Ok w0.
  Lemma heeds_move e N : (exists es, n_pool N = Pool.prun n (start w0) es) -> List.length (n_links N) = List.length (w_conns (p_world (n_pool N))) -> heeds N -> heeds (move n e N).
  Proof.
    intros (es & R) Le K. unfold move.
    set (P' := Pool.pstep n (n_pool N) e). assert (R' : exists es', P' = Pool.prun n (start w0) es') by (exists (es ++ [e]); unfold P', Pool.prun; rewrite R, fold_left_app; reflexivity).
    destruct (ran_of0 n cid mr rnd h w0 W0 P' R') as (es' & RN). destruct (Prop_Pool.ran_inv _ _ _ _ _ _ _ RN) as (ID & _).
    apply heeds_hears; [apply heeds_grow; [apply Forall_forall; intros s J; apply repeat_spec in J; subst s; exact fit_new|exact K]|].
    intros i c f J Nm. cbn [n_links]. rewrite app_length, repeat_length.
    assert (J' : In (By i f) (p_log P')) by (rewrite <- (firstn_skipn (List.length (p_log (n_pool N))) (p_log P')); apply in_or_app; right; exact J).
    pose proof (P_Pool2.I_known _ _ _ _ _ ID i c f J' Nm) as Lt. fold P'. lia.
  Qed.
  Lemma heeds_step N e : wf_nevent e -> whole n w0 N -> heeds N -> heeds (nstep n N e).
  Proof.
    intros We Wh K.
    assert (Mv : forall x N0, whole n w0 N0 -> heeds N0 -> heeds (move n x N0)) by (intros x N0 (G & _) K0; apply heeds_move; [exact (G_run _ _ _ _ G)|exact (G_len _ _ _ _ G)|exact K0]).
    assert (Cn : forall i c f x y, n_slot N i = ForReply c f x -> y <> Fair -> heeds (put_slot i (ForReply c f y) (feed c (Protocol.EvCancel f) N))).
    { intros i c f x y E Ny. rewrite put_feed. apply heeds_feed; [exact Logic.I|reflexivity| |apply heeds_put; [congruence|exact K]].
      intros f' j E' Sj. injection E' as <-. cbn [put_slot n_slot] in Sj. destruct (Nat.eqb_spec j i) as [Eji|NJ]; [congruence|]. apply NJ. eapply slot_once; eassumption. }
    destruct e; cbn [nstep]; auto.
    - destruct (awaits i N) as [[]|]; auto.
    - destruct (nth_error (n_links N) c) as [s|] eqn:E; [|exact K]. destruct (takes_bytes s) eqn:T; [|exact K].
      assert (Wh1 : whole n w0 (feed c (Protocol.EvData b) (note (Came c b) N))) by (eapply data_whole; eassumption).
      assert (K1 : heeds (feed c (Protocol.EvData b) (note (Came c b) N))) by (apply heeds_feed; [exact We|reflexivity|discriminate|apply heeds_note; exact K]).
      revert Wh1 K1. generalize (feed c (Protocol.EvData b) (note (Came c b) N)) as N0. match goal with |- context [fold_left _ ?l _] => generalize l as os end.
      induction os as [|o os IH]; intros N0 Wh1 K1; [exact K1|]. cbn [fold_left]. destruct o; auto. apply IH; [exact (pushes_whole n cid mr rnd h w0 W0 c [Protocol.OutDropped m] N0 Wh1)|]. cbn [shove]. apply Mv; [eapply tell_whole; eassumption|]. unfold tell. destruct (handler_of _ _ _) as [[]|]; try exact K1. apply heeds_note; exact K1.
    - apply heeds_feed; [exact Logic.I|reflexivity|discriminate|exact K].
    - destruct (n_slot N i) as [|c f []|] eqn:E; auto. eapply Cn; [exact E|discriminate].
    - destruct (n_slot N i) as [|c f x|c j] eqn:E.
      + destruct (awaits i N) as [[]|], (queues i N); auto.
      + eapply Cn; [exact E|discriminate].
      + apply heeds_feed; [exact Logic.I|reflexivity|discriminate|exact K].
    - destruct (n_slot N i) as [|c f x|c j]; destruct (awaits i N) as [[]|]; auto.
      + destruct (Protocol.p_closed _); auto.
      + destruct (Protocol.fget _ _), x; auto.
      + destruct (nth j _ _); auto. destruct (Protocol.gather_done _ _); auto. apply Mv; [apply feed_whole; [exact Wh|exact Logic.I]|apply heeds_feed; [exact Logic.I|reflexivity|discriminate|exact K]].
  Qed.
  Lemma heeds_run es : Forall wf_nevent es -> heeds (nrun n (nstart w0) es).
  Proof.
    induction es as [|e es IH] using rev_ind; intros F.
    - split; [constructor|discriminate].
    - apply Forall_app in F. destruct F as (F & Fe). inversion Fe; subst. unfold nrun. rewrite fold_left_app. apply heeds_step; [assumption|eapply run_whole; eassumption|apply IH, F].
  Qed.
  (** the task goes on with the answer *)
  Lemma pool_move x N : n_pool (move n x N) = Pool.pstep n (n_pool N) x.
  Proof.
    unfold move. match goal with |- n_pool (fold_left hear ?l ?y) = ?P => generalize l as xs; assert (K1 : n_pool y = P) by reflexivity; revert K1; generalize y as N0; generalize P as P0 end.
    intros P0 N0 K1 xs. revert N0 K1. induction xs as [|y xs IH]; intros N0 K1; [exact K1|]. cbn [fold_left]. apply IH. rewrite <- K1. clear.
    unfold hear. destruct y as [|j []|[]| |]; try reflexivity; unfold feed; cbn [note n_links]; destruct (nth_error _ _); reflexivity.
  Qed.
  Lemma resumed N i c f m clk : whole n w0 N -> n_slot N i = ForReply c f Fair -> Protocol.fget f (Protocol.p_futs (link c N)) = Protocol.FDone m ->
    n_pool (nstep n N (NResume i clk)) = Pool.pstep n (n_pool N) (Resume i (KReply (Protocol.msg_code m) (Protocol.msg_data m)) clk).
  Proof.
    intros (G & S) Sl F. destruct (proj1 (S i) _ _ _ Sl) as ((k & T) & _). cbn [nstep]. unfold awaits. rewrite T, Sl, F. apply pool_move.
  Qed.
  Lemma goes_on N i c f m clk : whole n w0 N -> n_slot N i = ForReply c f Fair -> Protocol.fget f (Protocol.p_futs (link c N)) = Protocol.FDone m ->
    exists t, own i (apis (n_log (nstep n N (NResume i clk)))) = own i (apis (n_log N)) ++ Got (mkResp (KReply (Protocol.msg_code m) (Protocol.msg_data m)) [] None clk) :: t.
  Proof.
    intros Wh Sl F. pose proof (resumed N i c f m clk Wh Sl F) as Pm. pose proof Wh as (G & S). destruct (proj1 (S i) _ _ _ Sl) as ((k & T) & _).
    destruct (step_whole n cid mr rnd h w0 W0 N (NResume i clk) Logic.I Wh) as (G' & _).
    pose proof (G_log _ _ _ _ G') as L'. rewrite app_nil_r in L'. rewrite L', Pm. pose proof (G_log _ _ _ _ G) as L. rewrite app_nil_r in L. rewrite L.
    cbn [Pool.pstep]. rewrite T. cbn [fits]. destruct (advance _ _) as [[t w'] m']. cbn [Pool.p_log]. rewrite P_Net5.own_app. cbn [app own flat_map]. rewrite Nat.eqb_refl. eexists. reflexivity.
  Qed.
  (** two places where a task asked last *)
  Lemma last_ask N i c X p f id c' X' p' f' id' ga gb ga' gb' :
    n_log N = ga ++ Api (By i (Send c X p)) :: Wire c (OutRequest f id X p) :: Wire c (OutWrite (frame (id, X, p))) :: gb -> own i (apis gb) = [AwaitReply c 2000] ->
    n_log N = ga' ++ Api (By i (Send c' X' p')) :: Wire c' (OutRequest f' id' X' p') :: Wire c' (OutWrite (frame (id', X', p'))) :: gb' -> own i (apis gb') = [AwaitReply c' 2000] ->
    ga = ga' /\ c = c' /\ f = f'.
  Proof.
    intros E O E' O'. rewrite E in E'. clear E.
    assert (NoIn : forall z gb9 c9 X9 p9 c8, own i (apis gb9) = [AwaitReply c8 2000] -> ~ (exists r, Wire c (OutRequest f id X p) :: Wire c (OutWrite (frame (id, X, p))) :: gb9 = z ++ Api (By i (Send c9 X9 p9)) :: r)).
    { intros z gb9 c9 X9 p9 c8 H (r & Q). assert (Y : own i (apis (Wire c (OutRequest f id X p) :: Wire c (OutWrite (frame (id, X, p))) :: gb9)) = [AwaitReply c8 2000]) by exact H.
      rewrite Q, P_Net2.apis_app, P_Net5.own_app in Y. cbn [apis flat_map app own] in Y. rewrite Nat.eqb_refl in Y. destruct (own i (apis z)) as [|? []]; discriminate Y. }
    assert (NoIn' : forall z gb9 c9 X9 p9 c8, own i (apis gb9) = [AwaitReply c8 2000] -> ~ (exists r, Wire c' (OutRequest f' id' X' p') :: Wire c' (OutWrite (frame (id', X', p'))) :: gb9 = z ++ Api (By i (Send c9 X9 p9)) :: r)).
    { intros z gb9 c9 X9 p9 c8 H (r & Q). assert (Y : own i (apis (Wire c' (OutRequest f' id' X' p') :: Wire c' (OutWrite (frame (id', X', p'))) :: gb9)) = [AwaitReply c8 2000]) by exact H.
      rewrite Q, P_Net2.apis_app, P_Net5.own_app in Y. cbn [apis flat_map app own] in Y. rewrite Nat.eqb_refl in Y. destruct (own i (apis z)) as [|? []]; discriminate Y. }
    revert ga' E'. induction ga as [|x ga IH]; intros [|y ga'] E'; cbn [app] in E'.
    - injection E' as _ _ _ -> -> _ _ _ _. auto.
    - exfalso. eapply (NoIn ga' gb c' X' p' c O). eexists. injection E' as _ E'. exact E'.
    - exfalso. eapply (NoIn' ga gb' c X p c' O'). eexists. injection E' as _ E'. symmetry. exact E'.
    - injection E' as -> E'. destruct (IH _ E') as (-> & -> & ->). auto.
  Qed.
End Run.

(** a wait that its timer or a cancellation ended was ended by it *)
Definition same_or_fair (N N' : net) (i : nat) : Prop := forall c f x, n_slot N' i = ForReply c f x -> x = Fair \/ n_slot N i = ForReply c f x.
Lemma fair_refl N i : same_or_fair N N i. Proof. intros c f x E. auto. Qed.
Lemma fair_trans N1 N2 N3 i : same_or_fair N1 N2 i -> same_or_fair N2 N3 i -> same_or_fair N1 N3 i.
Proof. intros A B c f x E. destruct (B _ _ _ E) as [->|E']; auto. Qed.
Lemma fair_slot N N' i : n_slot N' i = n_slot N i -> same_or_fair N N' i. Proof. intros E c f x. rewrite E. auto. Qed.
Lemma fair_hear i x N : same_or_fair N (hear N x) i.
Proof.
  intros c f y. unfold hear. destruct x as [|j []|[]| |]; auto; cbn [put_slot n_slot]; rewrite ?feed_slot; cbn [note n_slot]; auto;
    destruct (Nat.eqb i j); auto; intros E; try discriminate E. left. congruence.
Qed.
Lemma fair_move n e i N : same_or_fair N (move n e N) i.
Proof.
  unfold move. match goal with |- same_or_fair _ (fold_left hear ?l ?x) _ => generalize l as xs; assert (K : same_or_fair N x i) by (intros c f y E; auto); revert K; generalize x as N0 end.
  intros N0 K xs. revert N0 K. induction xs as [|x xs IH]; intros N0 K; [exact K|]. cbn [fold_left]. apply IH. eapply fair_trans; [exact K|apply fair_hear].
Qed.
Lemma fair_step n i N e : e <> NTimeout i -> e <> NCancel i -> same_or_fair N (nstep n N e) i.
Proof.
  intros NT NC. destruct e as [cl|j|j k clk|c' b|c'|c'|j|j|j clk|]; cbn [nstep]; try apply fair_move.
  - destruct (awaits j N) as [[]|]; try apply fair_refl; apply fair_move.
  - destruct (nth_error (n_links N) c') as [s|]; [|apply fair_refl]. destruct (takes_bytes s); [|apply fair_refl].
    match goal with |- same_or_fair _ (fold_left ?F ?l ?x) _ => generalize l as xs; assert (K : same_or_fair N x i) by (apply fair_slot; rewrite feed_slot; reflexivity); revert K; generalize x as N0 end.
    intros N0 K xs. revert N0 K. induction xs as [|x xs IH]; intros N0 K; [exact K|]. cbn [fold_left]. apply IH. destruct x; try exact K. cbn [shove]. eapply fair_trans; [exact K|].
    eapply fair_trans; [|apply fair_move]. apply fair_slot. unfold tell. destruct (handler_of _ _ _) as [[]|]; reflexivity.
  - apply fair_slot. apply feed_slot.
  - destruct (n_slot N j) as [|c0 f0 []|] eqn:Sj; try apply fair_refl. apply fair_slot. cbn [put_slot n_slot]. rewrite feed_slot. destruct (Nat.eqb_spec i j) as [->|]; [destruct (NT eq_refl)|reflexivity].
  - destruct (n_slot N j) as [|c0 f0 x|c0 j0].
    + destruct (awaits j N) as [[]|], (queues j N); try apply fair_refl; apply fair_move.
    + apply fair_slot. cbn [put_slot n_slot]. rewrite feed_slot. destruct (Nat.eqb_spec i j) as [->|]; [destruct (NC eq_refl)|reflexivity].
    + apply fair_slot. apply feed_slot.
  - destruct (n_slot N j) as [|c0 f0 x|c0 j0]; destruct (awaits j N) as [[]|]; try apply fair_refl.
    + destruct (Protocol.p_closed _); try apply fair_refl; apply fair_move.
    + destruct (Protocol.fget _ _), x; try apply fair_refl; apply fair_move.
    + destruct (nth _ _ _); try apply fair_refl. destruct (Protocol.gather_done _ _); try apply fair_refl.
      eapply fair_trans; [|apply fair_move]. apply fair_slot, feed_slot.
Qed.
Lemma fair_run n i : forall es N, ~ In (NTimeout i) es -> ~ In (NCancel i) es -> same_or_fair N (nrun n N es) i.
Proof.
  induction es as [|e es IH]; intros N NT NC; [apply fair_refl|]. cbn [nrun fold_left]. eapply fair_trans; [apply (fair_step n i N e)|apply IH];
    intros J; [apply NT; left; exact J|apply NC; left; exact J|apply NT; right; exact J|apply NC; right; exact J].
Qed.
