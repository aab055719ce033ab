(** Waits that cannot last: a forced close, a timer that expired. *)
From Verif Require Import Py F64 Struct Utf Utility Const Spec Enum Decode Messages Calls World Request Gateway Traces Paths Api Tasks Pool SpecPool Net SpecNet P_Base P_Util.
From Verif Require Import P_Net1 P_Net2 P_Net3 P_Net4 P_Net5 P_Net6.
From Verif Require Protocol P_Proto1 P_Proto2 P_Proto3 P_Proto4 P_Pool P_Pool2 Prop_Pool.
Import Protocol(pstate, pevent, OutRequest, OutWrite, OutCompleted).

(** closing, and nothing is pending (but futures whose id was handed out again) *)
Definition stilled (s : pstate) : Prop := Protocol.p_closing s = true /\ forall f, Protocol.fget f (Protocol.p_futs s) = Protocol.FPending -> ~ P_Proto3.current s f.
Lemma stilled_step s e : tells e = true -> stilled s -> stilled (Protocol.pstep s e).
Proof.
  intros T (C & P). destruct (P_Proto4.step_closing s e C) as (C' & _ & _ & Le & Mo & _); [destruct e; try reflexivity; discriminate T|].
  split; [exact C'|]. intros f Pf Cu. apply (P f (Mo f Pf)). intros g Lg. apply Cu. lia.
Qed.
Lemma force_stills s : P_Proto3.reachable s -> Protocol.p_transport s <> Protocol.TNone -> stilled (Protocol.pstep s (Protocol.EvClose true)).
Proof.
  intros R T. split; [apply (P_Proto4.close_closing s true T)|]. intros f P Cu.
  assert (E : Protocol.p_futs (Protocol.pstep s (Protocol.EvClose true)) = Protocol.fcancel_all (map snd (Protocol.p_coll s)) (Protocol.p_futs s)) by (cbn [Protocol.pstep]; destruct (Protocol.p_transport s); try reflexivity; congruence).
  assert (P0 : Protocol.fget f (Protocol.p_futs s) = Protocol.FPending).
  { destruct (Protocol.fget f (Protocol.p_futs s)) eqn:F; [reflexivity| |]; rewrite E, P_Proto3.fcancel_all_stable, F in P by congruence; discriminate P. }
  assert (Cu0 : P_Proto3.current s f). { intros g Lg. apply Cu. rewrite E, P_Proto2.fcancel_all_length. exact Lg. }
  rewrite (P_Proto4.force_close s f R T P0 Cu0) in P. discriminate P.
Qed.

Definition alive (s : pstate) : Prop := P_Proto3.reachable s /\ sound_state s.
Lemma alive_step s e : P_Proto2.wf_event e -> tells e = true -> alive s -> alive (Protocol.pstep s e).
Proof.
  intros W T ((cb & es & H & ->) & N). split.
  - exists cb, (es ++ [e]). split; [apply Forall_app; split; [exact H|constructor; [exact W|constructor]]|]. unfold Protocol.prun. rewrite fold_left_app. reflexivity.
  - apply step_state; assumption.
Qed.
Lemma alive_new : alive new_link.
Proof. split; [exists true, [Protocol.EvMade]; split; [repeat constructor|reflexivity]|]. split; [discriminate|]. split; [reflexivity|discriminate]. Qed.

Record tidy (N : net) : Prop := {
  T_alive : Forall alive (n_links N);
  T_spent : forall i c f x, n_slot N i = ForReply c f x -> x <> Fair -> exists s, nth_error (n_links N) c = Some s /\ (f < List.length (Protocol.p_futs s))%nat /\ Protocol.fget f (Protocol.p_futs s) <> Protocol.FPending;
  T_shut : forall j c, In (By j (AwaitFutures c true)) (apis (n_log N)) -> exists s, nth_error (n_links N) c = Some s /\ stilled s }.
Lemma alive_at N c s : Forall alive (n_links N) -> nth_error (n_links N) c = Some s -> alive s.
Proof. intros F E. rewrite Forall_forall in F. apply F. eapply nth_error_In, E. Qed.
Lemma feed_apis c e N : apis (n_log (feed c e N)) = apis (n_log N).
Proof. unfold feed. destruct (nth_error (n_links N) c); [|reflexivity]. cbn [n_log]. rewrite apis_app, apis_wire. apply app_nil_r. Qed.
Lemma feed_slot c e N i : n_slot (feed c e N) i = n_slot N i.
Proof. unfold feed. destruct (nth_error (n_links N) c); reflexivity. Qed.
Lemma feed_links c e N c' : nth_error (n_links (feed c e N)) c' = if Nat.eqb c' c then option_map (fun s => Protocol.pstep s e) (nth_error (n_links N) c) else nth_error (n_links N) c'.
Proof.
  unfold feed. destruct (nth_error (n_links N) c) as [s|] eqn:E; cbn [n_links option_map].
  - rewrite nth_error_lset. destruct (Nat.eqb_spec c' c) as [->|]; [rewrite E|]; reflexivity.
  - destruct (Nat.eqb_spec c' c) as [->|]; [exact E|reflexivity].
Qed.
Lemma alive_all c e N : P_Proto2.wf_event e -> tells e = true -> Forall alive (n_links N) -> Forall alive (n_links (feed c e N)).
Proof.
  intros W T F. unfold feed. destruct (nth_error (n_links N) c) as [s|] eqn:E; [|exact F]. cbn [n_links].
  pose proof (alive_step s e W T (alive_at N c s F E)) as A. clear - F A. revert c. induction F as [|y l Q F IH]; intros [|c]; cbn [lset]; constructor; auto.
Qed.
Lemma done_stays s e f : alive s -> P_Proto2.wf_event e -> (f < List.length (Protocol.p_futs s))%nat -> Protocol.fget f (Protocol.p_futs s) <> Protocol.FPending ->
  (f < List.length (Protocol.p_futs (Protocol.pstep s e)))%nat /\ Protocol.fget f (Protocol.p_futs (Protocol.pstep s e)) <> Protocol.FPending.
Proof.
  intros (R & _) W L P. destruct (P_Proto3.reach_inv s R) as (I & Wb & _). destruct (P_Proto3.step_futs s e I Wb W) as (Le & St). split; [lia|]. rewrite St; assumption.
Qed.
(** the three parts, one connection at a time *)
Lemma spent_feed c e N : P_Proto2.wf_event e -> Forall alive (n_links N) ->
  forall c' f, (exists s, nth_error (n_links N) c' = Some s /\ (f < List.length (Protocol.p_futs s))%nat /\ Protocol.fget f (Protocol.p_futs s) <> Protocol.FPending) ->
  exists s, nth_error (n_links (feed c e N)) c' = Some s /\ (f < List.length (Protocol.p_futs s))%nat /\ Protocol.fget f (Protocol.p_futs s) <> Protocol.FPending.
Proof.
  intros W F c' f (s & E & L & P). rewrite feed_links. destruct (Nat.eqb_spec c' c) as [->|]; [|eauto]. rewrite E. cbn [option_map]. eexists. split; [reflexivity|].
  apply done_stays; auto. eapply alive_at; eassumption.
Qed.
Lemma shut_feed c e N : tells e = true -> forall c', (exists s, nth_error (n_links N) c' = Some s /\ stilled s) -> exists s, nth_error (n_links (feed c e N)) c' = Some s /\ stilled s.
Proof.
  intros T c' (s & E & S). rewrite feed_links. destruct (Nat.eqb_spec c' c) as [->|]; [|eauto]. rewrite E. cbn [option_map]. eexists. split; [reflexivity|]. apply stilled_step; assumption.
Qed.
Lemma tidy_feed c e N : P_Proto2.wf_event e -> tells e = true -> tidy N -> tidy (feed c e N).
Proof.
  intros W T [A B C]. split.
  - apply alive_all; assumption.
  - intros i c' f x E Nx. rewrite feed_slot in E. apply spent_feed; auto. eapply B; eassumption.
  - intros j c' J. rewrite feed_apis in J. apply shut_feed; auto. eapply C; eassumption.
Qed.
Lemma tidy_fair i x N : tidy N -> (forall c f y, x = ForReply c f y -> y <> Fair -> exists s, nth_error (n_links N) c = Some s /\ (f < List.length (Protocol.p_futs s))%nat /\ Protocol.fget f (Protocol.p_futs s) <> Protocol.FPending) ->
  tidy (put_slot i x N).
Proof.
  intros [A B C] H. split; cbn [put_slot n_links n_slot n_log]; auto. intros j c f y E Ny. destruct (Nat.eqb j i); [eapply H; eassumption|eapply B; eassumption].
Qed.
Lemma tidy_note x N : (forall j c, x <> Api (By j (AwaitFutures c true))) -> tidy N -> tidy (note x N).
Proof.
  intros H [A B C]. split; cbn [note n_links n_slot n_log]; auto. intros j c J. rewrite apis_app in J. apply in_app_or in J. destruct J as [J|J]; [eapply C, J|].
  exfalso. destruct x as [y| | |]; try contradiction J. destruct J as [->|[]]. exact (H _ _ eq_refl).
Qed.
Lemma tidy_hear N x : tidy N -> (forall i c f, x = By i (AwaitFutures c f) -> (c < List.length (n_links N))%nat) -> tidy (hear N x).
Proof.
  intros K H. assert (Nt : (forall j c, x <> By j (AwaitFutures c true)) -> tidy (note (Api x) N)) by (intros NE; apply tidy_note; [intros j c E; injection E; apply NE|exact K]).
  unfold hear. destruct x as [|i []|[]| |]; try (apply Nt; discriminate); try (apply tidy_feed; [exact Logic.I|reflexivity|apply Nt; discriminate]);
    try (apply tidy_fair; [apply Nt; discriminate|discriminate]).
  - apply tidy_fair; [|intros c' f y E Ny; injection E as _ _ <-; congruence]. apply tidy_feed; [exact Logic.I|reflexivity|apply Nt; discriminate].
  - apply tidy_fair; [|discriminate]. destruct force; [|apply tidy_feed; [exact Logic.I|reflexivity|apply Nt; discriminate]].
    destruct (tidy_feed c (Protocol.EvClose true) N Logic.I eq_refl K) as [A B C].
    assert (Lk : n_links (feed c (Protocol.EvClose true) (note (Api (By i (AwaitFutures c true))) N)) = n_links (feed c (Protocol.EvClose true) N)).
    { unfold feed. cbn [note n_links]. destruct (nth_error (n_links N) c); reflexivity. }
    split; rewrite ?Lk.
    + exact A.
    + intros j c' f x E Nx. rewrite feed_slot in E. apply (B j c' f x); [rewrite feed_slot; exact E|exact Nx].
    + intros j c' J. rewrite feed_apis in J. cbn [note n_log] in J. rewrite apis_app in J. apply in_app_or in J. destruct J as [J|[J|[]]].
      * apply (C j c'). rewrite feed_apis. exact J.
      * injection J as -> ->. destruct (nth_error (n_links N) c') as [s|] eqn:E; [|apply nth_error_None in E; specialize (H _ _ _ eq_refl); lia].
        rewrite feed_links, Nat.eqb_refl, E. cbn [option_map]. eexists. split; [reflexivity|]. destruct (alive_at N c' s (T_alive _ K) E) as (R & So & _). apply force_stills; assumption.
Qed.
Lemma hear_size N x : List.length (n_links (hear N x)) = List.length (n_links N).
Proof. unfold hear. destruct x as [|i []|[]| |]; try reflexivity; unfold feed; cbn [note put_slot n_links]; destruct (nth_error _ _); try reflexivity; cbn [put_slot n_links]; apply lset_size. Qed.
Lemma tidy_hears xs : forall N, tidy N -> (forall i c f, In (By i (AwaitFutures c f)) xs -> (c < List.length (n_links N))%nat) -> tidy (fold_left hear xs N) /\ List.length (n_links (fold_left hear xs N)) = List.length (n_links N).
Proof.
  induction xs as [|x xs IH]; intros N K H; [auto|]. cbn [fold_left]. destruct (IH (hear N x)) as (A & B).
  - apply tidy_hear; [exact K|]. intros i c f ->. eapply H. left. reflexivity.
  - intros i c f J. rewrite hear_size. eapply H. right. exact J.
  - split; [exact A|]. rewrite B. apply hear_size.
Qed.
Lemma tidy_grow P ls N : Forall alive ls -> tidy N -> tidy (mkNet P (n_links N ++ ls) (n_slot N) (n_log N)).
Proof.
  intros F [A B C]. split; cbn [n_links n_slot n_log].
  - apply Forall_app. auto.
  - intros i c f x E Nx. destruct (B i c f x E Nx) as (s & Es & R). exists s. split; [|exact R]. rewrite nth_error_app1; [exact Es|]. apply nth_error_Some. congruence.
  - intros j c J. destruct (C j c J) as (s & Es & R). exists s. split; [|exact R]. rewrite nth_error_app1; [exact Es|]. apply nth_error_Some. congruence.
Qed.
Section Run.
  Variables (n : nat) (cid mr : option Z) (rnd : Z) (h : host) (w0 : world).
  Hypothesis W0 : new_gateway cid mr rnd [] h = Ok w0.
  Lemma tidy_move e N : (exists es, n_pool N = Pool.prun n (start w0) es) -> List.length (n_links N) = List.length (w_conns (p_world (n_pool N))) -> tidy N -> tidy (move n e N).
  Proof.
    intros (es & R) Le K. unfold move.
    set (P' := Pool.pstep n (n_pool N) e). assert (R' : exists es', P' = Pool.prun n (start w0) es') by (exists (es ++ [e]); unfold P', Pool.prun; rewrite R, fold_left_app; reflexivity).
    destruct (ran_of0 n cid mr rnd h w0 W0 P' R') as (es' & RN). destruct (Prop_Pool.ran_inv _ _ _ _ _ _ _ RN) as (ID & _).
    apply tidy_hears; [apply tidy_grow; [apply Forall_forall; intros s J; apply repeat_spec in J; subst s; exact alive_new|exact K]|].
    intros i c f J. cbn [n_links]. rewrite app_length, repeat_length.
    assert (J' : In (By i (AwaitFutures c f)) (p_log P')) by (rewrite <- (firstn_skipn (List.length (p_log (n_pool N))) (p_log P')); apply in_or_app; right; exact J).
    pose proof (P_Pool2.I_known _ _ _ _ _ ID i c (AwaitFutures c f) J') as Lt. assert (Nm : P_Pool2.names c (AwaitFutures c f)) by (right; left; eauto). specialize (Lt Nm). fold P'. lia.
  Qed.
  Lemma slot_range N i c f x : whole n w0 N -> n_slot N i = ForReply c f x -> exists s, nth_error (n_links N) c = Some s /\ (f < List.length (Protocol.p_futs s))%nat.
  Proof.
    intros (G & S) E. destruct (proj1 (S i) _ _ _ E) as (_ & (ga & X & p & id & gb & L & _)). assert (Wd := G_wired _ _ _ _ G). destruct (nth_error (n_links N) c) as [s|] eqn:El.
    2:{ exfalso. apply nth_error_None in El. destruct (proj2 Wd c El) as (M1 & _). rewrite L, wires_app in M1. apply app_eq_nil in M1. destruct M1 as (_ & M1). cbn in M1. rewrite Nat.eqb_refl in M1. discriminate M1. }
    exists s. split; [reflexivity|]. destruct (L_linked _ _ _ (proj1 Wd _ _ El)) as (pes & H & Es & _ & Pl). assert (Rs : P_Proto3.reachable s) by (exists true, pes; auto).
    destruct (P_Proto3.reach_inv s Rs) as ([Rq _ _ _ _ _ _ _] & _). assert (J : In (f, id) (P_Proto2.requests_of (Protocol.p_log s))).
    { rewrite Pl, L, wires_app. unfold P_Proto2.requests_of. rewrite flat_map_app. apply in_or_app. right. cbn. rewrite Nat.eqb_refl. left. reflexivity. }
    rewrite Rq in J. apply in_map_iff in J. destruct J as (k & J & K). injection J as -> _. apply in_seq in K. lia.
  Qed.
  Lemma cancelled_now N i c f x : whole n w0 N -> n_slot N i = ForReply c f x ->
    exists s, nth_error (n_links (feed c (Protocol.EvCancel f) N)) c = Some s /\ (f < List.length (Protocol.p_futs s))%nat /\ Protocol.fget f (Protocol.p_futs s) <> Protocol.FPending.
  Proof.
    intros Wh E. destruct (slot_range N i c f x Wh E) as (s & El & Lt). rewrite feed_links, Nat.eqb_refl, El. cbn [option_map]. eexists. split; [reflexivity|].
    cbn [Protocol.pstep Protocol.up_futs Protocol.p_futs]. rewrite P_Proto2.fcancel_length. split; [exact Lt|]. rewrite P_Proto2.fget_fcancel, Nat.eqb_refl.
    destruct (Protocol.fget f (Protocol.p_futs s)); discriminate.
  Qed.
  Lemma tidy_step N e : wf_nevent e -> whole n w0 N -> tidy N -> tidy (nstep n N e).
  Proof.
    intros We Wh K.
    assert (Mv : forall x N0, whole n w0 N0 -> tidy N0 -> tidy (move n x N0)) by (intros x N0 (G & _) K0; apply tidy_move; [exact (G_run _ _ _ _ G)|exact (G_len _ _ _ _ G)|exact K0]).
    assert (Cn : forall i c f x y, n_slot N i = ForReply c f x -> tidy (put_slot i (ForReply c f y) (feed c (Protocol.EvCancel f) N))).
    { intros i c f x y E. apply tidy_fair; [apply tidy_feed; [exact Logic.I|reflexivity|exact K]|]. intros c' f' y' E' _. injection E' as <- <- _. eapply cancelled_now; eassumption. }
    destruct e; cbn [nstep]; auto.
    - destruct (awaits i N) as [[]|]; auto.
    - destruct (nth_error (n_links N) c) as [s|] eqn:E; [|exact K]. destruct (takes_bytes s) eqn:T; [|exact K].
      assert (Wh1 : whole n w0 (feed c (Protocol.EvData b) (note (Came c b) N))) by (eapply data_whole; eassumption).
      assert (K1 : tidy (feed c (Protocol.EvData b) (note (Came c b) N))) by (apply tidy_feed; [exact We|reflexivity|apply tidy_note; [discriminate|exact K]]).
      revert Wh1 K1. generalize (feed c (Protocol.EvData b) (note (Came c b) N)) as N0. match goal with |- context [fold_left _ ?l _] => generalize l as os end.
      induction os as [|o os IH]; intros N0 Wh1 K1; [exact K1|]. cbn [fold_left]. destruct o; auto. apply IH; [exact (pushes_whole n cid mr rnd h w0 W0 c [Protocol.OutDropped m] N0 Wh1)|]. cbn [shove]. apply Mv; [eapply tell_whole; eassumption|]. unfold tell. destruct (handler_of _ _ _) as [[]|]; try exact K1. apply tidy_note; [discriminate|exact K1].
    - apply tidy_feed; [exact Logic.I|reflexivity|exact K].
    - destruct (n_slot N i) as [|c f []|] eqn:E; auto. eapply Cn, E.
    - destruct (n_slot N i) as [|c f x|c j] eqn:E.
      + destruct (awaits i N) as [[]|], (queues i N); auto.
      + eapply Cn, E.
      + apply tidy_feed; [exact Logic.I|reflexivity|exact K].
    - destruct (n_slot N i) as [|c f x|c j]; destruct (awaits i N) as [[]|]; auto.
      + destruct (Protocol.p_closed _); auto.
      + destruct (Protocol.fget _ _), x; auto.
      + destruct (nth j _ _); auto. destruct (Protocol.gather_done _ _); auto. apply Mv; [apply feed_whole; [exact Wh|exact Logic.I]|apply tidy_feed; [exact Logic.I|reflexivity|exact K]].
  Qed.
  Lemma tidy_run es : Forall wf_nevent es -> tidy (nrun n (nstart w0) es).
  Proof.
    induction es as [|e es IH] using rev_ind; intros F.
    - split; [constructor|discriminate|intros j c []].
    - apply Forall_app in F. destruct F as (F & Fe). inversion Fe; subst. unfold nrun. rewrite fold_left_app. apply tidy_step; [assumption|eapply run_whole; eassumption|apply IH, F].
  Qed.
  (** the theorems *)
  Lemma shut_resumes N j c i ms clk : whole n w0 N -> tidy N -> In (By j (AwaitFutures c true)) (apis (n_log N)) -> awaits i N = Some (AwaitReply c ms) ->
    Z.of_nat (List.length (sent c (n_log N))) <= 32767 ->
    exists r t, own i (apis (n_log (nstep n N (NResume i clk)))) = own i (apis (n_log N)) ++ Got r :: t.
  Proof.
    intros Wh K J A Ln. eapply just_answers, answers; try eassumption. intros s f x E _ Lk Lf P. destruct (T_shut _ K _ _ J) as (s' & E' & _ & St). rewrite E in E'. injection E' as <-.
    apply (St f P). intros g Lg. rewrite (L_futs _ _ _ Lk) in *. clear - Lg Ln. rewrite !Z.mod_small; lia.
  Qed.
  Lemma timer_resumes N c i ms clk : whole n w0 N -> tidy N -> awaits i N = Some (AwaitReply c ms) ->
    exists r t, own i (apis (n_log (nrun n N [NTimeout i; NResume i clk]))) = own i (apis (n_log N)) ++ Got r :: t /\
      (r_kind r = KTimeout \/ (exists X b, r_kind r = KTimeoutReply X b) \/ (r_kind r = KCancelTask /\ exists f, n_slot N i = ForReply c f Cancelled)).
  Proof.
    intros Wh K A. cbn [nrun fold_left]. set (N' := nstep n N (NTimeout i)). assert (Wh' : whole n w0 N') by (eapply step_whole; [eassumption|exact Logic.I|exact Wh]).
    assert (K' : tidy N') by (apply tidy_step; [exact Logic.I|assumption..]).
    assert (E : n_pool N' = n_pool N /\ apis (n_log N') = apis (n_log N)).
    { unfold N'. cbn [nstep]. destruct (n_slot N i) as [|c' f []|]; auto. cbn [put_slot n_pool n_log]. rewrite feed_apis. split; [|reflexivity]. unfold feed. destruct (nth_error _ _); reflexivity. }
    destruct E as (Ep & Ea). rewrite <- Ea.
    assert (NF : forall c f, n_slot N' i <> ForReply c f Fair).
    { intros c0 f Sl. unfold N' in Sl. cbn [nstep] in Sl. destruct (n_slot N i) as [|c' f' []|] eqn:E; try congruence. cbn [put_slot n_slot] in Sl. rewrite Nat.eqb_refl in Sl. discriminate Sl. }
    assert (Z : exists f x r t, n_slot N' i = ForReply c f x /\ ended_by x (r_kind r) /\ own i (apis (n_log (nstep n N' (NResume i clk)))) = own i (apis (n_log N')) ++ Got r :: t).
    2:{ destruct Z as (f & x & r & t & Sl & EB & EO). exists r, t. split; [exact EO|]. destruct x; [destruct (NF _ _ Sl)|destruct EB as [->|(X & b & ->)]; eauto|].
        right. right. split; [exact EB|]. exists f. unfold N' in Sl. cbn [nstep] in Sl. destruct (n_slot N i) as [|c' f' []|] eqn:E; try congruence.
        cbn [put_slot n_slot] in Sl. rewrite Nat.eqb_refl in Sl. discriminate Sl. }
    eapply answers; try eassumption; [unfold awaits; rewrite Ep; exact A|].
    intros s f x El Sl _ Lf. destruct x.
    - destruct (NF _ _ Sl).
    - destruct (T_spent _ K' _ _ _ _ Sl ltac:(discriminate)) as (s' & E' & _ & P). congruence.
    - destruct (T_spent _ K' _ _ _ _ Sl ltac:(discriminate)) as (s' & E' & _ & P). congruence.
  Qed.
End Run.

(** a task that is marked as cancelled was cancelled *)
Lemma hear_cancel i : forall x N c f, n_slot (hear N x) i = ForReply c f Cancelled -> n_slot N i = ForReply c f Cancelled.
Proof.
  intros x N c f. unfold hear. destruct x as [|j []|[]| |]; try (intros E; exact E); cbn [put_slot n_slot]; rewrite ?feed_slot; cbn [note n_slot]; try (intros E; exact E);
    destruct (Nat.eqb i j); try (intros E; exact E); intros E; discriminate E.
Qed.
Lemma move_cancel n e i N c f : n_slot (move n e N) i = ForReply c f Cancelled -> n_slot N i = ForReply c f Cancelled.
Proof.
  unfold move. match goal with |- n_slot (fold_left hear ?l ?x) _ = _ -> _ => generalize l as xs; assert (K : forall c f, n_slot x i = ForReply c f Cancelled -> n_slot N i = ForReply c f Cancelled) by auto; revert K; generalize x as N0 end.
  intros N0 K xs. revert N0 K. induction xs as [|x xs IH]; intros N0 K E; [auto|]. cbn [fold_left] in E. eapply IH; [|exact E]. intros c0 f0 E0. apply K. eapply hear_cancel, E0.
Qed.
Lemma step_cancel n i N e c f : n_slot (nstep n N e) i = ForReply c f Cancelled -> e = NCancel i \/ exists c' f', n_slot N i = ForReply c' f' Cancelled.
Proof.
  intros E. destruct e as [cl|j|j k clk|c' b|c'|c'|j|j|j clk|]; cbn [nstep] in E.
  - right. apply move_cancel in E. eauto.
  - right. apply move_cancel in E. eauto.
  - right. destruct (awaits j N) as [[]|]; try (apply move_cancel in E); eauto.
  - right. destruct (nth_error (n_links N) c') as [s|]; [|eauto]. destruct (takes_bytes s); [|eauto].
    match type of E with n_slot (fold_left ?F ?l ?x) _ = _ => revert E; generalize l as xs; assert (K : forall c f, n_slot x i = ForReply c f Cancelled -> exists c' f', n_slot N i = ForReply c' f' Cancelled) by (intros ? ?; rewrite feed_slot; eauto); revert K; generalize x as N0 end.
    intros N0 K xs. revert N0 K. induction xs as [|x xs IH]; intros N0 K E; [eauto|]. cbn [fold_left] in E. eapply IH; [|exact E]. intros c0 f0 E0. destruct x; eauto. cbn [shove] in E0. apply move_cancel in E0. unfold tell in E0. destruct (handler_of _ _ _) as [[]|]; eauto.
  - right. apply move_cancel in E. eauto.
  - right. rewrite feed_slot in E. eauto.
  - right. destruct (n_slot N j) as [|c0 f0 []|] eqn:Sj; eauto. cbn [put_slot n_slot] in E. rewrite feed_slot in E. destruct (Nat.eqb i j); [discriminate E|eauto].
  - destruct (Nat.eqb_spec i j) as [->|NE]; [left; reflexivity|right].
    destruct (n_slot N j) as [|c0 f0 x|c0 j0].
    + destruct (awaits j N) as [[]|], (queues j N); eauto; apply move_cancel in E; eauto.
    + cbn [put_slot n_slot] in E. rewrite feed_slot in E. apply Nat.eqb_neq in NE. rewrite NE in E. eauto.
    + rewrite feed_slot in E. eauto.
  - right. destruct (n_slot N j) as [|c0 f0 x|c0 j0]; destruct (awaits j N) as [[]|]; eauto.
    + destruct (Protocol.p_closed _); eauto; apply move_cancel in E; eauto.
    + destruct (Protocol.fget _ _); eauto; destruct x; apply move_cancel in E; eauto.
    + destruct (nth _ _ _); eauto. destruct (Protocol.gather_done _ _); eauto. apply move_cancel in E. rewrite feed_slot in E. eauto.
  - right. apply move_cancel in E. eauto.
Qed.
Lemma run_cancel n i c f w es : n_slot (nrun n (nstart w) es) i = ForReply c f Cancelled -> In (NCancel i) es.
Proof.
  revert c f. induction es as [|e es IH] using rev_ind; intros c f E; [discriminate E|]. unfold nrun in E. rewrite fold_left_app in E. cbn [fold_left] in E.
  apply in_or_app. destruct (step_cancel _ _ _ _ _ _ E) as [->|(c' & f' & E')]; [right; left; reflexivity|left; eapply IH, E'].
Qed.
