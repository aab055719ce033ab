(** Theorems about calls of one gateway that overlap (C99-).

    Tasks.v has the calls as tasks, Pool.v runs any number of them in any order: [prun n (start w)
    es] is what a schedule [es] makes of the gateway [w]; [p_log] says what happened, in order,
    and which task did it.  Vocabulary: SpecPool.v. *)
From Verif Require Import Py F64 Struct Utf Utility Const Spec Enum Decode Messages Calls World Request Gateway Traces Paths Api Tasks Pool SpecPool
  P_Base P_Tasks P_Pool P_Pool2 P_Pool3 P_Pool4 P_Lock P_Moves P_Disc Hostile Prop_Request Prop_Gateway Prop_Connect.

From Verif Require P_Tune.

(** a new gateway and what a schedule makes of it *)
Definition ran (n : nat) (id mr : option Z) (rnd : Z) (h : host) (es : list event) : option Pool.pool :=
  match new_gateway id mr rnd [] h with Ok w => Some (prun n (start w) es) | Err _ => None end.
Lemma ran_inv n id mr rnd h es P : ran n id mr rnd h es = Some P ->
  pinv (InvD h (over id rnd) (shows (h_float h) [])) (P_Pool2.ok h (over id rnd)) (fun _ _ => True) (fun _ _ _ => True) P.
Proof.
  unfold ran, new_gateway. destruct (_ && _); [|discriminate]. intros E. injection E as <-.
  apply pool_inv, fresh_inv; reflexivity.
Qed.
Lemma ran_ok n id mr rnd h es P g1 i e g2 : ran n id mr rnd h es = Some P -> p_log P = g1 ++ By i e :: g2 -> (forall r, e <> Got r) -> P_Pool2.ok h (over id rnd) i g1 e.
Proof. intros R E N. destruct (ran_inv _ _ _ _ _ _ _ R) as (_ & L & _). eapply L; eassumption. Qed.

(** The tasks are those of the other theorems: a task that runs alone, answered by the script of
    the world, does exactly what [perform] does. *)
Theorem task_is_call n c w : alone (tperform n c) w = perform n c w.
Proof. apply alone_perform. Qed.
Print Assumptions task_is_call.

Lemma ran_inv2 X n id mr rnd h es P : ~ connecting_code X -> ran n id mr rnd h es = Some P -> pinv (Inv2) (ok2 X (fun _ => False) 0) (Rel2 (fun _ => False) 0) (fin2 X) P.
Proof.
  intros NC R. pose proof R as R0. unfold ran in R. destruct (new_gateway id mr rnd [] h) as [w|] eqn:N; [|discriminate R]. injection R as <-.
  apply pool_inv2; [exact NC| |].
  - intros es'. split; [|intros j []]. intros j c f J. assert (R1 : ran n id mr rnd h es' = Some (prun n (start w) es')) by (unfold ran; rewrite N; reflexivity).
    destruct (ran_inv _ _ _ _ _ _ _ R1) as (I & _). exact (I_closing _ _ _ _ _ I _ _ _ J).
  - unfold new_gateway in N. destruct (_ && _) eqn:K; [|discriminate N]. injection N as <-. split.
    + cbn. apply andb_true_iff in K. lia.
    + intros c. unfold connected, get_conn. cbn. destruct c; discriminate.
Qed.

(** C99. *)
Theorem C99_counted n id mr rnd h es P g1 i c X p g2 call d : ran n id mr rnd h es = Some P -> p_log P = g1 ++ By i (Send c X p) :: g2 ->
  begun i g1 = [(call, d)] -> request_code call = Some X -> ~ connecting_code X ->
  (List.length (sends_of X (own i g1)) < 2 * (5 + 1))%nat /\
  (forall r b, answered X r (own i g1) -> answer_of r = Some (X + 1, b) -> ~ takes call b).
Proof.
  intros R E B RC NC. destruct (ran_inv2 X _ _ _ _ _ _ _ NC R) as (_ & L & _).
  destruct (L _ _ _ _ E ltac:(discriminate) eq_refl _ _ B RC) as (L1 & _ & L2). split; [exact L1|exact L2].
Qed.
Print Assumptions C99_counted.
(** exactly: at most two rounds of 1 + gateway.max_retries messages, max_retries being what it was
    when the call was made *)
Theorem C99_exact n id mr rnd h e1 e2 P1 P call X : ran n id mr rnd h e1 = Some P1 -> ran n id mr rnd h (e1 ++ Pool.Call call :: e2) = Some P ->
  request_code call = Some X -> ~ connecting_code X ->
  (List.length (sends_of X (own (List.length (p_tasks P1)) (p_log P))) <= 2 * (1 + Z.to_nat (w_retries (p_world P1))))%nat.
Proof.
  intros R1 R RC NC. set (i := List.length (p_tasks P1)). set (lim := Z.to_nat (w_retries (p_world P1))).
  pose proof (ran_inv2 X _ _ _ _ _ _ _ NC R1) as (I1 & L1 & K1 & O1 & U1). destruct (O1 i) as (OI & BI); [unfold i; lia|].
  assert (RA : forall es, ran n id mr rnd h (e1 ++ es) = Some (prun n P1 es)).
  { intros es. unfold ran in *. destruct (new_gateway id mr rnd [] h) as [w|]; [|discriminate R1]. assert (E : prun n (start w) e1 = P1) by congruence. rewrite <- E. f_equal. unfold prun. apply fold_left_app. }
  assert (CL : forall es, let Q := prun n P1 es in forall j c f, In (By j (AwaitFutures c f)) (p_log Q) -> c_closing (get_conn c (p_world Q)) = true).
  { intros es Q j c f J. destruct (ran_inv _ _ _ _ _ _ _ (RA es)) as (I & _). exact (I_closing _ _ _ _ _ I _ _ _ J). }
  assert (V1 : pinv Inv2 (ok2 X (eq i) lim) (Rel2 (eq i) lim) (fin2 X) P1).
  { split; [exact I1|]. split; [|split; [|split; [exact O1|exact U1]]].
    - intros g j e g' E NG. pose proof (L1 _ _ _ _ E NG) as A. destruct e as [c0 code p| | | | | | | | | |]; try exact A. cbn [ok2] in *. intros EX c' d' B' RC'. destruct (A EX _ _ B' RC') as (A1 & _ & A3). split; [exact A1|]. split; [|exact A3].
      intros <-. exfalso. assert (J : In (Send c0 code p) (own i (p_log P1))); [|rewrite OI in J; destruct J].
      rewrite E, own_app. apply in_or_app. right. cbn [own flat_map]. rewrite Nat.eqb_refl. left. reflexivity.
    - intros j m N. assert (j <> i) as NJ. { assert (Y : nth_error (p_tasks P1) j <> None) by congruence. apply nth_error_Some in Y. unfold i. lia. }
      eapply parked_weaken; [| |exact (K1 _ _ N)].
      + intros g w (A & _). split; [exact A|intros ? []].
      + intros g e A. destruct e; try exact A. cbn [ok2] in *. intros EX c' d' B' RC'. destruct (A EX _ _ B' RC') as (A1 & _ & A3). split; [exact A1|]. split; [congruence|exact A3]. }
  assert (RB : ran n id mr rnd h (e1 ++ Pool.Call call :: e2) = Some (prun n P1 (Pool.Call call :: e2))) by apply RA. rewrite R in RB. assert (EP : P = prun n P1 (Pool.Call call :: e2)) by congruence. subst P. clear R RB.
  set (P2 := pstep n P1 (Pool.Call call)).
  assert (V2 : pinv Inv2 (ok2 X (eq i) lim) (Rel2 (eq i) lim) (fin2 X) P2).
  { apply step_inv2; [exact NC| |exact V1]. split; [exact (CL [])|]. intros j <- _. reflexivity. }
  assert (L2 : exists d x, p_log P2 = (p_log P1 ++ [Started i call d]) ++ x).
  { unfold P2. cbn [pstep]. destruct (advance _ _) as [[t w'] m]. cbn [p_log]. exists (w_data (p_world P1)), (map (By i) t). rewrite <- app_assoc. reflexivity. }
  destruct L2 as (d & x2 & L2).
  assert (G : forall es, exists x, p_log (prun n P2 es) = (p_log P1 ++ [Started i call d]) ++ x).
  { induction es as [|e es (x & IH)] using rev_ind; [exists x2; exact L2|]. unfold prun in *. rewrite fold_left_app. cbn [fold_left].
    destruct (P_Tune.log_grows n (fold_left (pstep n) es P2) e) as (y & ->). exists (x ++ y). rewrite IH, <- app_assoc. reflexivity. }
  assert (BG : forall x, begun i ((p_log P1 ++ [Started i call d]) ++ x) = (call, d) :: begun i x).
  { intros x. rewrite !begun_app, BI. cbn [begun flat_map]. rewrite Nat.eqb_refl. reflexivity. }
  assert (V : forall es, pinv Inv2 (ok2 X (eq i) lim) (Rel2 (eq i) lim) (fin2 X) (prun n P2 es)).
  { induction es as [|e es IH] using rev_ind; [exact V2|]. unfold prun. rewrite fold_left_app. cbn [fold_left]. apply step_inv2; [exact NC| |exact IH].
    split; [exact (CL (Pool.Call call :: es))|]. intros j <- B. destruct (G es) as (x & E). change (fold_left (pstep n) es P2) with (prun n P2 es) in B. rewrite E, BG in B. discriminate B. }
  change (prun n P1 (Pool.Call call :: e2)) with (prun n P2 e2). destruct (V e2) as (_ & L & _ & _ & U). destruct (G e2) as (x & E). specialize (U i). rewrite E in *. clear - L U BG OI RC.
  assert (O0 : own i (p_log P1 ++ [Started i call d]) = []) by (rewrite own_app, OI; reflexivity).
  change (2 * (1 + lim))%nat with (2 * S lim)%nat. revert L U. induction x as [|y x IH] using rev_ind; intros L U.
  - rewrite app_nil_r, O0. cbn. lia.
  - rewrite app_assoc in *. assert (L0 : log_ok (ok2 X (eq i) lim) ((p_log P1 ++ [Started i call d]) ++ x)).
    { intros g1 j e g2 E NG. apply (L g1 j e (g2 ++ [y])); [rewrite E, <- app_assoc; reflexivity|exact NG]. }
    rewrite begun_app, app_length in U. specialize (IH L0 ltac:(lia)). rewrite own_app, sends_of_app, app_length.
    destruct y as [j c1 d1|j e|e|c1 k b|c1 k b cbs]; try (cbn [own flat_map app sends_of List.length]; lia).
    cbn [own flat_map]. destruct (Nat.eqb_spec j i) as [->|N]; [|cbn; lia]. destruct e as [c X' p| | | | | | | | | |]; try (cbn; lia).
    cbn [app sends_of flat_map]. destruct (Z.eqb_spec X' X) as [->|N]; [|cbn; lia]. cbn [app List.length].
    assert (B1 : begun i ((p_log P1 ++ [Started i call d]) ++ x) = [(call, d)]).
    { rewrite BG. rewrite BG in U. destruct (begun i x); [reflexivity|cbn [List.length] in U; lia]. }
    destruct (L _ i (Send c X p) [] eq_refl ltac:(discriminate) eq_refl _ _ B1 RC) as (_ & A & _). specialize (A eq_refl). unfold spent in A. lia.
Qed.
Print Assumptions C99_exact.

(** C100. *)
Theorem C100_messages n id mr rnd h es P g1 i c X p g2 : ran n id mr rnd h es = Some P -> p_log P = g1 ++ By i (Send c X p) :: g2 ->
  dialogue (over id rnd) X p \/ exists call d, begun i g1 = [(call, d)] /\ own_message (h_tz h) call d X p.
Proof.
  intros R E. destruct (ran_ok _ _ _ _ _ _ _ _ _ _ _ R E) as ([D|(call & d & J & D)] & _); [discriminate|left; exact D|right].
  exists call, d. split; [|exact D]. destruct (ran_inv _ _ _ _ _ _ _ R) as (_ & _ & _ & _ & L). specialize (L i). rewrite E, begun_app, app_length in L.
  assert (K : In (call, d) (begun i g1)) by (unfold begun; apply in_flat_map; eexists; split; [exact J|]; cbn; rewrite Nat.eqb_refl; left; reflexivity).
  destruct (begun i g1) as [|x [|y l]]; [destruct K| |cbn [List.length] in L; lia]. destruct K as [->|[]]. reflexivity.
Qed.
Print Assumptions C100_messages.

(** C105. *)
Theorem C105_acknowledged n id mr rnd h es P i call d : ran n id mr rnd h es = Some P ->
  nth_error (p_tasks P) i = Some (Done (Val tt)) -> begun i (p_log P) = [(call, d)] -> is_command call ->
  exists t1 c X p ms r t2, own i (p_log P) = t1 ++ Send c X p :: AwaitReply c ms :: Got r :: t2 /\
    own_message (h_tz h) call d X p /\ answer_of r = Some (X + 1, []) /\ sends_of X t2 = [].
Proof.
  intros R D B IC.
  assert (RX : exists X, request_code call = Some X /\ ~ connecting_code X) by (destruct call; try destruct IC; eexists; (split; [reflexivity|]); intros K; vm_compute in K; intuition discriminate).
  destruct RX as (X & RC & NC). destruct (ran_inv2 X _ _ _ _ _ _ _ NC R) as (_ & _ & PK & _). specialize (PK _ _ D). cbn [parked] in PK.
  destruct (PK call d B RC IC eq_refl) as (r & (t1 & c & p & ms & t2 & E) & A). exists t1, c, X, p, ms, r, t2. split; [exact E|].
  assert (J : forall c0 p0 tt1 tt2, own i (p_log P) = tt1 ++ Send c0 X p0 :: tt2 -> exists g1 g2, p_log P = g1 ++ By i (Send c0 X p0) :: g2 /\ own i g1 = tt1).
  { intros c0 p0 tt1 tt2. clear. generalize (p_log P) as g. intros g. revert tt1. induction g as [|x g IH]; intros tt1 E; [destruct tt1; discriminate E|].
    destruct x as [j c1 d1|j e|e|c1 k b|c1 k b cbs]; cbn [own flat_map app] in E; try (
      destruct (IH _ E) as (g1 & g2 & -> & O); match goal with |- exists _ _, ?x :: _ = _ /\ _ => exists (x :: g1), g2 end; split; [reflexivity|exact O]).
    destruct (Nat.eqb_spec j i) as [->|N]; cbn [app] in E.
    - destruct tt1 as [|y tt1]; cbn [app] in E; injection E as -> E.
      + exists [], g. auto.
      + destruct (IH _ E) as (g1 & g2 & -> & O). exists (By i y :: g1), g2. split; [reflexivity|]. cbn [own flat_map]. rewrite Nat.eqb_refl. cbn [app]. f_equal. exact O.
    - destruct (IH _ E) as (g1 & g2 & -> & O). exists (By j e :: g1), g2. split; [reflexivity|]. cbn [own flat_map]. replace (Nat.eqb j i) with false by (symmetry; apply Nat.eqb_neq; exact N). exact O. }
  assert (BG : forall g1 x g2, p_log P = g1 ++ x :: g2 -> begun i g1 = [] \/ begun i g1 = [(call, d)]).
  { intros g1 x g2 G. rewrite G, begun_app in B. destruct (begun i g1) as [|y l]; [auto|]. right. cbn [app] in B. injection B as -> B. apply app_eq_nil in B. destruct B as (-> & _). reflexivity. }
  split; [|split; [exact A|]].
  - destruct (J _ _ _ _ E) as (g1 & g2 & G & _). destruct (C100_messages _ _ _ _ _ _ _ _ _ _ _ _ _ R G) as [DI|(call' & d' & B' & O)].
    + exfalso. apply NC. clear - DI. unfold dialogue in DI. unfold connecting_code. cbn [In]. intuition.
    + destruct (BG _ _ _ G) as [B2|B2]; rewrite B2 in B'; [discriminate B'|]. injection B' as <- <-. exact O.
  - destruct (sends_of X t2) as [|q l] eqn:S; [reflexivity|exfalso].
    assert (K : exists c0 p0 u1 u2, t2 = u1 ++ Send c0 X p0 :: u2).
    { clear - S. induction t2 as [|y t2 IH]; [discriminate S|]. destruct y as [c0 X0 p0| | | | | | | | | |]; cbn [sends_of flat_map app] in S; try (destruct (IH S) as (c1 & p1 & u1 & u2 & ->); eexists _, _, (_ :: u1), u2; reflexivity).
      destruct (Z.eqb_spec X0 X) as [->|N]; [exists c0, p0, [], t2; reflexivity|]. destruct (IH S) as (c1 & p1 & u1 & u2 & ->). exists c1, p1, (Send c0 X0 p0 :: u1), u2. reflexivity. }
    destruct K as (c0 & p0 & u1 & u2 & ->).
    destruct (J c0 p0 (t1 ++ Send c X p :: AwaitReply c ms :: Got r :: u1) u2) as (g1 & g2 & G & O); [rewrite E, <- app_assoc; reflexivity|].
    assert (B2 : begun i g1 = [(call, d)]).
    { destruct (C100_messages _ _ _ _ _ _ _ _ _ _ _ _ _ R G) as [DI|(call' & d' & B' & _)].
      - exfalso. apply NC. clear - DI. unfold dialogue in DI. unfold connecting_code. cbn [In]. intuition.
      - destruct (BG _ _ _ G) as [B2|B2]; [congruence|exact B2]. }
    destruct (C99_counted _ _ _ _ _ _ _ _ _ _ _ _ _ _ _ R G B2 RC NC) as (_ & U). apply (U r []); [rewrite O; exists t1, c, p, ms, u1; reflexivity|exact A|].
    destruct call; try destruct IC; reflexivity.
Qed.
Print Assumptions C105_acknowledged.

(** C101. *)
Theorem C101_login_first n id mr rnd h es P g1 i c X p g2 : ran n id mr rnd h es = Some P -> p_log P = g1 ++ By i (Send c X p) :: g2 ->
  X <> 14 -> X <> 27 -> accepted c g1.
Proof. intros R E N1 N2. destruct (ran_ok _ _ _ _ _ _ _ _ _ _ _ R E) as (_ & _ & [A|([A|A] & _)]); [discriminate|exact A|contradiction..]. Qed.
Print Assumptions C101_login_first.
(** the only bytes ever written outside a message are the greeting CONNECTSERVERHOST, CR LF CR LF,
    and only on a connection nobody has closed or lost *)
Theorem C101_greeting n id mr rnd h es P g1 i c b g2 : ran n id mr rnd h es = Some P -> p_log P = g1 ++ By i (Raw c b) :: g2 ->
  b = [67; 79; 78; 78; 69; 67; 84; 83; 69; 82; 86; 69; 82; 72; 79; 83; 84; 13; 10; 13; 10] /\
  (forall j, ~ In (By j (CloseTransport c)) g1) /\ ~ In (Env (Lost c)) g1.
Proof.
  intros R E. destruct (ran_ok _ _ _ _ _ _ _ _ _ _ _ R E) as ((_ & U2 & U3) & -> & _); [discriminate|].
  split; [reflexivity|]. split; [exact U2|]. intros J. apply (U3 _ J). left. reflexivity.
Qed.
Print Assumptions C101_greeting.
(** the greeting is the first thing written on its connection, once, and nothing is sent without it *)
Theorem C101_greeting_first n id mr rnd h es P g1 i c b g2 : ran n id mr rnd h es = Some P -> p_log P = g1 ++ By i (Raw c b) :: g2 ->
  (forall j b', ~ In (By j (Raw c b')) g1) /\ (forall j X p, ~ In (By j (Send c X p)) g1).
Proof.
  intros R E. destruct (ran_ok _ _ _ _ _ _ _ _ _ _ _ R E) as (_ & _ & N); [discriminate|].
  split; [intros j b' J; apply (N _ _ J); left; right; eauto|intros j X p J; apply (N _ _ J); left; left; eauto].
Qed.
Print Assumptions C101_greeting_first.
Lemma own_at i e : forall g t1 t2, own i g = t1 ++ e :: t2 -> exists g1 g2, g = g1 ++ By i e :: g2.
Proof.
  induction g as [|x g IH]; intros t1 t2 E; [destruct t1; discriminate E|].
  assert (S : own i g = t1 ++ e :: t2 \/ x = By i e \/ exists t1', own i g = t1' ++ e :: t2).
  { change (own i (x :: g)) with (own i ([x] ++ g)) in E. rewrite own_app in E. destruct x as [|j y| | |]; try (left; exact E). cbn in E. destruct (Nat.eqb_spec j i) as [->|]; [|left; exact E].
    destruct t1 as [|z t1]; injection E as -> E; [right; left; reflexivity|right; right; eauto]. }
  destruct S as [S|[->|(t1' & S)]]; [destruct (IH _ _ S) as (g1 & g2 & ->)|exists [], g; reflexivity|destruct (IH _ _ S) as (g1 & g2 & ->)]; exists (x :: g1), g2; reflexivity.
Qed.
Theorem C101_greeted n id mr rnd h es P : ran n id mr rnd h es = Some P -> forall g1 i c X p g2, p_log P = g1 ++ By i (Send c X p) :: g2 ->
  exists j, In (By j (Raw c [67; 79; 78; 78; 69; 67; 84; 83; 69; 82; 86; 69; 82; 72; 79; 83; 84; 13; 10; 13; 10])) g1.
Proof.
  intros R g1. remember (List.length g1) as k eqn:K. revert g1 K. induction k as [k IH] using lt_wf_ind. intros g1 -> i c X p g2 E.
  destruct (ran_ok _ _ _ _ _ _ _ _ _ _ _ R E) as (_ & _ & [(j & t1 & q & ms & r & b & t2 & O & _)|(_ & G)]); [discriminate| |exists i; exact G].
  destruct (own_at _ _ _ _ _ O) as (ga & gb & ->). rewrite <- app_assoc in E. cbn [app] in E.
  destruct (IH (List.length ga)) with (g1 := ga) (i := j) (c := c) (X := 27) (p := q) (g2 := gb ++ By i (Send c X p) :: g2) as (j' & J); [rewrite app_length; cbn; lia|reflexivity|exact E|].
  exists j'. apply in_or_app. left. exact J.
Qed.
Print Assumptions C101_greeted.

(** C102. *)
Theorem C102_quiet n id mr rnd h es P g1 i c X p g2 : ran n id mr rnd h es = Some P -> p_log P = g1 ++ By i (Send c X p) :: g2 ->
  (forall j force, ~ In (By j (AwaitFutures c force)) g1) /\ (forall j, ~ In (By j (CloseTransport c)) g1) /\
  ~ In (Env (Lost c)) g1 /\ (forall j, ~ In (By j (Lost c)) g1).
Proof.
  intros R E. destruct (ran_ok _ _ _ _ _ _ _ _ _ _ _ R E) as (_ & (U1 & U2 & U3) & _); [discriminate|].
  split; [exact U1|]. split; [exact U2|]. split; [intros J; apply (U3 _ J); left; reflexivity|intros j J; apply (U3 _ J); right; eauto].
Qed.
Print Assumptions C102_quiet.

Lemma pushed_at n w g1 c code b g2 : forall es, p_log (prun n (start w) es) = g1 ++ Pushed c code b :: g2 ->
  exists es1, p_log (prun n (start w) es1) = g1 /\ handler_of c code (p_world (prun n (start w) es1)) <> None.
Proof.
  intros es. revert g2. induction es as [|e es IH] using rev_ind; intros g2 E; [destruct g1; discriminate E|].
  unfold prun in E. rewrite fold_left_app in E. cbn [fold_left] in E. fold (prun n (start w) es) in E. set (P := prun n (start w) es) in *.
  assert (K : forall x, p_log P ++ x = g1 ++ Pushed c code b :: g2 -> ~ In (Pushed c code b) x -> exists es1, p_log (prun n (start w) es1) = g1 /\ handler_of c code (p_world (prun n (start w) es1)) <> None).
  { intros x EX NI. destruct (split_log _ _ _ _ _ EX) as [(g3 & G)|(x1 & x2 & E1 & _)]; [exact (IH _ G)|].
    destruct NI. rewrite E1. apply in_or_app. right. left. reflexivity. }
  assert (NB : forall i t, ~ In (Pushed c code b) (map (By i) t)) by (intros i t J; apply in_map_iff in J; destruct J as (y & J & _); discriminate J).
  destruct e as [cl|i k clock|i|c0|c0 code0 b0|]; [cbn [pstep] in E..|].
  - destruct (advance _ _) as [[t w'] m]. apply (K _ E). intros [J|J]; [discriminate J|exact (NB _ _ J)].
  - destruct (nth_error _ _) as [[ | | |e q|q x]|]; try exact (IH _ E); [destruct (fits e k); [|exact (IH _ E)]|destruct k; try exact (IH _ E)]; destruct (advance _ _) as [[t w'] m];
    apply (K _ E); intros J; apply in_app_or in J; (destruct J as [[J|[]]|J]; [discriminate J|exact (NB _ _ J)]).
  - destruct (nth_error _ _) as [[ | | |e q|q x]|]; try exact (IH _ E). destruct (advance _ _) as [[t w'] m].
    apply (K _ E). exact (NB _ _).
  - destruct (lose _ _) as [t w']. apply (K _ E). intros J. apply in_map_iff in J. destruct J as (y & J & _). discriminate J.
  - destruct (handler_of c0 code0 (p_world P)) as [hd|] eqn:HN; [|exact (IH _ E)]. destruct hd; [|exact (IH _ E)].
    cbn [p_log] in E. destruct (split_log _ _ _ _ _ E) as [(g3 & G)|(x1 & x2 & E1 & ->)]; [exact (IH _ G)|].
    destruct x1 as [|y x1]; cbn [app] in E1; [|injection E1 as _ E1; destruct x1; discriminate E1]. injection E1 as -> -> -> _.
    exists es. rewrite app_nil_r. fold P. split; [reflexivity|]. rewrite HN. discriminate.
  - destruct (pstep_handle_at n P) as [EH|(c0 & code0 & b0 & l & cbs & _ & _ & EH)]; rewrite EH in E; [exact (IH _ E)|]. cbn [p_log] in E.
    apply (K _ E). intros [J|[]]. discriminate J.
Qed.
Theorem C102_nothing_taken n id mr rnd h es P g1 c code b g2 : ran n id mr rnd h es = Some P -> p_log P = g1 ++ Pushed c code b :: g2 ->
  (forall j force, ~ In (By j (AwaitFutures c force)) g1) /\ (forall j, ~ In (By j (CloseTransport c)) g1) /\
  ~ In (Env (Lost c)) g1 /\ (forall j, ~ In (By j (Lost c)) g1).
Proof.
  intros R E. unfold ran in R. destruct (new_gateway id mr rnd [] h) as [w|] eqn:N; [|discriminate R]. injection R as <-.
  destruct (pushed_at _ _ _ _ _ _ _ _ E) as (es1 & G & H).
  assert (R1 : ran n id mr rnd h es1 = Some (prun n (start w) es1)) by (unfold ran; rewrite N; reflexivity).
  destruct (ran_inv _ _ _ _ _ _ _ R1) as (I & _). rewrite G in I. unfold handler_of in H.
  destruct (c_connected (get_conn c (p_world (prun n (start w) es1)))) eqn:C1; [|destruct (H eq_refl)].
  destruct (c_closing (get_conn c (p_world (prun n (start w) es1)))) eqn:C2; [destruct (H eq_refl)|].
  destruct (Inv_usable _ _ _ _ _ _ I C1 C2) as (U1 & U2 & U3).
  split; [exact U1|]. split; [exact U2|]. split; [intros J; apply (U3 _ J); left; reflexivity|intros j J; apply (U3 _ J); right; eauto].
Qed.
Print Assumptions C102_nothing_taken.

Lemma ran_lock n id mr rnd h es P : ran n id mr rnd h es = Some P -> (forall Y m, In (Pool.Call (SendMessage Y m)) es -> ~ registration Y) ->
  exists owner, Linv P owner.
Proof.
  intros R NR. unfold ran, new_gateway in R. destruct (_ && _); [|discriminate R]. injection R as <-. apply Linv_run; [reflexivity|].
  intros cl J Z m ->. exact (NR _ _ J).
Qed.
(** C106.  [asked j g c X p]: task j has sent the message and waits for the answer. *)
Theorem C106_one_exchange n id mr rnd h es P g1 i c X p g2 : ran n id mr rnd h es = Some P ->
  (forall Y m, In (Pool.Call (SendMessage Y m)) es -> ~ registration Y) ->
  p_log P = g1 ++ By i (Send c X p) :: g2 -> registration X ->
  forall j c' Y q, j <> i -> registration Y -> ~ asked j g1 c' Y q.
Proof.
  intros R NR E RX j c' Y q N RY (t & ms & A). destruct (ran_lock _ _ _ _ _ _ _ R NR) as (owner & I).
  apply (L_log _ _ I _ _ _ _ _ _ E RX j N). exists t, c', Y, q, c', ms. auto.
Qed.
Print Assumptions C106_one_exchange.

(** C107.  All the calls that were made have returned or raised an error: then the lock is free,
    and so is every later call's way to it. *)
Definition over_with (t : Tasks.task unit) : Prop := exists o, t = Done o /\ forall y, o <> Stuck y.
Theorem C107_lock_free n id mr rnd h es P : ran n id mr rnd h es = Some P ->
  (forall Y m, In (Pool.Call (SendMessage Y m)) es -> ~ registration Y) ->
  (forall t, In t (p_tasks P) -> over_with t) -> m_locked (w_cm (p_world P)) = false.
Proof.
  intros R NR A. destruct (ran_lock _ _ _ _ _ _ _ R NR) as (owner & I).
  pose proof (L_locked _ _ I) as K. unfold locked in K. rewrite K. destruct owner as [j|]; [exfalso|reflexivity].
  destruct (L_owner _ _ I _ eq_refl) as (m & NJ & L). apply nth_error_In, A in NJ. destruct NJ as (o & -> & NS). destruct L as [B|(_ & y & ->)]; [discriminate B|exact (NS y eq_refl)].
Qed.
Print Assumptions C107_lock_free.

(** C103. *)
Theorem C103_data n id mr rnd h es P : ran n id mr rnd h es = Some P -> shows (h_float h) [] (p_log P) (w_data (p_world P)).
Proof. intros R. destruct (ran_inv _ _ _ _ _ _ _ R) as (I & _). apply (I_data _ _ _ _ _ I). Qed.
Print Assumptions C103_data.

(** a concrete schedule: two calls connect at the same time, both get in; then a circuit is set
    and the status asked for at the same time, and the adapter pushes a chemistry message *)
Definition clk : spec_float := S754_zero false.
Definition reply (i : nat) (code : Z) (b : bytes) : event := Resume i (KReply code b) clk.
Definition done (i : nat) : event := Resume i KDone clk.
Definition login_of (i : nat) : list event :=
  [done i; done i; reply i 15 mac_reply; reply i 28 []; reply i 8121 version_reply; reply i 12533 (Messages.wire_config Prop_Decode.some_config)].
Definition two_connect : list event :=
  [Pool.Call (Connect to_adapter); Pool.Call (Connect to_adapter)] ++ login_of 0 ++ login_of 1.

(** the messages of a log: task, connection, code *)
Definition wire (g : log) : list (nat * nat * Z) := flat_map (fun x => match x with By i (Send c X _) => [(i, c, X)] | _ => [] end) g.
Definition overlap : list event :=
  two_connect ++ [Pool.Call (SetCircuit (VInt 505) (VInt 1)); Pool.Call GetStatus; Pool.Call (Subscribe 7 12500);
    reply 4 12523 []; Push 1 12500 (Messages.wire_status Prop_Decode.some_status);
    reply 3 12527 (Messages.wire_status Prop_Decode.some_status); Handle; reply 2 12531 []].
Lemma seen i c X g : In (i, c, X) (wire g) -> exists g1 p g2, g = g1 ++ By i (Send c X p) :: g2.
Proof.
  intros J. apply in_flat_map in J. destruct J as (x & J & K). destruct x as [| j e | | |]; try destruct K. destruct e; try destruct K.
  - injection H as -> -> ->. apply in_split in J. destruct J as (g1 & g2 & ->). eauto.
  - destruct H.
Qed.
Definition overlap_wire : list (nat * nat * Z) :=
  map (fun x => (fst x, Nat.min 1 (fst x), snd x))
    [(0%nat, 14); (0%nat, 27); (0%nat, 8120); (0%nat, 12532); (1%nat, 14); (1%nat, 27); (1%nat, 8120); (1%nat, 12532);
     (2%nat, 12530); (3%nat, 12526); (4%nat, 12522)].
Definition outcomes (P : Pool.pool) : list (option (out unit)) := map (fun t => match t with Done o => Some o | _ => None end) (p_tasks P).
Lemma overlapped : exists P, ran 2 (Some 777) None 0 its_host overlap = Some P /\ outcomes P = repeat (Some (Val tt)) 5 /\
  wire (p_log P) = overlap_wire.
Proof.
  destruct (ran 2 (Some 777) None 0 its_host overlap) as [P|] eqn:E; [|vm_compute in E; discriminate E].
  exists P. split; [reflexivity|].
  assert (C : option_map (fun P => (outcomes P, wire (p_log P))) (ran 2 (Some 777) None 0 its_host overlap) =
    Some (repeat (Some (Val tt)) 5, overlap_wire)) by (vm_compute; reflexivity).
  rewrite E in C. cbn [option_map] in C. injection C as -> ->. auto.
Qed.

Example task_is_call_nonvacuous : exists w, fresh_gateway [] = Ok w /\
  exists t w', alone (tperform 2 (Connect to_adapter)) w = (t, w', Stuck Waiting) /\ t <> [].
Proof. eexists. split; [vm_compute; reflexivity|]. eexists _, _. vm_compute. split; [reflexivity|discriminate]. Qed.
(** the second message of a setting whose first one got no answer while another call ran *)
Definition again : list event :=
  two_connect ++ [Pool.Call (SetCircuit (VInt 505) (VInt 1)); Pool.Call GetStatus; Resume 2 KTimeout clk; reply 3 12527 (Messages.wire_status Prop_Decode.some_status); done 2; reply 2 12531 []].
Fixpoint at_send (i : nat) (X : Z) (k : nat) (g1 g : log) : option (log * nat * bytes * log) :=
  match g with
  | [] => None
  | By j (Send c Y p) :: g' => if Nat.eqb j i && (Y =? X) then match k with O => Some (g1, c, p, g') | S k' => at_send i X k' (g1 ++ [By j (Send c Y p)]) g' end else at_send i X k (g1 ++ [By j (Send c Y p)]) g'
  | x :: g' => at_send i X k (g1 ++ [x]) g'
  end.
Lemma at_send_eq i X : forall g k g1 a c p b, at_send i X k g1 g = Some (a, c, p, b) -> g1 ++ g = a ++ By i (Send c X p) :: b.
Proof.
  induction g as [|x g IH]; intros k g1 a c p b E; [discriminate E|]. cbn [at_send] in E.
  assert (K : forall k y, at_send i X k (g1 ++ [y]) g = Some (a, c, p, b) -> g1 ++ y :: g = a ++ By i (Send c X p) :: b) by (intros k0 y E0; apply IH in E0; rewrite <- app_assoc in E0; exact E0).
  destruct x as [j c1 d1|j e|e|c1 k1 b1|c1 k1 b1 cbs]; try (apply (K k); exact E). destruct e; try (apply (K k); exact E).
  destruct (Nat.eqb_spec j i) as [->|]; cbn [andb] in E; [|apply (K k); exact E]. destruct (Z.eqb_spec code X) as [->|]; [|apply (K k); exact E].
  destruct k as [|k]; [injection E as <- <- <- <-; reflexivity|apply (K k); exact E].
Qed.
Example C99_nonvacuous : exists P g1 c p g2 d, ran 2 (Some 777) None 0 its_host again = Some P /\ p_log P = g1 ++ By 2 (Send c 12530 p) :: g2 /\
  begun 2 g1 = [(SetCircuit (VInt 505) (VInt 1), d)] /\ ~ connecting_code 12530 /\ List.length (sends_of 12530 (own 2 g1)) = 1%nat.
Proof.
  destruct (ran 2 (Some 777) None 0 its_host again) as [P|] eqn:E; [|vm_compute in E; discriminate E].
  assert (C : match ran 2 (Some 777) None 0 its_host again with
    | Some P => match at_send 2 12530 1 [] (p_log P) with
                | Some (g1, c, p, g2) => map fst (begun 2 g1) = [SetCircuit (VInt 505) (VInt 1)] /\ List.length (sends_of 12530 (own 2 g1)) = 1%nat
                | None => False end | None => False end) by (vm_compute; split; reflexivity).
  rewrite E in C. destruct (at_send 2 12530 1 [] (p_log P)) as [[[[g1 c] p] g2]|] eqn:AS; [|contradiction]. destruct C as (C1 & C2).
  destruct (begun 2 g1) as [|[call d] l] eqn:B; [discriminate C1|]. cbn [map fst] in C1. injection C1 as -> C1. destruct l; [|discriminate C1].
  exists P, g1, c, p, g2, d. split; [reflexivity|]. split; [exact (at_send_eq _ _ _ _ _ _ _ _ _ AS)|]. split; [exact B|]. split; [|exact C2]. intros K. vm_compute in K. intuition discriminate.
Qed.
(** the bound is met: with max_retries 1, four messages when nothing is ever answered *)
Definition before_worn : list event := [Pool.Call (Connect to_adapter)] ++ login_of 0.
Definition worn : list event := [Resume 1 KTimeout clk; done 1; Resume 1 KTimeout clk; done 1; done 1; done 1] ++ login_of 1 ++ [Resume 1 KTimeout clk; done 1; Resume 1 KTimeout clk].
Definition worn_call : api_call := SetCircuit (VInt 505) (VInt 1).
Example C99_exact_nonvacuous : exists P1 P, ran 2 (Some 777) None 0 its_host before_worn = Some P1 /\ List.length (p_tasks P1) = 1%nat /\ w_retries (p_world P1) = 1 /\
  ran 2 (Some 777) None 0 its_host (before_worn ++ Pool.Call worn_call :: worn) = Some P /\ request_code worn_call = Some 12530 /\ ~ connecting_code 12530 /\
  List.length (sends_of 12530 (own 1 (p_log P))) = 4%nat /\ nth_error (outcomes P) 1 = Some (Some (Exc ESLConnection)).
Proof.
  assert (C1 : option_map (fun P => (List.length (p_tasks P), w_retries (p_world P))) (ran 2 (Some 777) None 0 its_host before_worn) = Some (1%nat, 1)) by (vm_compute; reflexivity).
  assert (C2 : option_map (fun P => (List.length (sends_of 12530 (own 1 (p_log P))), nth_error (outcomes P) 1)) (ran 2 (Some 777) None 0 its_host (before_worn ++ Pool.Call worn_call :: worn)) = Some (4%nat, Some (Some (Exc ESLConnection)))) by (vm_compute; reflexivity).
  destruct (ran 2 (Some 777) None 0 its_host before_worn) as [P1|]; [|discriminate C1]. destruct (ran 2 (Some 777) None 0 its_host (before_worn ++ Pool.Call worn_call :: worn)) as [P|]; [|discriminate C2].
  cbn [option_map] in C1, C2. exists P1, P. injection C1 as C1 C1'. injection C2 as C2 C2'. repeat split; try assumption. intros K. vm_compute in K. intuition discriminate.
Qed.
Example C105_nonvacuous : exists P d, ran 2 (Some 777) None 0 its_host again = Some P /\ nth_error (p_tasks P) 2 = Some (Done (Val tt)) /\
  begun 2 (p_log P) = [(SetCircuit (VInt 505) (VInt 1), d)].
Proof.
  destruct (ran 2 (Some 777) None 0 its_host again) as [P|] eqn:E; [|vm_compute in E; discriminate E].
  assert (C : option_map (fun P => (nth_error (outcomes P) 2, map fst (begun 2 (p_log P)))) (ran 2 (Some 777) None 0 its_host again) = Some (Some (Some (Val tt)), [SetCircuit (VInt 505) (VInt 1)])) by (vm_compute; reflexivity).
  rewrite E in C. cbn [option_map] in C. injection C as C1 C2. change (nth_error (outcomes P) 2 = Some (Some (Val tt))) in C1.
  destruct (begun 2 (p_log P)) as [|[call d] l] eqn:B; [discriminate C2|]. cbn [map fst] in C2. injection C2 as -> C2. destruct l; [|discriminate C2].
  exists P, d. split; [reflexivity|]. split; [|exact B]. unfold outcomes in C1. rewrite nth_error_map in C1.
  destruct (nth_error (p_tasks P) 2) as [[o| | | |]|]; cbn [option_map] in C1; try discriminate C1. injection C1 as ->. reflexivity.
Qed.
(** a setting and a query of two overlapping calls *)
Example C100_nonvacuous : exists P g1 p g2, ran 2 (Some 777) None 0 its_host overlap = Some P /\ p_log P = g1 ++ By 2 (Send 1 12530 p) :: g2.
Proof.
  destruct overlapped as (P & R & _ & W). destruct (seen 2 1 12530 (p_log P)) as (g1 & p & g2 & E); [rewrite W; vm_compute; tauto|].
  exists P, g1, p, g2. auto.
Qed.
Example C101_nonvacuous : exists P g1 p g2, ran 2 (Some 777) None 0 its_host overlap = Some P /\ p_log P = g1 ++ By 3 (Send 1 12526 p) :: g2.
Proof.
  destruct overlapped as (P & R & _ & W). destruct (seen 3 1 12526 (p_log P)) as (g1 & p & g2 & E); [rewrite W; vm_compute; tauto|].
  exists P, g1, p, g2. auto.
Qed.
(** the first message of the second connection, sent while the first connection logs in *)
Example C102_nonvacuous : exists P g1 p g2, ran 2 (Some 777) None 0 its_host overlap = Some P /\ p_log P = g1 ++ By 1 (Send 1 14 p) :: g2.
Proof.
  destruct overlapped as (P & R & _ & W). destruct (seen 1 1 14 (p_log P)) as (g1 & p & g2 & E); [rewrite W; vm_compute; tauto|].
  exists P, g1, p, g2. auto.
Qed.
Example C103_nonvacuous : exists P, ran 2 (Some 777) None 0 its_host overlap = Some P /\
  In (Applied 1 12500 (Messages.wire_status Prop_Decode.some_status) [7%nat]) (p_log P) /\ get_value true [KS "circuit"; KI 505] (w_data (p_world P)) = Ok (VInt 0).
Proof. eexists. split; [unfold ran; vm_compute; reflexivity|]. vm_compute. split; [tauto|reflexivity]. Qed.

(** two listeners at the same time, then a disconnect: the first listener's message has to be
    repeated, the second waits for it; after the disconnect the lock is free *)
Definition crowd : list event :=
  [Pool.Call (Connect to_adapter)] ++ login_of 0 ++ [Pool.Call (Subscribe 7 12500); Pool.Call (Subscribe 8 12505); Resume 1 KTimeout clk; Enter 2; done 1; reply 1 12523 []; Enter 2;
    Pool.Call (Disconnect false); reply 3 12525 []; done 3; done 3].
Definition crowd_facts (P : Pool.pool) := (wire (p_log P), outcomes P).
Lemma crowded : option_map crowd_facts (ran 2 (Some 777) None 0 its_host crowd) =
  Some (map (fun x => (fst x, O, snd x)) [(O, 14); (O, 27); (O, 8120); (O, 12532); (1%nat, 12522); (1%nat, 12522); (3%nat, 12524)], repeat (Some (Val tt)) 4).
Proof. vm_compute. reflexivity. Qed.
Lemma crowd_plain : forall Y m, In (Pool.Call (SendMessage Y m)) crowd -> ~ registration Y.
Proof. intros Y m J. cbn in J. intuition discriminate. Qed.
Example C106_nonvacuous : exists P g1 p g2, ran 2 (Some 777) None 0 its_host crowd = Some P /\ p_log P = g1 ++ By 3 (Send 0 12524 p) :: g2 /\
  (forall Y m, In (Pool.Call (SendMessage Y m)) crowd -> ~ registration Y).
Proof.
  pose proof crowded as C. destruct (ran 2 (Some 777) None 0 its_host crowd) as [P|] eqn:E; [|discriminate C]. cbn [option_map] in C. injection C as W _.
  destruct (seen 3 0 12524 (p_log P)) as (g1 & p & g2 & G); [rewrite W; vm_compute; tauto|]. exists P, g1, p, g2. split; [reflexivity|]. split; [exact G|exact crowd_plain].
Qed.
Example C107_nonvacuous : exists P, ran 2 (Some 777) None 0 its_host crowd = Some P /\ List.length (p_tasks P) = 4%nat /\ (forall t, In t (p_tasks P) -> over_with t).
Proof.
  pose proof crowded as C. destruct (ran 2 (Some 777) None 0 its_host crowd) as [P|] eqn:E; [|discriminate C]. cbn [option_map] in C. injection C as _ O.
  exists P. split; [reflexivity|]. change (outcomes P = repeat (Some (Val tt)) 4) in O. unfold outcomes in O. split; [rewrite <- (map_length (fun t : Tasks.task unit => match t with Done o => Some o | _ => None end)), O; reflexivity|].
  intros t J. apply (in_map (fun t : Tasks.task unit => match t with Done o => Some o | _ => None end)) in J. rewrite O in J. apply repeat_spec in J.
  destruct t; try discriminate J. injection J as ->. eexists. split; [reflexivity|discriminate].
Qed.

(** C104. *)
Definition all_done (P : Pool.pool) : Prop := forall t, In t (p_tasks P) -> exists o, t = Done o.
Theorem C104_none_left_open_refuted : ~ (forall n id mr rnd h es force es' P P',
  ran n id mr rnd h es = Some P -> all_done P ->
  ran n id mr rnd h (es ++ Pool.Call (Disconnect force) :: es') = Some P' -> all_done P' ->
  nth_error (p_tasks P') (List.length (p_tasks P)) = Some (Done (Val tt)) ->
  forall c, connected c (p_world P') = false).
Proof.
  intros H.
  assert (D : forall P, Nat.eqb (List.length (filter (fun t : Tasks.task unit => match t with Done _ => false | _ => true end) (p_tasks P))) 0 = true -> all_done P).
  { intros P F t J. destruct t as [o| | | |]; [eauto|..]; exfalso; apply Nat.eqb_eq, length_zero_iff_nil in F;
      match type of J with In ?x _ => assert (K : In x (filter (fun t : Tasks.task unit => match t with Done _ => false | _ => true end) (p_tasks P))) by (apply filter_In; auto) end; rewrite F in K; destruct K. }
  pose (out1 := ran 2 (Some 777) None 0 its_host two_connect). pose (out2 := ran 2 (Some 777) None 0 its_host (two_connect ++ [Pool.Call (Disconnect false); done 2; done 2])).
  pose (facts P := (Nat.eqb (List.length (filter (fun t : Tasks.task unit => match t with Done _ => false | _ => true end) (p_tasks P))) 0, List.length (p_tasks P), nth_error (outcomes P) 2, connected 0 (p_world P))).
  assert (F1 : option_map facts out1 = Some (true, 2%nat, None, true)) by (vm_compute; reflexivity).
  assert (F2 : option_map facts out2 = Some (true, 3%nat, Some (Some (Val tt)), true)) by (vm_compute; reflexivity).
  destruct out1 as [P1|] eqn:E1; [|discriminate F1]. destruct out2 as [P2|] eqn:E2; [|discriminate F2].
  unfold facts in F1, F2. cbn [option_map] in F1, F2. injection F1 as A1 A2 _ _. injection F2 as B1 B2 B3 B4.
  specialize (H 2%nat (Some 777) None 0 its_host two_connect false [done 2; done 2] P1 P2 E1 (D _ A1) E2 (D _ B1)).
  rewrite A2 in H. rewrite H in B4; [discriminate B4|]. change (nth_error (outcomes P2) 2 = Some (Some (Val tt))) in B3. unfold outcomes in B3. rewrite nth_error_map in B3.
  destruct (nth_error (p_tasks P2) 2) as [[o| | | |]|]; cbn [option_map] in B3; try discriminate B3. injection B3 as ->. reflexivity.
Qed.
Print Assumptions C104_none_left_open_refuted.

(** What does hold.  A disconnect that returned has closed the connection that was the gateway's
    at some time since it was called, for good, whatever else runs. *)
Lemma ran_app n id mr rnd h ea eb P0 : ran n id mr rnd h ea = Some P0 -> ran n id mr rnd h (ea ++ eb) = Some (prun n P0 eb).
Proof.
  unfold ran. destruct (new_gateway id mr rnd [] h) as [w|]; [|discriminate]. intros E. injection E as <-.
  unfold prun. rewrite fold_left_app. reflexivity.
Qed.
Lemma ran_made n id mr rnd h es P : ran n id mr rnd h es = Some P -> all_made P.
Proof.
  unfold ran. destruct (new_gateway id mr rnd [] h) as [w|]; [|discriminate]. intros E. injection E as <-.
  apply (prun_made goes_on goes_keeps). apply start_made.
Qed.
Lemma ran_range n id mr rnd h es P c : ran n id mr rnd h es = Some P -> w_proto (p_world P) = Some c -> (c < List.length (w_conns (p_world P)))%nat.
Proof.
  intros R E. destruct (ran_inv _ _ _ _ _ _ _ R) as (I & _). destruct (I_proto _ _ _ _ _ I c E) as ((j & t1 & p & ms & r & b & t2 & O & _) & _).
  apply (I_known _ _ _ _ _ I j c (Send c 27 p)).
  - assert (J : In (Send c 27 p) (own j (p_log P))) by (rewrite O; apply in_or_app; right; left; reflexivity).
    unfold own in J. apply in_flat_map in J. destruct J as ([| k e | | |] & J & K); try destruct K. destruct (Nat.eqb_spec k j); [|destruct K]. destruct K as [->|[]]. subst k. exact J.
  - left. eauto.
Qed.
Theorem C104_closes_it_partial n id mr rnd h ea force eb P0 P :
  ran n id mr rnd h ea = Some P0 -> ran n id mr rnd h (ea ++ Pool.Call (Disconnect force) :: eb) = Some P ->
  nth_error (p_tasks P) (List.length (p_tasks P0)) = Some (Done (Val tt)) ->
  exists eb1 eb2 P1 c, eb = eb1 ++ eb2 /\ ran n id mr rnd h (ea ++ Pool.Call (Disconnect force) :: eb1) = Some P1 /\
    w_proto (p_world P1) = Some c /\ connected c (p_world P) = false.
Proof.
  intros R0 R D. pose (aimed c eb := exists eb1 eb2 P1, eb = eb1 ++ eb2 /\ ran n id mr rnd h (ea ++ Pool.Call (Disconnect force) :: eb1) = Some P1 /\ w_proto (p_world P1) = Some c).
  assert (X : forall eb, on_course (List.length (p_tasks P0)) (fun c => aimed c eb) (prun n P0 (Pool.Call (Disconnect force) :: eb))).
  { clear eb P R D. induction eb as [|e eb IH] using rev_ind.
    - apply course_call. intros c E. pose proof (ran_app _ _ _ _ _ _ [Pool.Call (Disconnect force)] _ R0) as R1.
      split; [|eapply ran_range; [exact R1|exact E]]. exists [], [], (prun n P0 [Pool.Call (Disconnect force)]). auto.
    - replace (prun n P0 (Pool.Call (Disconnect force) :: eb ++ [e])) with (pstep n (prun n P0 (Pool.Call (Disconnect force) :: eb)) e)
        by (unfold prun; rewrite app_comm_cons, fold_left_app; reflexivity).
      pose proof (ran_app _ _ _ _ _ _ (Pool.Call (Disconnect force) :: eb) _ R0) as R1.
      assert (R2 : ran n id mr rnd h (ea ++ Pool.Call (Disconnect force) :: eb ++ [e]) = Some (pstep n (prun n P0 (Pool.Call (Disconnect force) :: eb)) e)).
      { rewrite app_comm_cons, app_assoc. rewrite (ran_app _ _ _ _ _ _ [e] _ R1). reflexivity. }
      apply course_step; [eapply ran_made; exact R1| |].
      + destruct IH as (s & m & N & A & I). exists s, m. split; [exact N|]. split; [exact A|]. destruct s as [[c d]|]; [|exact Logic.I].
        destruct I as ((eb1 & eb2 & P1 & -> & I1) & I2). split; [|exact I2]. exists eb1, (eb2 ++ [e]), P1. rewrite app_assoc. auto.
      + intros c E. split; [|eapply ran_range; [exact R2|exact E]]. exists (eb ++ [e]), [], (pstep n (prun n P0 (Pool.Call (Disconnect force) :: eb)) e).
        rewrite app_nil_r. auto. }
  pose proof (ran_app _ _ _ _ _ _ (Pool.Call (Disconnect force) :: eb) _ R0) as R1. assert (EP : P = prun n P0 (Pool.Call (Disconnect force) :: eb)) by congruence. subst P.
  destruct (X eb) as (s & m & N & A & I). rewrite D in N. injection N as <-. destruct (A eq_refl) as (c & ->).
  destruct I as ((eb1 & eb2 & P1 & I1 & I2 & I3) & _ & I4). exists eb1, eb2, P1, c. auto.
Qed.
Print Assumptions C104_closes_it_partial.
(** ... and when every other call had ended and no new one was made, it is the connection the
    gateway still has: is_connected is False. *)
Theorem C104_disconnected_partial n id mr rnd h ea force eb P0 P :
  ran n id mr rnd h ea = Some P0 -> all_done P0 -> ran n id mr rnd h (ea ++ Pool.Call (Disconnect force) :: eb) = Some P ->
  (forall c, ~ In (Pool.Call c) eb) ->
  nth_error (p_tasks P) (List.length (p_tasks P0)) = Some (Done (Val tt)) ->
  is_connected (p_world P) = false /\ w_proto (p_world P) = w_proto (p_world P0).
Proof.
  intros R0 AD R NC D. destruct (C104_closes_it_partial _ _ _ _ _ _ _ _ _ _ R0 R D) as (eb1 & eb2 & P1 & c & -> & R1 & E & C).
  assert (S0 : all_stay P0). { intros m J. destruct (AD m J) as (o & ->). exact Logic.I. }
  assert (K : forall es, (forall c, In (Pool.Call c) es -> False) -> w_proto (p_world (prun n P0 (Pool.Call (Disconnect force) :: es))) = w_proto (p_world P0)).
  { intros es N. apply prun_stays; [|exact S0]. intros c0 [J|J]; [injection J as <-; eauto|destruct (N _ J)]. }
  pose proof (ran_app _ _ _ _ _ _ (Pool.Call (Disconnect force) :: eb1) _ R0) as Q1. assert (E1 : P1 = prun n P0 (Pool.Call (Disconnect force) :: eb1)) by congruence. subst P1.
  pose proof (ran_app _ _ _ _ _ _ (Pool.Call (Disconnect force) :: eb1 ++ eb2) _ R0) as Q2. assert (E2 : P = prun n P0 (Pool.Call (Disconnect force) :: eb1 ++ eb2)) by congruence. subst P.
  rewrite (K eb1) in E by (intros c0 J; apply (NC c0), in_or_app; auto). pose proof (K (eb1 ++ eb2) NC) as K2.
  split; [|exact K2]. unfold is_connected. rewrite K2, E. exact C.
Qed.
Print Assumptions C104_disconnected_partial.
(** two overlapping connects, then a disconnect: all as in the refutation *)
Example C104_nonvacuous : exists P0 P,
  ran 2 (Some 777) None 0 its_host two_connect = Some P0 /\ all_done P0 /\
  ran 2 (Some 777) None 0 its_host (two_connect ++ [Pool.Call (Disconnect false); done 2; done 2]) = Some P /\
  nth_error (p_tasks P) (List.length (p_tasks P0)) = Some (Done (Val tt)) /\ is_connected (p_world P0) = true.
Proof.
  pose (facts P := (Nat.eqb (List.length (filter (fun t : Tasks.task unit => match t with Done _ => false | _ => true end) (p_tasks P))) 0, List.length (p_tasks P), is_connected (p_world P))).
  assert (F1 : option_map facts (ran 2 (Some 777) None 0 its_host two_connect) = Some (true, 2%nat, true)) by (vm_compute; reflexivity).
  assert (F2 : option_map (fun P => nth_error (outcomes P) 2) (ran 2 (Some 777) None 0 its_host (two_connect ++ [Pool.Call (Disconnect false); done 2; done 2])) = Some (Some (Some (Val tt)))) by (vm_compute; reflexivity).
  destruct (ran 2 (Some 777) None 0 its_host two_connect) as [P0|]; [|discriminate F1].
  destruct (ran 2 (Some 777) None 0 its_host (two_connect ++ _)) as [P|]; [|discriminate F2]. exists P0, P. cbn [option_map] in F1, F2. injection F1 as A1 A2 A3. assert (B : nth_error (outcomes P) 2 = Some (Some (Val tt))) by congruence. clear F2.
  split; [reflexivity|]. split; [|split; [reflexivity|split; [|exact A3]]].
  - intros t J. destruct t as [o| | | |]; [eauto|..]; exfalso; apply Nat.eqb_eq, length_zero_iff_nil in A1;
      match type of J with In ?x _ => assert (K : In x (filter (fun t : Tasks.task unit => match t with Done _ => false | _ => true end) (p_tasks P0))) by (apply filter_In; auto) end; rewrite A1 in K; destruct K.
  - rewrite A2. unfold outcomes in B. rewrite nth_error_map in B.
    destruct (nth_error (p_tasks P) 2) as [[o| | | |]|]; cbn [option_map] in B; try discriminate B. injection B as ->. reflexivity.
Qed.

(** C56, for overlapping calls. *)
Definition in_range (w w' : world) : Prop := 1 <= w_retries w <= 5 -> 1 <= w_retries w' <= 5.
Lemma in_range_keeps : keeps in_range.
Proof.
  unfold in_range. repeat split; try (intros; lia); cbn [set_conns set_clock set_data put_cm set_cm w_retries]; try lia.
  all: destruct H; cbn [snd]; try (cbn; lia).
  all: try (generalize (codes w); intros l; revert w H0; induction l as [|x l IH]; intros w H0; cbn [fold_left]; [lia|apply IH; exact H0]).
  all: try (unfold lose; destruct (connected c w); cbn; lia).
  all: try (destruct (f w); cbn; lia).
  all: try (unfold store_pump; destruct (dget K_PUMPS (w_last w)) as [[]|]; cbn; lia).
Qed.
Theorem C56_overlapping n id mr rnd h es P : ran n id mr rnd h es = Some P -> 1 <= w_retries (p_world P) <= 5.
Proof.
  unfold ran. destruct (new_gateway id mr rnd [] h) as [w|] eqn:N; [|discriminate]. intros E. assert (P = prun n (start w) es) by congruence. subst P.
  destruct (prun_made in_range in_range_keeps n es (start w) (start_made w)) as (A & _). apply A. cbn [start p_world].
  apply (Prop_Connect.C56_initial id mr rnd [] h). exact N.
Qed.
Print Assumptions C56_overlapping.
Example C56_overlapping_nonvacuous : option_map (fun P => w_retries (p_world P)) (ran 2 (Some 777) (Some 2) 0 its_host (overlap ++ [Pool.Call (SetMaxRetries 5); Pool.Call (SetMaxRetries 6)])) = Some 5.
Proof. vm_compute. reflexivity. Qed.
