(** What one task did along a schedule is a path through it: its first step in the world of the
    call, then one step after every wait that ended, in some world with [U]. *)
From Verif Require Import Py F64 Struct Utf Utility Const Spec Enum Decode Messages Calls World Request Gateway Traces Paths Api Tasks Pool SpecPool SpecKeep SpecBye P_Pool P_Moves.

Inductive path {A} (U : world -> Prop) (m : task A) (w0 : world) : trace -> task A -> Prop :=
| path_start t w' m' : advance m w0 = (t, w', m') -> path U m w0 t m'
| path_resume t e k kd clk w t' w' m' : path U m w0 t (Wait e k) -> fits e kd = true -> U w ->
    advance (k kd) (set_clock clk (opened_by e kd w)) = (t', w', m') -> path U m w0 (t ++ Got (mkResp kd [] None clk) :: t') m'
| path_enter t k x w t' w' m' : path U m w0 t (Lock k x) -> U w -> advance (Lock k x) w = (t', w', m') -> path U m w0 (t ++ t') m'
| path_cancel t k x clk w t' w' m' : path U m w0 t (Lock k x) -> U w ->
    advance x (set_clock clk w) = (t', w', m') -> path U m w0 (t ++ Got (mkResp KCancelTask [] None clk) :: t') m'.

Lemma nth_lset_eq {X} i (x y : X) l : nth_error l i = Some y -> nth_error (lset i x l) i = Some x.
Proof. revert i. induction l as [|z l IH]; intros [|i] H; cbn in *; try discriminate H; auto. Qed.
Lemma nth_lset_ne {X} i j (x : X) l : i <> j -> nth_error (lset i x l) j = nth_error l j.
Proof. revert i j. induction l as [|z l IH]; intros [|i] [|j] H; cbn; auto; congruence. Qed.
Lemma own_env i t : own i (map Env t) = []. Proof. induction t; [reflexivity|exact IHt]. Qed.

(** nothing is logged for tasks that are not there *)
Definition within (P : pool) : Prop := forall i e, In (By i e) (p_log P) -> (i < List.length (p_tasks P))%nat.
Lemma within_step n P e : within P -> within (pstep n P e).
Proof.
  intros W. destruct P as [w ts g]. unfold within in *. cbn [p_log p_tasks] in W.
  assert (R : forall i t w' m0 h m, nth_error ts i = Some m0 -> (forall j x, In (By j x) h -> j = i) -> forall j x,
    In (By j x) (p_log (mkPool w' (lset i m ts) (g ++ h ++ map (By i) t))) -> (j < List.length (p_tasks (mkPool w' (lset i m ts) (g ++ h ++ map (By i) t))))%nat).
  { intros i t w' m0 h m N H j x J. cbn [p_log p_tasks] in *. rewrite lset_len. apply in_app_or in J. destruct J as [J|J]; [eauto|].
    assert (L : (i < List.length ts)%nat) by (apply nth_error_Some; congruence).
    apply in_app_or in J. destruct J as [J|J]; [apply H in J; subst j; exact L|]. apply in_map_iff in J. destruct J as (y & E & _). injection E as <- _. exact L. }
  destruct e as [c|i k clk|i|c|c code b|]; [cbn [pstep p_world p_tasks p_log]..|].
  - destruct (advance (tperform n c) w) as [[t w'] m]. cbn [p_tasks p_log]. rewrite app_length. cbn [List.length]. intros j x J. apply in_app_or in J.
    destruct J as [J|[J|J]]; [apply W in J; lia|discriminate J|]. apply in_map_iff in J. destruct J as (y & E & _). injection E as <- _. lia.
  - destruct (nth_error ts i) as [[| | |e0 k0|k0 x0]|] eqn:N; try exact W; [destruct (fits e0 k); [|exact W]|destruct k; try exact W];
    (destruct (advance _ _) as [[t w'] m]; eapply R; [exact N|]; intros j x [E|[]]; injection E as <- _; reflexivity).
  - destruct (nth_error ts i) as [[| | | |k0 x0]|] eqn:N; try exact W.
    destruct (advance _ _) as [[t w'] m]. apply (R i t w' _ [] m N). intros j x [].
  - destruct (lose c w) as [t w']. cbn [p_tasks p_log]. intros j x J. apply in_app_or in J. destruct J as [J|J]; [eauto|].
    apply in_map_iff in J. destruct J as (y & E & _). discriminate E.
  - destruct (handler_of c code w) as [[h|h]|]; try exact W. cbn [p_tasks p_log].
    intros j x J. apply in_app_or in J. destruct J as [J|[J|[]]]; [eauto|discriminate J].
  - destruct (pstep_handle n w ts g) as [->|(c0 & code0 & b0 & l0 & cbs & _ & _ & ->)]; [exact W|]. cbn [p_tasks p_log].
    intros j x J. apply in_app_or in J. destruct J as [J|[J|[]]]; [eauto|discriminate J].
Qed.
Lemma within_run n es : forall P, within P -> within (prun n P es).
Proof. induction es as [|e es IH]; intros P W; [exact W|]. apply IH, within_step, W. Qed.
Lemma within_own P i : within P -> (List.length (p_tasks P) <= i)%nat -> own i (p_log P) = [].
Proof.
  intros W L. assert (N : forall e, ~ In (By i e) (p_log P)) by (intros e J; apply W in J; lia).
  revert N. generalize (p_log P) as g. clear. intros g N. induction g as [|x g IH]; [reflexivity|].
  cbn [own flat_map]. destruct x as [j c d|j e|e|c code b|c code b cbs]; cbn [app]; try (apply IH; intros y J; apply (N y); right; exact J).
  destruct (Nat.eqb_spec j i) as [->|D]; [destruct (N e); left; reflexivity|]. apply IH. intros y J. apply (N y). right. exact J.
Qed.

Section Run.
  Variables (U : world -> Prop) (n : nat) (c : api_call) (w0 : world) (i : nat).
  Definition travels (P : pool) : Prop := exists m, nth_error (p_tasks P) i = Some m /\ path U (tperform n c) w0 (own i (p_log P)) m.
  Lemma travels_step P e : U (p_world P) -> travels P -> travels (pstep n P e).
  Proof.
    intros J (m & N & T). destruct P as [w ts g]. unfold travels in *. cbn [p_world p_tasks p_log] in *.
    assert (L : (i < List.length ts)%nat) by (apply nth_error_Some; congruence).
    destruct e as [c'|j k clk|j|c'|c' code b|]; [cbn [pstep p_world p_tasks p_log]..|].
    - destruct (advance (tperform n c') w) as [[t w'] m']. cbn [p_tasks p_log]. exists m. split; [rewrite nth_error_app1 by exact L; exact N|].
      change (Started (List.length ts) c' (w_data w) :: map (By (List.length ts)) t) with ([Started (List.length ts) c' (w_data w)] ++ map (By (List.length ts)) t).
      rewrite !own_app, own_other by lia. cbn [own flat_map app]. rewrite app_nil_r. exact T.
    - assert (Own : forall kd m0 t w' m', (kd = k -> nth_error ts j = Some m0 -> j = i -> path U (tperform n c) w0 (own i g ++ Got (mkResp kd [] None clk) :: t) m') -> kd = k -> nth_error ts j = Some m0 ->
        exists m1, nth_error (p_tasks (mkPool w' (lset j m' ts) (g ++ [By j (Got (mkResp kd [] None clk))] ++ map (By j) t))) i = Some m1 /\
          path U (tperform n c) w0 (own i (p_log (mkPool w' (lset j m' ts) (g ++ [By j (Got (mkResp kd [] None clk))] ++ map (By j) t)))) m1).
      { intros kd m0 t w' m' Q -> Nj. cbn [p_tasks p_log]. destruct (Nat.eq_dec j i) as [->|D].
        + exists m'. split; [eapply nth_lset_eq, N|]. rewrite !own_app, own_by. cbn [own flat_map app]. rewrite Nat.eqb_refl. apply Q; auto.
        + exists m. split; [rewrite nth_lset_ne by congruence; exact N|]. rewrite !own_app, own_other by congruence. cbn [own flat_map app].
          replace (Nat.eqb j i) with false by (symmetry; apply Nat.eqb_neq; exact D). rewrite !app_nil_r. exact T. }
      destruct (nth_error ts j) as [[| | |e0 k0|k0 x0]|] eqn:Nj; try (exists m; split; assumption).
      + destruct (fits e0 k) eqn:F; [|exists m; split; assumption]. destruct (advance _ _) as [[t w'] m'] eqn:A.
        eapply Own; [|reflexivity|reflexivity]. intros _ _ ->. rewrite N in Nj. injection Nj as ->. eapply path_resume; eassumption.
      + destruct k; try (exists m; split; assumption). destruct (advance _ _) as [[t w'] m'] eqn:A.
        eapply Own; [|reflexivity|reflexivity]. intros _ _ ->. rewrite N in Nj. injection Nj as ->. eapply path_cancel; eassumption.
    - destruct (nth_error ts j) as [[| | | |k0 x0]|] eqn:Nj; try (exists m; split; assumption).
      destruct (advance _ _) as [[t w'] m'] eqn:A. cbn [p_tasks p_log]. destruct (Nat.eq_dec j i) as [->|D].
      + rewrite N in Nj. injection Nj as ->. exists m'. split; [eapply nth_lset_eq, N|]. cbn [app]. rewrite !own_app, own_by.
        eapply path_enter; eassumption.
      + exists m. split; [rewrite nth_lset_ne by congruence; exact N|]. cbn [app]. rewrite !own_app, own_other by congruence. rewrite app_nil_r. exact T.
    - destruct (lose c' w) as [t w']. cbn [p_tasks p_log]. exists m. split; [exact N|]. rewrite own_app, own_env, app_nil_r. exact T.
    - destruct (handler_of c' code w) as [[h|h]|]; try (exists m; split; assumption).
      cbn [p_tasks p_log]. exists m. split; [exact N|]. rewrite own_app. cbn. rewrite app_nil_r. exact T.
    - destruct (pstep_handle n w ts g) as [->|(c0 & code0 & b0 & l0 & cbs & _ & _ & ->)]; [exists m; split; assumption|].
      cbn [p_tasks p_log]. exists m. split; [exact N|]. rewrite own_app. cbn. rewrite app_nil_r. exact T.
  Qed.
End Run.

(** * once attached, the client manager stays attached to some connection, and its id is fixed *)
Definition has (id : Z) (w : world) : Prop := m_proto (w_cm w) <> None /\ m_id (w_cm w) = id.
Definition had (w w' : world) : Prop := forall id, has id w -> has id w'.
Lemma had_keeps : keeps had.
Proof.
  split; [intros w id H; exact H|]. split; [intros a b c A B id H; auto|]. split.
  - intros f w P. destruct P; cbn [snd]; try (intros id K; exact K).
    + intros id (K1 & K2). cbn. split; cbn [put_cm set_cm w_cm]; [apply H0, K1|rewrite H; exact K2].
    + generalize (codes w). intros l. revert w. induction l as [|x l IH]; intros w; cbn [fold_left]; [intros id K; exact K|]. intros id K. apply IH. exact K.
    + unfold lose. destruct (connected c w); intros id K; exact K.
    + destruct (f w); intros id K; exact K.
    + unfold store_pump. destruct (dget K_PUMPS (w_last w)) as [[]|]; intros id K; exact K.
  - split; [intros w id H; exact H|]. split; [intros w id H; exact H|]. split; intros ? w id H; exact H.
Qed.

(** the task of a call made in the pool [P0]: its number is the number of the tasks there *)
Lemma call_path n id P0 c eb : within P0 -> all_made P0 -> has id (p_world P0) ->
  travels (has id) n c (p_world P0) (List.length (p_tasks P0)) (prun n P0 (Call c :: eb)).
Proof.
  intros W M H. cbn [prun fold_left]. change (fold_left (pstep n) eb) with (fun p => prun n p eb). cbn beta.
  pose proof (pstep_made had had_keeps n P0 (Call c) M) as (R & M1). specialize (R id H).
  assert (T : travels (has id) n c (p_world P0) (List.length (p_tasks P0)) (pstep n P0 (Call c))).
  { destruct P0 as [w ts g]. cbn [pstep p_world p_tasks p_log] in *. destruct (advance (tperform n c) w) as [[t w'] m] eqn:A. exists m. cbn [p_tasks p_log].
    split; [rewrite nth_error_app2, Nat.sub_diag by lia; reflexivity|].
    change (Started (List.length ts) c (w_data w) :: map (By (List.length ts)) t) with ([Started (List.length ts) c (w_data w)] ++ map (By (List.length ts)) t).
    rewrite !own_app, own_by. pose proof (within_own _ (List.length ts) W (Nat.le_refl _)) as E. cbn [p_log] in E. rewrite E. cbn [own flat_map app].
    eapply path_start. exact A. }
  revert T R M1. generalize (pstep n P0 (Call c)) as P. intros P T R M1. clear - T R M1.
  revert P T R M1. induction eb as [|e eb IH]; intros P T R M1; [exact T|]. cbn [prun fold_left].
  change (fold_left (pstep n) eb (pstep n P e)) with (prun n (pstep n P e) eb). pose proof (pstep_made had had_keeps n P e M1) as (R' & M').
  apply IH; [|exact (R' id R)|exact M']. apply travels_step; assumption.
Qed.

(** * one request without retries, whose failure is swallowed *)
Definition swallowed (X : Z) (q : res bytes) (c : nat) : task unit := tcatch (tcommand_request X q 0 c) is_comm_error (fun _ => tret tt).
(** where it stands *)
Definition stands (X : Z) (p : bytes) (c : nat) (t : trace) (m : task unit) : Prop :=
  (m = Done (Val tt) /\ asked_once c X p t /\ answered_all t) \/
  exists s k, (s = [] \/ s = [Send c X p]) /\ t = s ++ [AwaitReply c 2000] /\ m = Wait (AwaitReply c 2000) k /\
    forall kd w, fits (AwaitReply c 2000) kd = true -> exists w', advance (k kd) w = ([], w', Done (Val tt)).
Lemma advance_fin (m : task unit) (f : world -> world) : forall w t w' m', advance m w = (t, w', m') ->
  match m' with
  | Done (Stuck y) => advance (tfinally m f) w = (t, w', Done (Stuck y))
  | Done o => advance (tfinally m f) w = (t, f w', Done o)
  | _ => advance (tfinally m f) w = (t, w', tfinally m' f)
  end.
Proof.
  induction m as [[a|e|y]|k IH|q k IH|e k IH|k IH xx IHx]; intros w t w' m' E; cbn [advance tfinally] in *; try (injection E as <- <- <-; reflexivity).
  - apply IH, E.
  - destruct (q w) as [t1 w1]. destruct (advance k w1) as [[t2 w2] m2] eqn:E2. injection E as <- <- <-. specialize (IH _ _ _ _ E2).
    destruct m2 as [[a|e|y]| | | |]; rewrite IH; reflexivity.
  - destruct (m_locked (w_cm w)); [injection E as <- <- <-; reflexivity|]. apply IH, E.
Qed.
Lemma stands_fin X p c (m : task unit) (f : world -> world) w t w' m' : advance m w = (t, w', m') -> stands X p c t m' ->
  exists w'' m'', advance (tfinally m f) w = (t, w'', m'') /\ stands X p c t m''.
Proof.
  intros E S. pose proof (advance_fin m f w t w' m' E) as F. destruct S as [(-> & S)|(s & k & Hs & Ht & -> & K)].
  - exists (f w'), (Done (Val tt)). split; [exact F|left; auto].
  - cbn [tfinally] in F. exists w'. eexists. split; [exact F|]. right. exists s. eexists. split; [exact Hs|]. split; [exact Ht|]. split; [reflexivity|].
    intros kd w0 Fk. destruct (K kd w0 Fk) as (w1 & E1). pose proof (advance_fin (k kd) f w0 _ _ _ E1) as F1. eexists. exact F1.
Qed.
Lemma swallowed_runs X p c w : (exists b, makeMessage 0 X p = Ok b) ->
  exists t w' m, advance (swallowed X (Ok p) c) w = (t, w', m) /\ stands X p c t m.
Proof.
  intros (b & HB). unfold swallowed, tcommand_request, tmake_request. change (Z.to_nat (0 + 1)) with 1%nat. cbn [trequest_loop tlift tbind tret tget tcatch advance].
  destruct (connected c w) eqn:C; cbn [negb tbind tcatch advance traise].
  2: { exists [], w, (Done (Val tt)). split; [reflexivity|]. left. split; [reflexivity|]. split; left; reflexivity. }
  cbn [tget tbind tcatch advance]. destruct (c_closing (get_conn c w)); cbn [tget tbind tcatch advance].
  { rewrite C. cbn. exists [], w, (Done (Val tt)). split; [reflexivity|]. left. split; [reflexivity|]. split; left; reflexivity. }
  set (K := fun r : kind => match r with KReply rc b0 | KTimeoutReply rc b0 => _ | KTimeout => _ | KCancelFut | KCancelTask => _ | KDone | KOSError => _ end).
  assert (KK : forall kd w0, fits (AwaitReply c 2000) kd = true ->
    exists w1, advance (tcatch (tbind (tbind (twait (AwaitReply c 2000)) K) (fun r => match r with Some [] => tret tt | _ => traise ESLResponse end)) is_comm_error (fun _ => tret tt)) w0
     = ([AwaitReply c 2000], w0, Wait (AwaitReply c 2000) (fun r => tcatch (tbind (K r) (fun r => match r with Some [] => tret tt | _ => traise ESLResponse end)) is_comm_error (fun _ => tret tt)))
      /\ advance (tcatch (tbind (K kd) (fun r => match r with Some [] => tret tt | _ => traise ESLResponse end)) is_comm_error (fun _ => tret tt)) w0 = ([], w1, Done (Val tt))).
  { intros kd w0 F. exists w0. split; [reflexivity|]. unfold K. destruct kd as [rc b0| |rc b0| | | |]; try discriminate F; cbn [Z.eqb].
    - destruct (rc =? X + 1); [destruct b0; reflexivity|]. destruct (rc =? CODE_ERROR_LOGIN_REJECTED); [reflexivity|]. destruct (_ || _); reflexivity.
    - reflexivity.
    - destruct (rc =? X + 1); [destruct b0; reflexivity|]. destruct (rc =? CODE_ERROR_LOGIN_REJECTED); [reflexivity|]. destruct (_ || _); reflexivity.
    - cbn. destruct (connected c w0); reflexivity.
    - cbn. destruct (connected c w0); reflexivity. }
  clearbody K. unfold tsend. cbn [tget tbind tcatch advance].
  rewrite HB. destruct (c_open (get_conn c w)) eqn:O.
  - cbn -[get_conn]. rewrite ?O. cbn -[get_conn]. eexists _, w, _. split; [reflexivity|]. right. eexists [Send c X p], _. split; [auto|]. split; [reflexivity|]. split; [reflexivity|].
    intros kd w0 F. destruct (KK kd w0 F) as (w1 & _ & E). exists w1. exact E.
  - cbn -[get_conn]. rewrite ?O. cbn -[get_conn]. eexists _, w, _. split; [reflexivity|]. right. eexists [], _. split; [auto|]. split; [reflexivity|]. split; [reflexivity|].
    intros kd w0 F. destruct (KK kd w0 F) as (w1 & _ & E). exists w1. exact E.
Qed.

Lemma ping_path U n w c : m_proto (w_cm w) = Some c -> forall t m, path U (tperform n Ping) w t m -> stands 16 [] c t m.
Proof.
  intros PR t m T. induction T as [t w' m' A|t e k kd clk w1 t' w' m' T IH F J A|t k x w1 t' w' m' T IH J A|t k x clk w1 t' w' m' T IH J A].
  - cbn [tperform] in A. unfold tasync_ping, tm_proto_or_fail in A. cbn [tget tbind tcatch advance] in A. rewrite PR in A. cbn [tbind tret tcatch advance] in A.
    destruct (swallowed_runs 16 [] c w) as (t1 & w1 & m1 & E & S); [eexists; vm_compute; reflexivity|].
    unfold swallowed in E. change CODE_PING_QUERY with 16 in A. assert (AE : (t1, w1, m1) = (t, w', m')) by (rewrite <- E; exact A). clear A. rename AE into A. injection A as <- _ <-. exact S.
  - destruct IH as [(E & _)|(s & k' & Hs & -> & E & K)]; [discriminate E|]. injection E as -> ->. destruct (K kd (set_clock clk (opened_by (AwaitReply c 2000) kd w1)) F) as (w2 & E2).
    rewrite E2 in A. injection A as <- _ <-. left. split; [reflexivity|]. split; [|right; eexists _, _; reflexivity]. right. exists s. split; [exact Hs|]. right. eexists. rewrite <- app_assoc. reflexivity.
  - destruct IH as [(E & _)|(s & k' & Hs & -> & E & K)]; discriminate E.
  - destruct IH as [(E & _)|(s & k' & Hs & -> & E & K)]; discriminate E.
Qed.

(** the task that unregisters: it may also wait for the lock *)
Definition leave : task unit := tfinally
     (tbind (tget (fun w => m_is_client (w_cm w))) (fun b => if b then
       tbind (tdo (put_cm (cmset_client false))) (fun _ => tbind tm_proto_or_fail (fun c =>
       tbind (tdo (keepalive false c)) (fun _ => tbind (tdo (unregister_all c)) (fun _ =>
       tremove_client)))) else tret tt)) (put_cm (cmset_locked false)).
Lemma unsubscribe_eq w : advance tunsubscribe_gateway w = if negb (attached w) then ([], w, Done (Val tt)) else advance (Lock leave (traise ECancelled)) w.
Proof. unfold tunsubscribe_gateway, twith_lock, leave. cbn [tget tbind advance]. destruct (negb (attached w)) eqn:E; cbn [tget tret tbind advance]; rewrite E; reflexivity. Qed.
Lemma unregister_path n id w p : pack_Is [VInt 0; VInt id] = Ok p -> (exists b, makeMessage 0 12524 p = Ok b) -> has id w ->
  forall t m, path (has id) (tperform n Unregister) w t m ->
  (t = [] /\ exists k, m = Lock k (traise ECancelled) /\ forall w1, has id w1 -> exists c t1 w2 m1, advance k w1 = (t1, w2, m1) /\ stands 12524 p c t1 m1) \/
  (m = traise ECancelled /\ exists r, r_kind r = KCancelTask /\ t = [Got r]) \/
  exists c, stands 12524 p c t m.
Proof.
  intros PK MK H.
  assert (B : forall w1, has id w1 -> exists c t1 w2 m1, advance leave w1 = (t1, w2, m1) /\ stands 12524 p c t1 m1).
  { intros w1 (H1 & H2). destruct (m_proto (w_cm w1)) as [c|] eqn:PR; [|destruct H1; reflexivity].
    unfold leave. set (body := tbind _ _).
    assert (Bd : exists t1 w2 m1, advance body w1 = (t1, w2, m1) /\ stands 12524 p c t1 m1).
    { unfold body. cbn [tget tbind advance]. destruct (m_is_client (w_cm w1)).
      - unfold tm_proto_or_fail, tremove_client. cbn [tdo tget tbind tret tcatch advance app].
        set (w2 := put_cm (cmset_client false) w1). assert (P2 : m_proto (w_cm w2) = Some c) by exact PR. rewrite P2. cbn [tdo tbind tret tget tcatch advance].
        set (w3 := unregister_all c (keepalive false c w2)). unfold tm_proto_or_fail. cbn [tget tbind tcatch advance]. assert (P3 : m_proto (w_cm w3) = Some c) by exact PR. rewrite P3. cbn [tbind tret tget tcatch advance].
        assert (I3 : m_id (w_cm w3) = id) by exact H2. rewrite I3, PK. destruct (swallowed_runs 12524 p c w3 MK) as (t1 & w4 & m1 & E & S).
        unfold swallowed in E. change CODE_REMOVE_CLIENT_QUERY with 12524. exists t1, w4, m1. split; [|exact S]. rewrite E. reflexivity.
      - cbn [tret advance]. exists [], w1, (Done (Val tt)). split; [reflexivity|]. left. split; [reflexivity|]. split; left; reflexivity. }
    destruct Bd as (t1 & w2 & m1 & E & S). destruct (stands_fin _ _ _ _ (put_cm (cmset_locked false)) _ _ _ _ E S) as (w3 & m3 & E3 & S3). exists c, t1, w3, m3. auto. }
  intros t m T. induction T as [t w' m' A|t e k kd clk w1 t' w' m' T IH F J A|t k x w1 t' w' m' T IH J A|t k x clk w1 t' w' m' T IH J A].
  - cbn [tperform] in A. rewrite unsubscribe_eq in A. destruct (negb (attached w)).
    + injection A as <- _ <-. right. right. exists 0%nat. left. split; [reflexivity|]. split; left; reflexivity.
    + cbn [advance] in A. destruct (m_locked (w_cm w)).
      * injection A as <- _ <-. left. split; [reflexivity|]. eexists. split; [reflexivity|]. intros w1 H1. apply B, H1.
      * destruct (B (put_cm (cmset_locked true) w) H) as (c & t1 & w2 & m1 & E & S). assert (AE : (t1, w2, m1) = (t, w', m')) by (rewrite <- E; exact A). injection AE as <- _ <-. right. right. exists c. exact S.
  - destruct IH as [(-> & k0 & E & _)|[(E & _)|(c & IH)]]; [discriminate E|discriminate E|]. right. right. exists c.
    destruct IH as [(E & _)|(s & k' & Hs & -> & E & K)]; [discriminate E|]. injection E as -> ->. destruct (K kd (set_clock clk (opened_by (AwaitReply c 2000) kd w1)) F) as (w2 & E2).
    rewrite E2 in A. injection A as <- _ <-. left. split; [reflexivity|]. split; [|right; eexists _, _; reflexivity]. right. exists s. split; [exact Hs|]. right. eexists. rewrite <- app_assoc. reflexivity.
  - destruct IH as [(-> & k0 & E & K)|[(E & _)|(c & IH)]].
    + injection E as -> ->. cbn [advance app] in *. destruct (m_locked (w_cm w1)).
      * injection A as <- _ <-. left. split; [reflexivity|]. exists k0. auto.
      * destruct (K (put_cm (cmset_locked true) w1) J) as (c & t1 & w2 & m1 & E & S). rewrite E in A. injection A as <- _ <-. right. right. exists c. exact S.
    + discriminate E.
    + destruct IH as [(E & _)|(s & k' & Hs & -> & E & K)]; discriminate E.
  - destruct IH as [(-> & k0 & E & K)|[(E & _)|(c & IH)]]; [|discriminate E|].
    + injection E as -> ->. cbn in A. injection A as <- _ <-. right. left. split; [reflexivity|]. eexists. split; [|reflexivity]. reflexivity.
    + destruct IH as [(E & _)|(s & k' & Hs & -> & E & K)]; discriminate E.
Qed.
