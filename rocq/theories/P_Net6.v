(** After a loss: the cleanup task has run, nothing stays pending. *)
From Verif Require Import Py F64 Struct Utf Utility Const Spec Enum Decode Messages Calls World Request Gateway Traces Paths Api Tasks Pool SpecPool Net SpecNet P_Base P_Util.
From Verif Require Import P_Net1 P_Net2 P_Net3 P_Net4 P_Net5.
From Verif Require Protocol P_Proto1 P_Proto2 P_Proto3 P_Pool P_Pool2 Prop_Pool.
Import Protocol(pstate, pevent, OutRequest, OutWrite, OutCompleted).

Definition cleared (c : nat) (N : net) : Prop :=
  exists s, nth_error (n_links N) c = Some s /\ Protocol.p_transport s = Protocol.TGone /\ Protocol.p_lost_tasks s = 0%nat.
Lemma cleared_feed c c' e N : tells e = true -> cleared c N -> cleared c (feed c' e N).
Proof.
  intros T (s & E & G & Z). unfold feed, cleared. destruct (nth_error (n_links N) c') as [s'|] eqn:E'; [|eauto]. cbn [n_links].
  rewrite nth_error_lset. destruct (Nat.eqb_spec c c') as [->|NE]; [|eauto]. rewrite E in E'. injection E' as <-. rewrite E. eexists. split; [reflexivity|].
  split; [apply gone_stays; assumption|]. rewrite (tasks_step s e T), Z. destruct e; auto. unfold P_Proto3.up. rewrite G. reflexivity.
Qed.
Lemma cleared_hear c x N : cleared c N -> cleared c (hear N x).
Proof.
  intros K. assert (K1 : cleared c (note (Api x) N)) by exact K. unfold hear. destruct x as [|i []|[]| |]; try exact K1; try (apply cleared_feed; [reflexivity|exact K1]).
Qed.
Lemma cleared_move n c e N : cleared c N -> cleared c (move n e N).
Proof.
  intros K. unfold move. match goal with |- cleared c (fold_left hear ?l ?x) => generalize l as xs; assert (K1 : cleared c x); [|revert K1; generalize x as N0] end.
  - destruct K as (s & E & G). exists s. split; [|exact G]. cbn [n_links]. rewrite nth_error_app1; [exact E|]. apply nth_error_Some. congruence.
  - intros N0 K1 xs. revert N0 K1. induction xs as [|x xs IH]; intros N0 K1; [exact K1|]. cbn [fold_left]. apply IH, cleared_hear, K1.
Qed.
Lemma cleared_step n c N e : cleared c N -> cleared c (nstep n N e).
Proof.
  intros K. destruct e; cbn [nstep]; auto using cleared_move.
  - destruct (awaits i N) as [[]|]; auto using cleared_move.
  - destruct (nth_error (n_links N) c0) as [s|]; [|exact K]. destruct (takes_bytes s); [|exact K].
    assert (K1 : cleared c (feed c0 (Protocol.EvData b) (note (Came c0 b) N))) by (apply cleared_feed; [reflexivity|exact K]).
    revert K1. generalize (feed c0 (Protocol.EvData b) (note (Came c0 b) N)) as N0. match goal with |- context [fold_left _ ?l _] => generalize l as os end.
    induction os as [|o os IH]; intros N0 K1; [exact K1|]. cbn [fold_left]. apply IH. destruct o; auto. cbn [shove]. apply cleared_move. unfold tell. destruct (handler_of _ _ _) as [[]|]; exact K1.
  - apply cleared_feed; [reflexivity|exact K].
  - destruct (n_slot N i) as [|c1 f []|]; auto. change (cleared c (feed c1 (Protocol.EvCancel f) N)). apply cleared_feed; [reflexivity|exact K].
  - destruct (n_slot N i) as [|c1 f x|c1 j].
    + destruct (awaits i N) as [[]|], (queues i N); auto using cleared_move.
    + change (cleared c (feed c1 (Protocol.EvCancel f) N)). apply cleared_feed; [reflexivity|exact K].
    + apply cleared_feed; [reflexivity|exact K].
  - destruct (n_slot N i) as [|c1 f x|c1 j]; destruct (awaits i N) as [[]|]; auto.
    + destruct (Protocol.p_closed _); auto using cleared_move.
    + destruct (Protocol.fget _ _), x; auto using cleared_move.
    + destruct (nth j _ _); auto. destruct (Protocol.gather_done _ _); auto. apply cleared_move, cleared_feed; [reflexivity|exact K].
Qed.
Lemma cleared_run n c : forall es N, cleared c N -> cleared c (nrun n N es).
Proof. induction es as [|e es IH]; intros N K; [exact K|]. cbn [nrun fold_left]. apply IH, cleared_step, K. Qed.

Section Run.
  Variables (n : nat) (cid mr : option Z) (rnd : Z) (h : host) (w0 : world).
  Hypothesis W0 : new_gateway cid mr rnd [] h = Ok w0.
  Lemma cleared_now N c x : whole n w0 N -> In x (apis (n_log N)) -> is_lost c x -> cleared c (nstep n N (NLostTask c)).
  Proof.
    intros (G & _) J L. destruct (ran_of n cid mr rnd h w0 W0 _ _ G) as (es & RN). destruct (Prop_Pool.ran_inv _ _ _ _ _ _ _ RN) as (ID & _).
    assert (J' : In x (p_log (n_pool N))) by (rewrite <- (G_log _ _ _ _ G), app_nil_r; exact J). pose proof (P_Pool2.I_lostk _ _ _ _ _ ID c x J' L) as Lt. rewrite <- (G_len _ _ _ _ G) in Lt.
    destruct (nth_error (n_links N) c) as [s|] eqn:E; [|apply nth_error_None in E; lia]. pose proof (proj1 (G_wired _ _ _ _ G) _ _ E) as K. pose proof (L_lost _ _ _ K x J L) as Gn.
    cbn [nstep]. unfold feed. rewrite E. eexists. cbn [n_links]. rewrite nth_error_lset, Nat.eqb_refl, E. split; [reflexivity|]. split; [apply gone_stays; [reflexivity|exact Gn]|].
    rewrite tasks_step by reflexivity. destruct (proj2 (L_rest _ _ _ K) Gn) as (B & _). lia.
  Qed.
  (** how a wait ends that was disturbed like this *)
  Definition ended_by (x : hit) (k : kind) : Prop :=
    match x with
    | Fair => k = KCancelFut \/ exists X b, k = KReply X b
    | TimedOut => k = KTimeout \/ exists X b, k = KTimeoutReply X b
    | Cancelled => k = KCancelTask
    end.
  Lemma just_answers (N N' : net) i c : (exists f x r t, n_slot N i = ForReply c f x /\ ended_by x (r_kind r) /\ own i (apis (n_log N')) = own i (apis (n_log N)) ++ Got r :: t) ->
    exists r t, own i (apis (n_log N')) = own i (apis (n_log N)) ++ Got r :: t.
  Proof. intros (f & x & r & t & _ & _ & E). eauto. Qed.
  Lemma answers N i c ms clk : whole n w0 N -> awaits i N = Some (AwaitReply c ms) ->
    (forall s f x, nth_error (n_links N) c = Some s -> n_slot N i = ForReply c f x -> lk c s (n_log N) -> (f < List.length (Protocol.p_futs s))%nat -> Protocol.fget f (Protocol.p_futs s) <> Protocol.FPending) ->
    exists f x r t, n_slot N i = ForReply c f x /\ ended_by x (r_kind r) /\ own i (apis (n_log (nstep n N (NResume i clk)))) = own i (apis (n_log N)) ++ Got r :: t.
  Proof.
    intros Wh A Dn. pose proof Wh as (G & S). unfold awaits in A. destruct (nth_error (p_tasks (n_pool N)) i) as [[ | | |y k| ]|] eqn:T; try discriminate A. injection A as ->.
    destruct (proj2 (S i) _ _ _ T) as (f & x & Sl).
    assert (NP : Protocol.fget f (Protocol.p_futs (link c N)) <> Protocol.FPending).
    { intros P. unfold link in P. destruct (nth_error (n_links N) c) as [s|] eqn:E.
      - rewrite (nth_error_nth _ _ _ E) in P. apply (Dn s f x eq_refl Sl (proj1 (G_wired _ _ _ _ G) _ _ E)); [|exact P].
        destruct (Nat.lt_ge_cases f (List.length (Protocol.p_futs s))); [assumption|]. unfold Protocol.fget in P. rewrite nth_overflow in P by assumption. discriminate P.
      - apply nth_error_None in E. rewrite nth_overflow in P by exact E. destruct f; discriminate P. }
    assert (Mv : forall kd, fits (AwaitReply c ms) kd = true -> whole n w0 (move n (Resume i kd clk) N) ->
      ended_by x kd ->
      exists f x r t, n_slot N i = ForReply c f x /\ ended_by x (r_kind r) /\ own i (apis (n_log (move n (Resume i kd clk) N))) = own i (apis (n_log N)) ++ Got r :: t).
    { intros kd F (G' & _) EB. exists f, x, (mkResp kd [] None clk). assert (Pm : n_pool (move n (Resume i kd clk) N) = Pool.pstep n (n_pool N) (Resume i kd clk)).
      { unfold move. match goal with |- n_pool (fold_left hear ?l ?x) = ?P => generalize l as xs; assert (K1 : n_pool x = P) by reflexivity; revert K1; generalize x as N0; generalize P as P0 end.
        intros P0 N0 K1 xs. revert N0 K1. induction xs as [|y xs IH]; intros N0 K1; [exact K1|]. cbn [fold_left]. apply IH. rewrite <- K1. clear.
        unfold hear. destruct y as [|j []|[]| |]; try reflexivity; unfold feed; cbn [note n_links]; destruct (nth_error _ _); reflexivity. }
      pose proof (G_log _ _ _ _ G') as L'. rewrite app_nil_r in L'. rewrite L', Pm. pose proof (G_log _ _ _ _ G) as L. rewrite app_nil_r in L. rewrite L.
      cbn [Pool.pstep]. rewrite T, F. destruct (advance _ _) as [[t w'] m]. cbn [p_log]. rewrite own_app. cbn. rewrite Nat.eqb_refl. eexists. split; [exact Sl|]. split; [exact EB|]. reflexivity. }
    pose proof (step_whole n cid mr rnd h w0 W0 N (NResume i clk) Logic.I Wh) as Wh'. cbn [nstep] in *. unfold awaits in *. rewrite T, Sl in *.
    destruct (Protocol.fget f (Protocol.p_futs (link c N))) as [|m|]; [congruence| |]; destruct x; apply Mv; auto; cbn [ended_by]; eauto.
  Qed.
  Lemma resumes N c i ms clk : whole n w0 N -> cleared c N -> awaits i N = Some (AwaitReply c ms) -> (Z.of_nat (List.length (sent c (n_log N))) <= 32767) ->
    exists r t, own i (apis (n_log (nstep n N (NResume i clk)))) = own i (apis (n_log N)) ++ Got r :: t.
  Proof.
    intros Wh (s & E & Gn & Z) A Ln. eapply just_answers, answers; [exact Wh|exact A|]. intros s' f x E' _ K Lf P. rewrite E in E'. injection E' as <-.
    destruct (proj2 (L_rest _ _ _ K) Gn) as (_ & B). apply (B Z f Lf P). intros g Lg. rewrite (L_futs _ _ _ K) in *. clear - Lg Ln. rewrite !Z.mod_small; lia.
  Qed.
End Run.
