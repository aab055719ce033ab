(** C120, C121, for each call by itself: other calls may be made without end. *)
From Verif Require Import Py F64 Struct Utf Utility Const Enum Decode Messages World Request Gateway Api Tasks Pool SpecPool SpecTerm P_Base P_Moves P_Path P_Term P_Each.
From Verif Require P_Dead P_Lock Hostile Prop_Decode.
From Verif Require Import Prop_Pool Prop_Keep Prop_Term.

Lemma path_rest {U} (m : task unit) w0 t m' : path U m w0 t m' -> rest m'.
Proof. intros T. destruct T as [t w' m' E|t e k kd clk w t' w' m' T F J E|t k x w t' w' m' T J E|t k x clk w t' w' m' T J E]; eapply advance_rest, E. Qed.
Lemma start_path n w : within (start w) /\ on_path n (start w) /\ counted (start w).
Proof. split; [intros i e []|]. split; [intros [|i] m N; discriminate N|intros i; cbn; lia]. Qed.
Lemma counted_run n es : forall P, all_made P -> within P -> on_path n P -> counted P -> counted (prun n P es).
Proof.
  induction es as [|e es IH]; intros P M W O C; [exact C|]. cbn. change (fold_left (pstep n) es) with (fun p => prun n p es). cbn beta.
  apply IH; [exact (proj2 (pstep_made _ goes_keeps n P e M))|apply within_step, W|apply on_path_step; assumption|apply counted_step; assumption].
Qed.
Lemma ran_path n id mr rnd h es P : ran n id mr rnd h es = Some P -> within P /\ on_path n P /\ counted P.
Proof.
  unfold ran. destruct (new_gateway id mr rnd [] h) as [w|]; [|discriminate]. intros E. injection E as <-. destruct (start_path n w) as (W & O & C).
  split; [apply within_run, W|]. split; [apply on_path_run; assumption|]. apply counted_run; try assumption. apply start_made.
Qed.
Lemma ran_later n id mr rnd h es P E k : ran n id mr rnd h es = Some P -> ran n id mr rnd h (es ++ map E (seq 0 k)) = Some (later n P E k).
Proof. intros R. rewrite later_run. apply ran_app, R. Qed.
Lemma rest_later n id mr rnd h es P E i : ran n id mr rnd h es = Some P -> forall k t, nth_error (p_tasks (later n P E k)) i = Some t -> rest t.
Proof. intros R k t N. destruct (ran_path _ _ _ _ _ _ _ (ran_later _ _ _ _ _ _ _ E k R)) as (_ & O & _). destruct (O _ _ N) as (c & w0 & T). eapply path_rest, T. Qed.
Lemma task_there P i : (i < List.length (p_tasks P))%nat -> exists m, nth_error (p_tasks P) i = Some m.
Proof. intros L. destruct (nth_error (p_tasks P) i) eqn:N; [eauto|]. apply nth_error_None in N. lia. Qed.
Lemma ends_well n id mr rnd h es P E k i o : ran n id mr rnd h es = Some P -> (completed (own i (p_log (later n P E k))) < n)%nat ->
  nth_error (p_tasks (later n P E k)) i = Some (Done o) -> finished (Done o).
Proof.
  intros R L N. destruct n as [|m]; [lia|]. destruct (ran_path _ _ _ _ _ _ _ (ran_later _ _ _ _ _ _ _ E k R)) as (_ & O & _). destruct (O _ _ N) as (c & w0 & T).
  pose proof (path_sturdy _ _ _ _ _ _ T ltac:(lia)) as S. cbn [sturdy] in S. destruct o as [r|x|y]; [exists r; auto|exists tt; right; eauto|destruct (S y eq_refl)].
Qed.

(** C120, for one call. Every wait comes to an end, and the lock goes to everyone who waits for
    it. Then each call that is ever made is over in the end, or waits for a lock that is never
    released again (C68). Other calls may go on being made for ever; only this one must not open
    connection after connection. *)
Theorem C120_each n id mr rnd h es P E k0 i : ran n id mr rnd h es = Some P -> waits_end n P E -> lock_served n P E ->
  (i < List.length (p_tasks (later n P E k0)))%nat -> (forall k, (completed (own i (p_log (later n P E k))) < n)%nat) ->
  exists K, (exists t, finished t /\ forall k, (K <= k)%nat -> nth_error (p_tasks (later n P E k)) i = Some t) \/
            (forall k, (K <= k)%nat -> held (later n P E k) /\ exists t, nth_error (p_tasks (later n P E k)) i = Some t /\ queued t).
Proof.
  intros R WE LF L C. destruct (task_there _ i L) as (m & N).
  destruct (rests n P E i WE LF (rest_later _ _ _ _ _ _ _ E i R) m k0 N) as (K & [(o & D)|(f & x & D)]); exists K; [left|right].
  - exists (Done o). split; [|exact D]. eapply ends_well; [exact R|apply C|apply D, Nat.le_refl].
  - intros k LK. destruct (D k LK) as (D1 & D2). split; [exact D2|]. exists (Lock f x). split; [exact D1|exists f, x; reflexivity].
Qed.
Print Assumptions C120_each.

(** C121, for one call: from a moment at which the lock is free on, and as long as no further
    connection is opened, each call that is ever made is over in the end. *)
Theorem C121_each n id mr rnd h es1 es2 P1 P E k0 i : ran n id mr rnd h es1 = Some P1 -> ~ held P1 -> ran n id mr rnd h (es1 ++ es2) = Some P ->
  (forall k, opens (later n P E k) = opens P1) -> (opens P1 < n)%nat -> waits_end n P E -> lock_served n P E ->
  (i < List.length (p_tasks (later n P E k0)))%nat ->
  exists K t, finished t /\ forall k, (K <= k)%nat -> nth_error (p_tasks (later n P E k)) i = Some t.
Proof.
  intros R1 H1 R OE LN WE LF L.
  assert (CO : forall j k, (completed (own j (p_log (later n P E k))) < n)%nat).
  { intros j k. destruct (ran_path _ _ _ _ _ _ _ (ran_later _ _ _ _ _ _ _ E k R)) as (_ & _ & C). specialize (C j). rewrite OE in C. lia. }
  destruct (C120_each _ _ _ _ _ _ _ _ _ _ R WE LF L (CO i)) as (K & [(t & F & D)|D]); [exists K, t; auto|exfalso].
  assert (U1 : unspoiled P1).
  { destruct (dinv_run _ _ _ _ _ _ _ R1) as (o & DI). exists o. split; [exact DI|]. intros (j & ->). apply H1. exact (P_Dead.D_locked _ _ DI). }
  assert (U : unspoiled (later n P E K)).
  { pose proof (ran_later _ _ _ _ _ _ _ E K R) as RK. rewrite <- app_assoc in RK. eapply unspoiled_run; [exact R1|exact U1|exact RK|apply OE]. }
  assert (HO : forall k o, (K <= k)%nat -> P_Dead.Dinv (later n P E k) o -> o <> None).
  { intros k o LK DI ->. destruct (D k LK) as (HD & _). pose proof (P_Dead.D_locked _ _ DI) as X. unfold P_Lock.locked in X. unfold held in HD. congruence. }
  destruct U as (o & DI & NT). destruct o as [(j, s)|]; [|destruct (HO K None (le_n _) DI eq_refl)].
  assert (All : forall d, exists s', P_Dead.Dinv (later n P E (d + K)) (Some (j, s')) /\ s' <> P_Dead.Taint).
  { intros d. induction d as [|d (s' & DI' & NT')]; [exists s; split; [exact DI|intros ->; apply NT; exists j; reflexivity]|]. cbn [Nat.add later].
    pose proof (ran_later _ _ _ _ _ _ _ E (d + K) R) as RK.
    destruct (P_Dead.Dinv_pstep n _ _ (E (d + K)%nat) (ran_made _ _ _ _ _ _ _ RK) (ran_valid _ _ _ _ _ _ _ RK) DI') as (o' & DI2 & T & HH).
    destruct (HH j s' eq_refl) as [->|(s2 & ->)]; [destruct (HO (S (d + K)) None ltac:(lia) DI2 eq_refl)|].
    exists s2. split; [exact DI2|]. intros ->. destruct T as (j2 & T); [|exists j; reflexivity|injection T as _ T; exact (NT' T)].
    pose proof (OE (S (d + K))) as O1. cbn [later] in O1. rewrite O1, OE. reflexivity. }
  destruct (P_Dead.D_owner _ _ DI j s eq_refl) as (_ & _ & m & NJ & _).
  destruct (rests n P E j WE LF (rest_later _ _ _ _ _ _ _ E j R) m K NJ) as (K2 & RS).
  destruct (All K2) as (s2 & DI2 & NT2). destruct (P_Dead.D_owner _ _ DI2 j s2 eq_refl) as (NO & _ & m2 & NJ2 & HL).
  destruct RS as [(o & RS)|(f & x & RS)].
  - specialize (RS (K2 + K)%nat ltac:(lia)). rewrite NJ2 in RS. injection RS as ->.
    destruct (ends_well _ _ _ _ _ _ _ _ _ _ _ R (CO j (K2 + K)%nat) NJ2) as (r & FN). cbn [P_Dead.hl] in HL.
    destruct HL as [[X|(X & _)]|(y & X)]; [exact (NO X)|exact (NT2 X)|]. destruct FN as [FN|(x & FN)]; rewrite X in FN; discriminate FN.
  - destruct (RS (K2 + K)%nat ltac:(lia)) as (RS1 & _). rewrite NJ2 in RS1. injection RS1 as ->. cbn [P_Dead.hl] in HL. destruct s2; try contradiction.
Qed.
Print Assumptions C121_each.

(** the schedule of C120_nonvacuous, and then one call after the other, without end *)
Definition and_so_on (l : list event) (k : nat) : event := nth k l (Pool.Call (SetMaxRetries 2)).
Fixpoint served (n : nat) (P : pool) (l : list event) (i : nat) : bool :=
  match l with [] => false | e :: l' => (match e with Enter j => Nat.eqb j i && negb (m_locked (w_cm (p_world P))) | _ => false end) || served n (pstep n P e) l' i end.
Fixpoint fair_on (n o : nat) (P : pool) (l : list event) : bool :=
  forallb (fun it => match snd it with
      | Wait e _ => existsb (fun x => match x with Resume j r _ => Nat.eqb j (fst it) && fits e r | _ => false end) l
      | Lock _ _ => served n P l (fst it)
      | Done _ => true
      | _ => false end) (combine (seq 0 (List.length (p_tasks P))) (p_tasks P))
  && Nat.eqb (opens P) o && match l with [] => true | e :: l' => fair_on n o (pstep n P e) l' end.
Lemma on_later n P e l k : later n P (and_so_on (e :: l)) (S k) = later n (pstep n P e) (and_so_on l) k.
Proof. induction k as [|k IH]; [reflexivity|]. cbn [later] in *. rewrite IH. reflexivity. Qed.
Definition idle_pool (o : nat) (P : pool) : Prop := opens P = o /\ forall i t, nth_error (p_tasks P) i = Some t -> exists x, t = Done x.
Lemma idle_on n o P : idle_pool o P -> forall k, idle_pool o (later n P (and_so_on []) k).
Proof.
  intros I k. induction k as [|k IH]; [exact I|]. cbn [later]. replace (and_so_on [] k) with (Pool.Call (SetMaxRetries 2)) by (destruct k; reflexivity).
  destruct (later n P (and_so_on []) k) as [w ts g]. destruct IH as (A & B). unfold opens in A. cbn [p_world p_tasks] in A, B.
  assert (AD : exists w' x, advance (tperform n (SetMaxRetries 2)) w = ([], w', Done x) /\ w_conns w' = w_conns w) by (eexists _, _; split; reflexivity).
  destruct AD as (w' & x & AD & WC). cbn [pstep p_world p_tasks p_log]. rewrite AD. split; [unfold opens; cbn [p_world]; rewrite WC; exact A|]. cbn [p_tasks].
  intros i t N. destruct (Nat.lt_ge_cases i (List.length ts)) as [LT|GE]; [rewrite nth_error_app1 in N by exact LT; eapply B, N|].
  rewrite nth_error_app2 in N by exact GE. destruct (i - List.length ts)%nat as [|[|q]]; try discriminate N. injection N as <-. eexists. reflexivity.
Qed.
Lemma served_on n l i : forall P, served n P l i = true -> exists j, and_so_on l j = Enter i /\ ~ held (later n P (and_so_on l) j).
Proof.
  induction l as [|e l IH]; intros P; cbn [served]; [discriminate|]. intros H. apply orb_true_iff in H. destruct H as [H|H].
  - destruct e as [| |j| | |]; try discriminate H. apply andb_true_iff in H. destruct H as (H1 & H2). apply Nat.eqb_eq in H1. subst j. apply negb_true_iff in H2.
    exists O. split; [reflexivity|]. unfold held. cbn [later]. congruence.
  - destruct (IH _ H) as (j & A & B). exists (S j). split; [exact A|]. rewrite on_later. exact B.
Qed.
Lemma fair_and_so_on n o l : forall P, fair_on n o P l = true ->
  (forall k, opens (later n P (and_so_on l) k) = o) /\ waits_end n P (and_so_on l) /\ lock_served n P (and_so_on l).
Proof.
  induction l as [|e l IH]; intros P; cbn [fair_on]; rewrite !andb_true_iff, forallb_forall, Nat.eqb_eq; intros ((T & O) & Next).
  - assert (I : idle_pool o P).
    { split; [exact O|]. intros i t N. apply at_point in N. specialize (T _ N). destruct t as [x| | | |]; try discriminate T. exists x. reflexivity. }
    split; [intros k; apply (idle_on n o P I k)|]. split; intros k i; [intros e f N|intros m y N]; destruct (proj2 (idle_on n o P I k) _ _ N) as (x & X); discriminate X.
  - destruct (IH _ Next) as (N2 & N3 & N4). split; [intros [|k]; [exact O|rewrite on_later; apply N2]|]. split.
    + intros [|k] i e0 f N.
      * apply at_point, T in N. cbn [snd fst] in N. apply existsb_exists in N. destruct N as (x & J & X). destruct x as [|j r clk'| | | |]; try discriminate X.
        apply andb_true_iff in X. destruct X as (X1 & X2). apply Nat.eqb_eq in X1. subst j. apply (In_nth _ _ (Pool.Call (SetMaxRetries 2))) in J. destruct J as (q & _ & J).
        exists q, r, clk'. split; [lia|split; [exact J|exact X2]].
      * rewrite on_later in N. destruct (N3 k i e0 f N) as (j & r & c & LE & EJ & F). exists (S j), r, c. split; [lia|split; [exact EJ|exact F]].
    + intros [|k] i m y N.
      * apply at_point, T in N. cbn [snd fst] in N. destruct (served_on _ _ _ _ N) as (j & A & B). left. exists j. split; [lia|auto].
      * rewrite on_later in N. destruct (N4 k i m y N) as [(j & LE & HJ)|(K & HK)]; [left; exists (S j); rewrite on_later; split; [lia|exact HJ]|right].
        exists (S K). intros [|j] LJ; [lia|]. rewrite on_later. apply (HK j). lia.
Qed.
Definition busy_on (P : pool) := (unfinished P, m_locked (w_cm (p_world P)), fair_on 3 2 P ending, List.length (p_tasks P), opens P).
Lemma busy_on_run : option_map busy_on (ran 3 (Some 777) None 0 Hostile.its_host busy) = Some ([2; 3; 4; 5]%nat, true, true, 6%nat, 2%nat).
Proof. vm_compute. reflexivity. Qed.
Example C120_each_nonvacuous : exists P E, ran 3 (Some 777) None 0 Hostile.its_host busy = Some P /\ unfinished P = [2; 3; 4; 5]%nat /\ held P /\
  (forall k, exists j c, (k <= j)%nat /\ E j = Pool.Call c) /\ waits_end 3 P E /\ lock_served 3 P E /\
  (forall i k, (completed (own i (p_log (later 3 P E k))) < 3)%nat) /\ (forall i, (i < 6)%nat -> (i < List.length (p_tasks (later 3 P E 0)))%nat).
Proof.
  pose proof busy_on_run as F. destruct (ran 3 (Some 777) None 0 Hostile.its_host busy) as [P|] eqn:R; [|discriminate F]. unfold option_map, busy_on in F.
  exists P, (and_so_on ending). split; [reflexivity|]. split; [congruence|]. split; [unfold held; congruence|].
  assert (FL : fair_on 3 2 P ending = true) by congruence. destruct (fair_and_so_on _ _ _ _ FL) as (A & B & C).
  split; [intros k; exists (k + 6)%nat, (SetMaxRetries 2); split; [lia|]; apply nth_overflow; cbn; lia|]. split; [exact B|]. split; [exact C|]. split.
  - intros i k. destruct (ran_path _ _ _ _ _ _ _ (ran_later _ _ _ _ _ _ _ (and_so_on ending) k R)) as (_ & _ & X). specialize (X i). rewrite A in X. lia.
  - intros i L. cbn [later]. replace (List.length (p_tasks P)) with 6%nat by congruence. exact L.
Qed.
Example C121_each_nonvacuous : exists P1 es2 P E, ran 3 (Some 777) None 0 Hostile.its_host two_connect = Some P1 /\ ~ held P1 /\
  ran 3 (Some 777) None 0 Hostile.its_host (two_connect ++ es2) = Some P /\ unfinished P = [2; 3; 4; 5]%nat /\ held P /\
  (forall k, exists j c, (k <= j)%nat /\ E j = Pool.Call c) /\ (forall k, opens (later 3 P E k) = opens P1) /\ (opens P1 < 3)%nat /\ waits_end 3 P E /\ lock_served 3 P E.
Proof.
  pose proof busy_on_run as F. assert (G : option_map (fun P => (m_locked (w_cm (p_world P)), opens P)) (ran 3 (Some 777) None 0 Hostile.its_host two_connect) = Some (false, 2%nat)) by (vm_compute; reflexivity).
  destruct (ran 3 (Some 777) None 0 Hostile.its_host two_connect) as [P1|] eqn:R1; [|discriminate G]. cbn [option_map] in G.
  destruct (ran 3 (Some 777) None 0 Hostile.its_host busy) as [P|] eqn:R; [|discriminate F]. unfold option_map, busy_on in F.
  exists P1, [Pool.Call (SetCircuit (VInt 505) (VInt 1)); Pool.Call GetStatus; Pool.Call (Subscribe 7 12500); Pool.Call (Subscribe 8 12505)], P, (and_so_on ending).
  assert (O1 : opens P1 = 2%nat) by congruence.
  assert (FL : fair_on 3 2 P ending = true) by congruence. destruct (fair_and_so_on _ _ _ _ FL) as (A & B & C).
  split; [reflexivity|]. split; [unfold held; congruence|]. split; [exact R|]. split; [congruence|]. split; [unfold held; congruence|].
  split; [intros k; exists (k + 6)%nat, (SetMaxRetries 2); split; [lia|]; apply nth_overflow; cbn; lia|].
  split; [intros k; rewrite A; congruence|]. split; [lia|]. split; assumption.
Qed.
