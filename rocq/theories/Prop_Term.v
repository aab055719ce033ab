(** C120: calls end. *)
From Verif Require Import Py F64 Struct Utf Utility Const Enum Decode Messages World Request Gateway Api Tasks Pool SpecTerm P_Base P_Term.
From Verif Require P_Dead P_Lock P_Pool P_Pool2 SpecPool P_Moves Hostile Prop_Decode.
From Verif Require Import Prop_Pool.

Lemma prefix_opens n es : forall P, P_Moves.all_made P -> (opens P <= opens (prun n P es))%nat.
Proof.
  induction es as [|e es IH]; intros P M; cbn; [lia|]. etransitivity; [apply (opens_mono n P e M)|].
  apply IH. exact (proj2 (P_Moves.pstep_made _ P_Moves.goes_keeps n P e M)).
Qed.
Lemma solid_run b m es : forall P, (forall c, In (Call c) es -> b = false -> listens c = false) -> (opens (prun (S m) P es) <= m)%nat -> solid b m P -> solid b m (prun (S m) P es).
Proof.
  induction es as [|e es IH]; intros P LC H S; cbn in *; [exact S|]. apply IH; [intros c J; apply LC; auto|exact H|].
  apply solid_step; [intros c ->; apply LC; left; reflexivity| |exact S].
  etransitivity; [|exact H]. apply prefix_opens. exact (proj2 (P_Moves.pstep_made _ P_Moves.goes_keeps (Datatypes.S m) P e (o_made _ _ _ S))).
Qed.
Lemma solid_later b m P E : (forall k c, E k <> Call c) -> (forall k, (opens (later (S m) P E k) <= m)%nat) -> solid b m P -> forall k, solid b m (later (S m) P E k).
Proof.
  intros NC H S k. induction k as [|k IH]; [exact S|]. cbn [later]. apply solid_step; [intros c EQ; destruct (NC k c EQ)|exact (H (Datatypes.S k))|exact IH].
Qed.
Lemma solid_new b n id mr rnd h es P E : ran n id mr rnd h es = Some P -> (forall c, In (Call c) es -> b = false -> listens c = false) ->
  (forall k c, E k <> Call c) -> (forall k, (opens (later n P E k) < n)%nat) -> exists m, n = S m /\ forall k, solid b m (later n P E k).
Proof.
  intros R LC NC H. destruct n as [|m]; [specialize (H O); lia|]. exists m. split; [reflexivity|].
  assert (H' : forall k, (opens (later (S m) P E k) <= m)%nat) by (intros k; specialize (H k); lia).
  apply solid_later; [exact NC|exact H'|]. unfold ran in R. destruct (new_gateway id mr rnd [] h) as [w|] eqn:W; [|discriminate R]. injection R as <-.
  apply solid_run; [exact LC|exact (H' O)|]. unfold new_gateway in W. destruct (_ && _); [|discriminate W]. injection W as <-.
  constructor; [apply P_Moves.start_made|intros _; split; reflexivity|intros t []|intros t []].
Qed.
Lemma over_or_queued b k t : sturdy b k t -> still t -> finished t \/ queued t.
Proof.
  destruct t as [o|f|f m|e f|m x]; cbn [still sturdy]; intros S I; try contradiction.
  - left. destruct o as [r|e|y]; [exists r; auto|exists tt; right; exists e; reflexivity|destruct (S y eq_refl)].
  - right. exists m, x. reflexivity.
Qed.

(** C120. After the last call was made, when nobody who waits for the lock is cancelled any more, and
    if every wait comes to an end: in the end every call is over, or the rest of them wait for the lock, which is held (C68: that is possible). *)
Theorem C120_ends n id mr rnd h es P E : ran n id mr rnd h es = Some P ->
  (forall k c, E k <> Call c) -> (forall k, (opens (later n P E k) < n)%nat) -> waits_end n P E -> lock_fair n P E -> cancels_end n P E ->
  exists K, forall k, (K <= k)%nat ->
    (forall t, In t (p_tasks (later n P E k)) -> finished t) \/
    (held (later n P E k) /\ forall t, In t (p_tasks (later n P E k)) -> finished t \/ queued t).
Proof.
  intros R NC H WE LF (K0 & CE). destruct (solid_new true _ _ _ _ _ _ _ E R ltac:(discriminate) NC H) as (m & -> & S).
  destruct (rest_at_last (Datatypes.S m) P E NC WE LF K0 CE) as (K & C); [intros k t J; exact (o_rest _ _ _ (S k) t J)|].
  exists K. intros k L. destruct (C k L) as (St & HD).
  assert (D : forall t, In t (p_tasks (later (Datatypes.S m) P E k)) -> finished t \/ queued t) by (intros t J; eapply over_or_queued; [exact (o_room _ _ _ (S k) t J)|exact (St t J)]).
  destruct HD as [HD|HD]; [right; auto|]. left. intros t J. destruct (D t J) as [F|Q]; [exact F|destruct (HD t J Q)].
Qed.
Print Assumptions C120_ends.
(** without a subscription, and so without the task that the last unsubscribe creates, the lock
    is not used: every call ends *)
Theorem C120_all n id mr rnd h es P E : ran n id mr rnd h es = Some P -> (forall cb code, ~ In (Call (Subscribe cb code)) es) -> ~ In (Call Unregister) es ->
  (forall k c, E k <> Call c) -> (forall k, (opens (later n P E k) < n)%nat) -> waits_end n P E ->
  exists K, forall k, (K <= k)%nat -> forall t, In t (p_tasks (later n P E k)) -> finished t.
Proof.
  intros R NS NU NC H WE.
  assert (LC : forall c, In (Call c) es -> false = false -> listens c = false) by (intros c J _; destruct c; try reflexivity; [destruct (NS _ _ J)|destruct (NU J)]).
  destruct (solid_new false _ _ _ _ _ _ _ E R LC NC H) as (m & -> & S).
  assert (NL : forall k t, In t (p_tasks (later (Datatypes.S m) P E k)) -> ~ queued t) by (intros k t J (q & x & ->); destruct (o_room _ _ _ (S k) _ J) as (X & _); discriminate X).
  assert (LF : lock_fair (Datatypes.S m) P E) by (intros k i q x N; apply nth_error_In in N; destruct (NL k _ N); exists q, x; reflexivity).
  assert (CE : forall k i clk, (0 <= k)%nat -> E k = Resume i KCancelTask clk -> forall q x, nth_error (p_tasks (later (Datatypes.S m) P E k)) i <> Some (Lock q x)).
  { intros k i clk _ _ q x N. apply nth_error_In in N. apply (NL k _ N). exists q, x. reflexivity. }
  destruct (rest_at_last (Datatypes.S m) P E NC WE LF 0%nat CE) as (K & C); [intros k t J; exact (o_rest _ _ _ (S k) t J)|].
  exists K. intros k L t J. destruct (C k L) as (St & _). destruct (over_or_queued _ _ _ (o_room _ _ _ (S k) t J) (St t J)) as [F|Q]; [exact F|destruct (NL k t J Q)].
Qed.
Print Assumptions C120_all.
(** two calls connect; then a circuit is set, the status asked for and two codes are subscribed
    to, all at the same time. The answer about the circuit is late: its message is repeated. *)
Definition busy : list event :=
  two_connect ++ [Pool.Call (SetCircuit (VInt 505) (VInt 1)); Pool.Call GetStatus; Pool.Call (Subscribe 7 12500); Pool.Call (Subscribe 8 12505)].
Definition ending : list event :=
  [Resume 2 KTimeout clk; reply 4 12523 []; reply 3 12527 (Messages.wire_status Prop_Decode.some_status); done 2; Enter 5; reply 2 12531 []].
Definition follow (l : list event) (k : nat) : event := nth k l (Enter 99).
(** what is to be checked of a schedule that is a list, at each of its points *)
Fixpoint fair_list (n : nat) (P : pool) (l : list event) : bool :=
  forallb (fun it => match snd it with
      | Wait e _ => existsb (fun x => match x with Resume j r _ => Nat.eqb j (fst it) && fits e r | _ => false end) l
      | Lock _ _ => existsb (fun x => match x with Enter j | Resume j KCancelTask _ => Nat.eqb j (fst it) | _ => false end) l
      | _ => true end) (combine (seq 0 (List.length (p_tasks P))) (p_tasks P))
  && Nat.ltb (opens P) n && Nat.leb (List.length (p_tasks P)) 99 && forallb (fun x => match x with Pool.Call _ => false | _ => true end) l &&
  match l with [] => true | e :: l' => fair_list n (pstep n P e) l' end.
Lemma follow_later n P e l k : later n P (follow (e :: l)) (S k) = later n (pstep n P e) (follow l) k.
Proof. induction k as [|k IH]; [reflexivity|]. cbn [later] in *. rewrite IH. reflexivity. Qed.
Lemma idle n P : (List.length (p_tasks P) <= 99)%nat -> pstep n P (Enter 99) = P.
Proof. intros L. cbn [pstep]. apply nth_error_None in L. rewrite L. reflexivity. Qed.
Lemma later_nil n P : (List.length (p_tasks P) <= 99)%nat -> forall k, later n P (follow []) k = P.
Proof. intros L k. induction k as [|k IH]; [reflexivity|]. cbn [later]. rewrite IH. unfold follow. replace (nth k [] (Enter 99)) with (Enter 99) by (destruct k; reflexivity). apply idle, L. Qed.
Lemma at_point (ts : list (task unit)) i t : nth_error ts i = Some t -> In (i, t) (combine (seq 0 (List.length ts)) ts).
Proof.
  intros N. assert (G : forall a, In ((a + i)%nat, t) (combine (seq a (List.length ts)) ts)).
  { revert i N. induction ts as [|x ts IH]; intros [|i] N a; cbn in *; try discriminate N.
    - injection N as ->. left. f_equal. lia.
    - right. specialize (IH i N (S a)). replace (a + S i)%nat with (S a + i)%nat by lia. exact IH. }
  exact (G O).
Qed.
Lemma fair_follow n l : forall P, fair_list n P l = true ->
  (forall k c, follow l k <> Pool.Call c) /\ (forall k, (opens (later n P (follow l) k) < n)%nat) /\ waits_end n P (follow l) /\ lock_fair n P (follow l) /\ cancels_end n P (follow l).
Proof.
  assert (CE : forall P, cancels_end n P (follow l)).
  { intros P. exists (List.length l). intros k i c LK EK. unfold follow in EK. rewrite nth_overflow in EK by exact LK. discriminate EK. }
  enough (M : forall P, fair_list n P l = true -> (forall k c, follow l k <> Pool.Call c) /\ (forall k, (opens (later n P (follow l) k) < n)%nat) /\ waits_end n P (follow l) /\ lock_fair n P (follow l)).
  { intros P F. destruct (M P F) as (M1 & M2 & M3 & M4). split; [exact M1|]. split; [exact M2|]. split; [exact M3|]. split; [exact M4|apply CE]. }
  clear CE. induction l as [|e l IH]; intros P; cbn [fair_list]; rewrite !andb_true_iff, forallb_forall, Nat.ltb_lt, Nat.leb_le, forallb_forall; intros ((((T & O) & L) & NC) & Next).
  - split; [intros k c; unfold follow; destruct k; discriminate|]. split; [intros k; rewrite later_nil by exact L; exact O|].
    split; intros k i; rewrite later_nil by exact L; [intros e f N|intros m x N]; apply at_point, T in N; discriminate N.
  - specialize (IH _ Next). destruct IH as (N1 & N2 & N3 & N4). split; [|split; [|split]].
    + intros [|k] c; [|exact (N1 k c)]. cbn. intros ->. specialize (NC _ (or_introl eq_refl)). discriminate NC.
    + intros [|k]; [exact O|]. rewrite follow_later. apply N2.
    + intros [|k] i e0 f N.
      * apply at_point, T in N. cbn [snd fst] in N. apply existsb_exists in N. destruct N as (x & J & X). destruct x as [|j r clk'| | | |]; try discriminate X.
        apply andb_true_iff in X. destruct X as (X1 & X2). apply Nat.eqb_eq in X1. subst j. apply (In_nth _ _ (Enter 99)) in J. destruct J as (q & _ & J). exists q, r, clk'. split; [lia|split; [exact J|exact X2]].
      * rewrite follow_later in N. destruct (N3 k i e0 f N) as (j & r & c & LE & EJ & F). exists (S j), r, c. split; [lia|split; [exact EJ|exact F]].
    + intros [|k] i m x0 N.
      * apply at_point, T in N. cbn [snd fst] in N. apply existsb_exists in N. destruct N as (x & J & X). apply (In_nth _ _ (Enter 99)) in J. destruct J as (q & _ & J).
        exists q. split; [lia|]. destruct x as [|j [] clk'|j| | |]; try discriminate X; apply Nat.eqb_eq in X; subst j; right; [right; exists clk'; exact J|left; exact J].
      * rewrite follow_later in N. destruct (N4 k i m x0 N) as (j & LE & HJ). exists (S j). split; [lia|]. rewrite follow_later. exact HJ.
Qed.
Definition unfinished (P : pool) : list nat := map fst (filter (fun it => match snd it with Done _ => false | _ => true end) (combine (seq 0 (List.length (p_tasks P))) (p_tasks P))).
Definition busy_facts (P : pool) := (unfinished P, m_locked (w_cm (p_world P)), fair_list 3 P ending, unfinished (prun 3 P ending), opens (prun 3 P ending)).
Lemma busy_run : option_map busy_facts (ran 3 (Some 777) None 0 Hostile.its_host busy) = Some ([2; 3; 4; 5]%nat, true, true, [], 2%nat).
Proof. vm_compute. reflexivity. Qed.
Example C120_nonvacuous : exists P E, ran 3 (Some 777) None 0 Hostile.its_host busy = Some P /\ unfinished P = [2; 3; 4; 5]%nat /\ held P /\
  (forall k c, E k <> Pool.Call c) /\ (forall k, (opens (later 3 P E k) < 3)%nat) /\ waits_end 3 P E /\ lock_fair 3 P E /\ cancels_end 3 P E /\ unfinished (later 3 P E 6) = [].
Proof.
  pose proof busy_run as F. destruct (ran 3 (Some 777) None 0 Hostile.its_host busy) as [P|]; [|discriminate F]. unfold option_map, busy_facts in F.
  exists P, (follow ending). split; [reflexivity|]. split; [congruence|]. split; [unfold held; congruence|].
  assert (FL : fair_list 3 P ending = true) by congruence. destruct (fair_follow _ _ _ FL) as (A & B & C & D & CE). repeat (split; [assumption|]).
  change (later 3 P (follow ending) 6) with (prun 3 P ending). congruence.
Qed.
(** the same, but the second subscription is cancelled while it waits for the lock the first one holds *)
Definition ending_c : list event :=
  [Resume 5 KCancelTask clk; Resume 2 KTimeout clk; reply 4 12523 []; reply 3 12527 (Messages.wire_status Prop_Decode.some_status); done 2; reply 2 12531 []].
Definition over_as (P : pool) := map (fun t => match t with Done (Val _) => 1 | Done (Exc ECancelled) => 2 | Done (Exc _) => 3 | _ => 0 end) (p_tasks P).
Definition busy_c_facts (P : pool) := (unfinished P, fair_list 3 P ending_c, over_as (prun 3 P ending_c), m_locked (w_cm (p_world (prun 3 P ending_c)))).
Lemma busy_c_run : option_map busy_c_facts (ran 3 (Some 777) None 0 Hostile.its_host busy) = Some ([2; 3; 4; 5]%nat, true, [1; 1; 1; 1; 1; 2], false).
Proof. vm_compute. reflexivity. Qed.
Example C120_cancel_nonvacuous : exists P E, ran 3 (Some 777) None 0 Hostile.its_host busy = Some P /\ unfinished P = [2; 3; 4; 5]%nat /\ E 0%nat = Resume 5 KCancelTask clk /\
  (forall k c, E k <> Pool.Call c) /\ (forall k, (opens (later 3 P E k) < 3)%nat) /\ waits_end 3 P E /\ lock_fair 3 P E /\ cancels_end 3 P E /\
  over_as (later 3 P E 6) = [1; 1; 1; 1; 1; 2] /\ ~ held (later 3 P E 6).
Proof.
  pose proof busy_c_run as F. destruct (ran 3 (Some 777) None 0 Hostile.its_host busy) as [P|]; [|discriminate F]. unfold option_map, busy_c_facts in F.
  exists P, (follow ending_c). split; [reflexivity|]. split; [congruence|]. split; [reflexivity|].
  assert (FL : fair_list 3 P ending_c = true) by congruence. destruct (fair_follow _ _ _ FL) as (A & B & C & D & CE). repeat (split; [assumption|]).
  change (later 3 P (follow ending_c) 6) with (prun 3 P ending_c). split; [congruence|unfold held; congruence].
Qed.
(** the same without subscriptions *)
Definition busy2 : list event := two_connect ++ [Pool.Call (SetCircuit (VInt 505) (VInt 1)); Pool.Call GetStatus].
Definition ending2 : list event := [Resume 2 KTimeout clk; reply 3 12527 (Messages.wire_status Prop_Decode.some_status); done 2; reply 2 12531 []].
Definition busy2_facts (P : pool) := (unfinished P, fair_list 3 P ending2, unfinished (prun 3 P ending2)).
Lemma busy2_run : option_map busy2_facts (ran 3 (Some 777) None 0 Hostile.its_host busy2) = Some ([2; 3]%nat, true, []).
Proof. vm_compute. reflexivity. Qed.
Example C120_all_nonvacuous : exists P E, ran 3 (Some 777) None 0 Hostile.its_host busy2 = Some P /\ (forall cb code, ~ In (Pool.Call (Subscribe cb code)) busy2) /\ unfinished P = [2; 3]%nat /\
  (forall k c, E k <> Pool.Call c) /\ (forall k, (opens (later 3 P E k) < 3)%nat) /\ waits_end 3 P E /\ unfinished (later 3 P E 4) = [].
Proof.
  pose proof busy2_run as F. destruct (ran 3 (Some 777) None 0 Hostile.its_host busy2) as [P|]; [|discriminate F]. unfold option_map, busy2_facts in F.
  exists P, (follow ending2). split; [reflexivity|]. split; [|split; [congruence|]].
  { intros cb code J. assert (X : forallb (fun x => match x with Pool.Call (Subscribe _ _) => false | _ => true end) busy2 = true) by (vm_compute; reflexivity).
    rewrite forallb_forall in X. specialize (X _ J). discriminate X. }
  assert (FL : fair_list 3 P ending2 = true) by congruence. destruct (fair_follow _ _ _ FL) as (A & B & C & D). repeat (split; [assumption|]).
  change (later 3 P (follow ending2) 4) with (prun 3 P ending2). congruence.
Qed.
(** and the other end: the subscription is not answered, the connection is made again, and the
    call waits for the lock it holds *)
Definition locked_out : list event :=
  two_connect ++ [Pool.Call (Subscribe 7 12500); Resume 2 KTimeout clk; done 2; Resume 2 KTimeout clk; done 2; done 2; done 2] ++ login_of 2.
Example C120_lock_nonvacuous : exists P, ran 4 (Some 777) None 0 Hostile.its_host locked_out = Some P /\ held P /\
  (forall t, In t (p_tasks P) -> finished t \/ queued t) /\ exists t, In t (p_tasks P) /\ queued t.
Proof.
  assert (F : option_map (fun P => (m_locked (w_cm (p_world P)), map (fun t => match t with Done (Stuck _) => 0 | Done _ => 1 | Lock _ _ => 2 | _ => 0 end) (p_tasks P)))
    (ran 4 (Some 777) None 0 Hostile.its_host locked_out) = Some (true, [1; 1; 2])) by (vm_compute; reflexivity).
  destruct (ran 4 (Some 777) None 0 Hostile.its_host locked_out) as [[w ts g]|]; [|discriminate F]. unfold option_map in F. cbn [p_world p_tasks] in F.
  exists (mkPool w ts g). split; [reflexivity|]. unfold held. cbn [p_world p_tasks]. split; [congruence|].
  assert (T : map (fun t : task unit => match t with Done (Stuck _) => 0 | Done _ => 1 | Lock _ _ => 2 | _ => 0 end) ts = [1; 1; 2]) by congruence.
  destruct ts as [|a [|b [|c [|]]]]; try discriminate T. destruct c as [[]| | | |m x]; try discriminate T.
  assert (D : forall x : task unit, match x with Done (Stuck _) => 0 | Done _ => 1 | Lock _ _ => 2 | _ => 0 end = 1 -> finished x).
  { intros [[r|e|y]| | | |]; try discriminate; intros _; [exists r; auto|exists tt; eauto]. }
  cbn [map] in T. injection T as A B. split.
  - intros t [<-|[<-|[<-|[]]]]; [left; apply D, A|left; apply D, B|right; exists m, x; reflexivity].
  - exists (Lock m x). split; [right; right; left; reflexivity|exists m, x; reflexivity].
Qed.

(** * C121 *)
Lemma later_run n P E k : later n P E k = prun n P (map E (seq 0 k)).
Proof.
  induction k as [|k IH]; [reflexivity|]. cbn [later]. rewrite IH, seq_S, map_app. unfold prun. rewrite fold_left_app. reflexivity.
Qed.
Lemma ran_valid n id mr rnd h es P : ran n id mr rnd h es = Some P -> P_Dead.valid (p_world P).
Proof.
  intros R c M. destruct (ran_inv _ _ _ _ _ _ _ R) as (I & _). apply (P_Pool2.I_mproto _ _ _ _ _ I) in M.
  destruct M as (i & t1 & p & ms & r & b & t2 & E & _).
  apply (P_Pool2.I_known _ _ _ _ _ I i c (Send c 27 p)); [|left; left; eauto].
  assert (J : In (Send c 27 p) (SpecPool.own i (p_log P))) by (rewrite E; apply in_or_app; right; left; reflexivity).
  unfold SpecPool.own in J. apply in_flat_map in J. destruct J as ([| k e | | |] & J & K); try destruct K. destruct (Nat.eqb_spec k i); [|destruct K]. destruct K as [->|[]]. subst k. exact J.
Qed.
Definition unspoiled (P : pool) : Prop := exists owner, P_Dead.Dinv P owner /\ ~ P_Dead.tainted owner.
Lemma dinv_run n id mr rnd h es P : ran n id mr rnd h es = Some P -> exists owner, P_Dead.Dinv P owner.
Proof.
  revert P. induction es as [|e es IH] using rev_ind; intros P R.
  - unfold ran in R. destruct (new_gateway id mr rnd [] h) as [w|] eqn:W; [|discriminate R]. injection R as <-. exists None.
    unfold new_gateway in W. destruct (_ && _); [|discriminate W]. injection W as <-. constructor; [reflexivity|discriminate|intros [|j] m N; discriminate N].
  - destruct (ran n id mr rnd h es) as [P0|] eqn:R0; [|unfold ran in R, R0; destruct (new_gateway id mr rnd [] h); [discriminate R0|discriminate R]].
    rewrite (ran_app _ _ _ _ _ _ [e] _ R0) in R. injection R as <-. destruct (IH P0 eq_refl) as (o & D). cbn.
    destruct (P_Dead.Dinv_pstep n P0 o e (ran_made _ _ _ _ _ _ _ R0) (ran_valid _ _ _ _ _ _ _ R0) D) as (o' & D' & _). exists o'. exact D'.
Qed.
Lemma unspoiled_run n id mr rnd h es1 es2 P1 P : ran n id mr rnd h es1 = Some P1 -> unspoiled P1 -> ran n id mr rnd h (es1 ++ es2) = Some P -> opens P = opens P1 -> unspoiled P.
Proof.
  intros R1 U. revert P. induction es2 as [|e es2 IH] using rev_ind; intros P R O.
  - rewrite app_nil_r, R1 in R. injection R as <-. exact U.
  - rewrite app_assoc in R. pose proof (ran_app _ _ _ _ _ _ es2 _ R1) as R0. rewrite (ran_app _ _ _ _ _ _ [e] _ R0) in R. injection R as <-. cbn in *.
    set (P0 := prun n P1 es2) in *. pose proof (ran_made _ _ _ _ _ _ _ R0) as M0.
    pose proof (opens_mono n P0 e M0) as L. pose proof (prefix_opens n es2 P1 (ran_made _ _ _ _ _ _ _ R1)) as L1. fold P0 in L1.
    destruct (IH P0 R0 ltac:(lia)) as (o & D & NT).
    destruct (P_Dead.Dinv_pstep n P0 o e M0 (ran_valid _ _ _ _ _ _ _ R0) D) as (o' & D' & T & _). exists o'. split; [exact D'|]. intros H. apply NT, T; [lia|exact H].
Qed.
(** C121. From a moment at which nobody holds the lock on, and as long as no further connection is opened,
    no call is left waiting for it: every call ends, subscriptions included. *)
Theorem C121_ends n id mr rnd h es1 es2 P1 P E : ran n id mr rnd h es1 = Some P1 -> ~ held P1 -> ran n id mr rnd h (es1 ++ es2) = Some P ->
  (forall k c, E k <> Call c) -> (forall k, opens (later n P E k) = opens P1) -> (opens P1 < n)%nat -> waits_end n P E -> lock_fair n P E -> cancels_end n P E ->
  exists K, forall k, (K <= k)%nat -> forall t, In t (p_tasks (later n P E k)) -> finished t.
Proof.
  intros R1 H1 R NC OE L WE LF CE.
  destruct (C120_ends n id mr rnd h (es1 ++ es2) P E R NC (fun k => eq_ind_r (fun x => (x < n)%nat) L (OE k)) WE LF CE) as (K & C). exists K. intros k LK.
  destruct (C k LK) as [A|(HD & A)]; [exact A|exfalso].
  assert (U1 : unspoiled P1).
  { destruct (dinv_run _ _ _ _ _ _ _ R1) as (o & D). exists o. split; [exact D|]. intros (j & ->). apply H1. exact (P_Dead.D_locked _ _ D). }
  assert (U : unspoiled (later n P E k)).
  { pose proof (ran_app _ _ _ _ _ _ (map E (seq 0 k)) _ R) as RK. rewrite <- later_run in RK. rewrite <- app_assoc in RK.
    eapply unspoiled_run; [exact R1|exact U1|exact RK|apply OE]. }
  destruct U as (o & D & NT). pose proof (P_Dead.D_locked _ _ D) as LO. unfold held in HD. unfold P_Lock.locked in LO. rewrite HD in LO.
  destruct o as [(j, s)|]; [|discriminate LO]. destruct (P_Dead.D_owner _ _ D j s eq_refl) as (NO & _ & m & NJ & HL).
  assert (NT' : s <> P_Dead.Taint) by (intros ->; apply NT; exists j; reflexivity).
  destruct (A m (nth_error_In _ _ NJ)) as [(r & [->|(e & ->)])|(q & x & ->)]; cbn [P_Dead.hl] in HL.
  - destruct HL as [[->|(-> & _)]|(y & B)]; [apply NO; reflexivity|apply NT'; reflexivity|discriminate B].
  - destruct HL as [[->|(-> & _)]|(y & B)]; [apply NO; reflexivity|apply NT'; reflexivity|discriminate B].
  - destruct s; try contradiction.
Qed.
Print Assumptions C121_ends.
(** two calls connect; then everything as in C120_nonvacuous, two subscriptions included *)
Example C121_nonvacuous : exists P1 es2 P E, ran 3 (Some 777) None 0 Hostile.its_host two_connect = Some P1 /\ ~ held P1 /\
  ran 3 (Some 777) None 0 Hostile.its_host (two_connect ++ es2) = Some P /\ unfinished P = [2; 3; 4; 5]%nat /\ held P /\
  (forall k c, E k <> Pool.Call c) /\ (forall k, opens (later 3 P E k) = opens P1) /\ (opens P1 < 3)%nat /\ waits_end 3 P E /\ lock_fair 3 P E /\ cancels_end 3 P E.
Proof.
  pose proof busy_run as F. assert (G : option_map (fun P => (m_locked (w_cm (p_world P)), opens P)) (ran 3 (Some 777) None 0 Hostile.its_host two_connect) = Some (false, 2%nat)) by (vm_compute; reflexivity).
  destruct (ran 3 (Some 777) None 0 Hostile.its_host two_connect) as [P1|] eqn:R1; [|discriminate G]. cbn [option_map] in G.
  destruct (ran 3 (Some 777) None 0 Hostile.its_host busy) as [P|] eqn:R; [|discriminate F]. unfold option_map, busy_facts in F.
  exists P1, [Pool.Call (SetCircuit (VInt 505) (VInt 1)); Pool.Call GetStatus; Pool.Call (Subscribe 7 12500); Pool.Call (Subscribe 8 12505)], P, (follow ending).
  assert (O1 : opens P1 = 2%nat) by congruence.
  assert (FL : fair_list 3 P ending = true) by congruence. destruct (fair_follow _ _ _ FL) as (A & B & C & D & CE).
  split; [reflexivity|]. split; [unfold held; congruence|]. split; [exact R|]. split; [congruence|]. split; [unfold held; congruence|]. split; [exact A|].
  split; [|split; [lia|split; [assumption|split; assumption]]]. intros k. specialize (B k).
  assert (M1 : (opens P1 <= opens P)%nat).
  { pose proof (ran_app _ _ _ _ _ _ [Pool.Call (SetCircuit (VInt 505) (VInt 1)); Pool.Call GetStatus; Pool.Call (Subscribe 7 12500); Pool.Call (Subscribe 8 12505)] _ R1) as X.
    change (two_connect ++ _) with busy in X. rewrite R in X. apply (f_equal (fun o => match o with Some x => x | None => P end)) in X. cbv beta iota in X. rewrite X. apply prefix_opens. eapply ran_made, R1. }
  pose proof (prefix_opens 3 (map (follow ending) (seq 0 k)) P (ran_made _ _ _ _ _ _ _ R)) as M2. rewrite <- later_run in M2. lia.
Qed.
