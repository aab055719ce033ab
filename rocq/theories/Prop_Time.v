(** C124: how long a call can keep its caller waiting. *)
From Verif Require Import Py F64 Struct Utf Utility Const Enum Decode Messages World Request Gateway Api Tasks Pool SpecPool SpecTerm SpecTime P_Base P_Moves P_Path P_Tune P_Term P_Each P_Timer.
From Verif Require Hostile Prop_Decode.
From Verif Require Import Prop_Pool Prop_Keep Prop_Term Prop_Each.

(** max_retries is between 1 and 5, at any time *)
Definition tries (w : world) : Prop := 0 < w_retries w < 6.
Lemma tries_closed C : P_Tune.closed C (P_Tune.thru tries).
Proof.
  split; [split|..]; unfold P_Tune.thru; try (intros; match goal with H : tries _ |- _ => exact H end).
  - intros c w H. unfold tries. rewrite fold_retries. exact H.
  - intros c w H. unfold tries. rewrite (proj2 (lose_retries c w)). exact H.
  - intros w H. unfold tries. rewrite pumps_retries. exact H.
  - intros i b w H. unfold tries. rewrite pump_retries. exact H.
  - intros k K w H. exact K.
Qed.
Lemma ran_tries n id mr rnd h es P : ran n id mr rnd h es = Some P -> tries (p_world P).
Proof.
  unfold ran, new_gateway. destruct ((0 <? over mr COM_MAX_RETRIES) && (over mr COM_MAX_RETRIES <? 6)) eqn:V; [|discriminate]. intros E. injection E as <-.
  apply andb_prop in V. destruct V as (V1 & V2). apply Z.ltb_lt in V1, V2.
  assert (T : tuned (fun _ => tries) (prun n (start (mkW (mkAddr None 80 0 0 (u "Unnamed-Screenlogic-Gateway") []) None None [] [] (over mr COM_MAX_RETRIES)
             (mkCM None [] false COM_MAX_RETRIES (over id rnd) false) [] [] (S754_zero false) h)) es)).
  { apply tuned_run; [intros C C' w _ H; exact H|exact tries_closed|]. apply tuned_start; [intros C C' w _ H; exact H|]. split; assumption. }
  exact (proj1 T).
Qed.

(** C124. A call is made when [ea] has happened, and then [eb] happens: other calls, answers to all of
    them, timeouts, lost connections, in any order. As long as max_retries is [r] at most, the timers
    the call starts for itself - waiting for an answer, pausing, opening a connection - add up to no more
    than [longest r c], and [connecting r] for each connection that it opens. *)
Theorem C124_time n id mr rnd h ea c eb P0 P r :
  ran n id mr rnd h ea = Some P0 -> ran n id mr rnd h (ea ++ Pool.Call c :: eb) = Some P ->
  (forall e1 e2 Q, Pool.Call c :: eb = e1 ++ e2 -> ran n id mr rnd h (ea ++ e1) = Some Q -> w_retries (p_world Q) <= r) ->
  let t := own (List.length (p_tasks P0)) (p_log P) in
  timers t <= longest r c + connecting r * Z.of_nat (completed t).
Proof.
  intros R0 R H t. pose proof (ran_app _ _ _ _ _ _ (Pool.Call c :: eb) _ R0) as R1. assert (EP : P = prun n P0 (Pool.Call c :: eb)) by congruence. clear R1. subst P.
  assert (F : forall e1 e2, Pool.Call c :: eb = e1 ++ e2 -> few r (p_world (prun n P0 e1))).
  { intros e1 e2 E. pose proof (ran_app _ _ _ _ _ _ e1 _ R0) as Q. split; [apply (ran_tries _ _ _ _ _ _ _ Q)|eapply H; [exact E|exact Q]]. }
  destruct (ran_path _ _ _ _ _ _ _ R0) as (W & _ & _). pose proof (F [] _ eq_refl) as F0. cbn in F0.
  destruct (call_path_U (few r) n P0 c eb W F) as (m & _ & T). eapply path_time; [|exact T|exact F0]. destruct F0. lia.
Qed.
Print Assumptions C124_time.

(** whatever max_retries is set to, and when *)
Theorem C124_always n id mr rnd h ea c eb P0 P :
  ran n id mr rnd h ea = Some P0 -> ran n id mr rnd h (ea ++ Pool.Call c :: eb) = Some P ->
  let t := own (List.length (p_tasks P0)) (p_log P) in
  timers t <= longest 5 c + connecting 5 * Z.of_nat (completed t).
Proof.
  intros R0 R. eapply C124_time; [exact R0|exact R|]. intros e1 e2 Q _ RQ. pose proof (ran_tries _ _ _ _ _ _ _ RQ) as (_ & T). lia.
Qed.
Print Assumptions C124_always.

(** The bound is reached. Two connections are set up, updates are subscribed to; a circuit is set, no answer
    comes, neither to the second try, nor to the farewell. Before it can connect anew, another call has done so;
    on that connection it asks twice, in vain. That took 12 seconds, with max_retries 1. *)
Definition silence (i : nat) : event := Resume i KTimeout clk.
Definition before : list event := two_connect ++ [Pool.Call (Subscribe 7 12500); reply 2 12523 []].
Definition after : list event :=
  [silence 3; done 3; silence 3; silence 3; done 3; done 3; Pool.Call GetStatus] ++ login_of 4 ++
  [reply 4 12523 []; reply 4 12527 (Messages.wire_status Prop_Decode.some_status); done 3; silence 3; done 3; silence 3].
Definition slow : api_call := SetCircuit (VInt 505) (VInt 1).
Definition timed (P : Pool.pool) := (List.length (p_tasks P), timers (own 3 (p_log P)), completed (own 3 (p_log P)), nth_error (outcomes P) 3).
Lemma before_run : option_map (fun P => List.length (p_tasks P)) (ran 3 (Some 777) None 0 Hostile.its_host before) = Some 3%nat.
Proof. vm_compute. reflexivity. Qed.
Lemma after_run : option_map timed (ran 3 (Some 777) None 0 Hostile.its_host (before ++ Pool.Call slow :: after)) =
  Some (5%nat, 12000, O, Some (Some (Exc ESLConnection))).
Proof. vm_compute. reflexivity. Qed.
Example C124_nonvacuous : exists P0 P, ran 3 (Some 777) None 0 Hostile.its_host before = Some P0 /\
  ran 3 (Some 777) None 0 Hostile.its_host (before ++ Pool.Call slow :: after) = Some P /\
  (forall e1 e2 Q, Pool.Call slow :: after = e1 ++ e2 -> ran 3 (Some 777) None 0 Hostile.its_host (before ++ e1) = Some Q -> w_retries (p_world Q) <= 1) /\
  let t := own (List.length (p_tasks P0)) (p_log P) in
  timers t = longest 1 slow + connecting 1 * Z.of_nat (completed t) /\ longest 1 slow = 12000.
Proof.
  pose proof before_run as B. pose proof after_run as A.
  destruct (ran 3 (Some 777) None 0 Hostile.its_host before) as [P0|] eqn:R0; [|discriminate B].
  destruct (ran 3 (Some 777) None 0 Hostile.its_host (before ++ Pool.Call slow :: after)) as [P|] eqn:R; [|discriminate A].
  exists P0, P. split; [reflexivity|]. split; [reflexivity|]. unfold option_map, timed in *. split.
  - assert (K : forallb (fun k => match ran 3 (Some 777) None 0 Hostile.its_host (before ++ firstn k (Pool.Call slow :: after)) with
        Some Q => w_retries (p_world Q) <=? 1 | None => true end) (seq 0 21) = true) by (vm_compute; reflexivity).
    intros e1 e2 Q E RQ. rewrite forallb_forall in K. assert (L : (List.length e1 < 21)%nat).
    { apply (f_equal (@List.length event)) in E. rewrite app_length in E. vm_compute (List.length (Pool.Call slow :: after)) in E. lia. }
    specialize (K (List.length e1) ltac:(apply in_seq; lia)). rewrite E, firstn_app, Nat.sub_diag, firstn_all in K. cbn [firstn] in K. rewrite app_nil_r, RQ in K. apply Z.leb_le, K.
  - injection B as B. rewrite B. injection A as _ A1 A2 _. rewrite A1, A2. split; reflexivity.
Qed.
