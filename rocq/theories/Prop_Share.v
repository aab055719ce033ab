(** C111: overlapping calls on a connection that stays up and answers.  Vocabulary: SpecShare.v. *)
From Verif Require Import Py F64 Struct Utf Utility Const Spec Enum Decode Messages Calls World Request Gateway Traces Paths Api Tasks Pool SpecPool SpecShare.
From Verif Require Import P_Share.
From Verif Require Prop_Decode Hostile Prop_Pool.

(** From any moment when no call is running and the connection [c] is up, for every schedule of
    any calls but disconnects in which each request is answered properly: *)
Theorem C111_shared n c P0 es : (forall t, In t (p_tasks P0) -> exists o, t = Done o) -> healthy c (p_world P0) ->
  (forall es1 e es2, es = es1 ++ e :: es2 -> serves c (prun (S n) P0 es1) e) ->
  let P := prun (S n) P0 es in
  exists g, p_log P = p_log P0 ++ g /\
    (* nothing is opened, closed or slept for, and every message goes to [c] *)
    (forall i e, In (By i e) g -> (exists X p, e = Send c X p) \/ e = AwaitReply c 2000 \/ (exists r, e = Got r)) /\
    (* the gateway is still connected, by [c] *)
    healthy c (p_world P) /\
    (* no call that has ended ended in a communication error, or sent a message twice *)
    (forall i o, (List.length (p_tasks P0) <= i)%nat -> nth_error (p_tasks P) i = Some (Done o) ->
       (o = Val tt \/ exists e, o = Exc e /\ is_comm_error e = false) /\ NoDup (sends (own i g)) /\
       (* one that has sent a command has returned normally, and has sent nothing else *)
       (forall X p, In (c, X, p) (sends (own i g)) -> In X commands -> o = Val tt /\ sends (own i g) = [(c, X, p)])).
Proof.
  intros D H V. cbv zeta.
  assert (S0 : sharing c (List.length (p_tasks P0)) (p_log P0) P0).
  { exists []. rewrite app_nil_r. split; [reflexivity|]. split; [exact H|]. split; [lia|]. split; [intros i e []|]. split; [|reflexivity].
    intros i m E. assert (L : (i < List.length (p_tasks P0))%nat) by (apply nth_error_Some; congruence). split; [|lia]. intros _. apply D. eapply nth_error_In. exact E. }
  assert (S1 : sharing c (List.length (p_tasks P0)) (p_log P0) (prun (S n) P0 es)).
  { revert V. induction es as [|e es IH] using rev_ind; intros V; [exact S0|]. unfold prun. rewrite fold_left_app. cbn [fold_left]. fold (prun (S n) P0 es).
    apply sharing_step; [|apply (V es e []); reflexivity]. apply IH. intros es1 e1 es2 E. apply (V es1 e1 (es2 ++ [e])). rewrite E, <- app_assoc. reflexivity. }
  destruct S1 as (g & L & W & _ & A & T & _). exists g. split; [exact L|]. split; [exact A|]. split; [exact W|].
  intros i o Hi E. destruct (T _ _ E) as (_ & T2). specialize (T2 Hi). cbn [parks] in T2.
  assert (Fin : forall t o0, goal c t o0 -> (o0 = Val tt \/ exists e, o0 = Exc e /\ is_comm_error e = false) /\ NoDup (sends t) /\
    (forall X p, In (c, X, p) (sends t) -> In X commands -> o0 = Val tt /\ sends t = [(c, X, p)])).
  { intros t o0 G. split; [|split; [eapply goal_nodup; exact G|]]; destruct G as (l & R & S & F & C).
    - destruct o0 as [[]|e|y]; [left; reflexivity|right; exists e; auto|destruct F].
    - rewrite (rounds_sends _ _ _ R). intros X p J K. apply in_map_iff in J. destruct J as ([X' p'] & E' & J). cbn [fst snd] in E'. injection E' as -> ->.
      destruct (C X p J K) as ([] & ->). split; [reflexivity|]. destruct S as [S|S]; [|destruct (plan_data l X p S J K)].
      destruct l as [|x [|y l]]; [destruct J|destruct J as [->|[]]; reflexivity|unfold le1 in S; cbn in S; lia]. }
  destruct T2 as [T2|(-> & t0 & r & -> & T2)]; [apply Fin; exact T2|].
  assert (E1 : sends (t0 ++ [Got r]) = sends t0) by (unfold sends; rewrite flat_map_app; cbn [flat_map app]; apply app_nil_r). rewrite E1. apply Fin. exact T2.
Qed.
Print Assumptions C111_shared.

(** a checker of the hypothesis, for the example *)
Definition serves_b (c : nat) (P : pool) (e : event) : bool :=
  match e with
  | Pool.Call (Disconnect _) => false
  | Resume i (KReply Y b) _ =>
      match rev (own i (p_log P)) with
      | AwaitReply _ _ :: Send _ X _ :: _ => (Y =? X + 1) && (negb (existsb (Z.eqb X) commands) || match b with [] => true | _ => false end)
      | _ => true
      end
  | Resume _ _ _ => false
  | Lose c' => negb (Nat.eqb c' c)
  | _ => true
  end.
Lemma serves_b_ok c P e : serves_b c P e = true -> serves c P e.
Proof.
  destruct e as [call|i k clk|i|c'|c' code b|]; cbn [serves_b serves]; auto.
  - destruct call; auto. discriminate.
  - destruct k as [Y b|  | | | | | ]; try discriminate. intros E X (t & c0 & p & ms & O). rewrite O, rev_app_distr in E. cbn [rev app] in E.
    apply andb_prop in E. destruct E as (E1 & E2). apply Z.eqb_eq in E1. subst Y. exists b. split; [reflexivity|]. intros J.
    assert (X1 : existsb (Z.eqb X) commands = true) by (apply existsb_exists; exists X; split; [exact J|apply Z.eqb_refl]). rewrite X1 in E2. cbn in E2. destruct b; [reflexivity|discriminate E2].
  - destruct (Nat.eqb_spec c' c); [discriminate|auto].
Qed.
Fixpoint served_b (n c : nat) (P : pool) (es : list event) : bool :=
  match es with [] => true | e :: es' => serves_b c P e && served_b n c (pstep n P e) es' end.
Lemma served_b_ok n c es : forall P, served_b n c P es = true -> forall es1 e es2, es = es1 ++ e :: es2 -> serves c (prun n P es1) e.
Proof.
  induction es as [|x es IH]; intros P B es1 e es2 E; [destruct es1; discriminate E|]. cbn [served_b] in B. apply andb_prop in B. destruct B as (B1 & B2).
  destruct es1 as [|y es1]; cbn [app] in E; injection E as -> ->; [apply serves_b_ok; exact B1|]. exact (IH _ B2 es1 e es2 eq_refl).
Qed.

(** a switch, a poll, a subscription, an invalid call and a whole update, all at once *)
Import Prop_Pool.
Definition at_once : list event :=
  [Pool.Call (SetCircuit (VInt 505) (VInt 1)); Pool.Call GetChemistry; Pool.Call (Subscribe 7 12500); Pool.Call (Subscribe 8 12505); Pool.Call (SetColorLights (VInt 99)); Pool.Call Update;
   reply 6 12527 (Messages.wire_status Prop_Decode.some_status); reply 3 12523 []; Lose 5; Push 0 12500 (Messages.wire_status Prop_Decode.some_status); Handle;
   reply 1 12531 []; Enter 4; reply 2 12593 (Messages.wire_chem Prop_Decode.some_chem)].
Definition share_start : list event := Pool.Call (Connect Hostile.to_adapter) :: login_of 0.
Definition share_idle (P : pool) : bool := forallb (fun t : Tasks.task unit => match t with Done _ => true | _ => false end) (p_tasks P).
Definition share_state (P : pool) := (w_proto (p_world P), m_proto (w_cm (p_world P)), connected 0 (p_world P), c_closing (get_conn 0 (p_world P)), c_open (get_conn 0 (p_world P)), w_retries (p_world P), List.length (w_conns (p_world P))).
Definition share_facts (P : pool) := (share_idle P, share_state P, served_b 2 0 P at_once, outcomes (prun 2 P at_once)).
Lemma share_run : option_map share_facts (ran 2 (Some 777) None 0 Hostile.its_host share_start) =
    Some (true, (Some 0%nat, Some 0%nat, true, false, true, 1, 1%nat), true, [Some (Val tt); Some (Val tt); Some (Val tt); Some (Val tt); Some (Val tt); Some (Exc EValue); None]).
Proof. vm_compute. reflexivity. Qed.
Example C111_nonvacuous : exists P0,
  ran 2 (Some 777) None 0 Hostile.its_host share_start = Some P0 /\
  (forall t, In t (p_tasks P0) -> exists o, t = Done o) /\ healthy 0 (p_world P0) /\
  (forall es1 e es2, at_once = es1 ++ e :: es2 -> serves 0 (prun 2 P0 es1) e) /\
  outcomes (prun 2 P0 at_once) = [Some (Val tt); Some (Val tt); Some (Val tt); Some (Val tt); Some (Val tt); Some (Exc EValue); None].
Proof.
  pose proof share_run as F. destruct (ran 2 (Some 777) None 0 Hostile.its_host share_start) as [P0|]; [|discriminate F].
  exists P0. split; [reflexivity|]. unfold option_map, share_facts in F.
  assert (F1 : share_idle P0 = true) by congruence. assert (F2 : share_state P0 = (Some 0%nat, Some 0%nat, true, false, true, 1, 1%nat)) by congruence.
  assert (F3 : served_b 2 0 P0 at_once = true) by congruence.
  split; [|split; [|split; [|congruence]]]; clear F.
  - intros t J. unfold share_idle in F1. rewrite forallb_forall in F1. specialize (F1 t J). destruct t; try discriminate F1. eauto.
  - unfold share_state in F2. injection F2 as A1 A2 A3 A4 A5 A6 A7. unfold healthy. rewrite A1, A2, A3, A4, A5, A6, A7. repeat split; lia.
  - apply served_b_ok. exact F3.
Qed.
