(** Theorem about the command line when answers come late (C136). Vocabulary: SpecSlow.v, Cli.v. *)
From Verif Require Import Py F64 Struct Utf Utility Const Spec Enum Decode World Request Gateway Traces Paths Api Hostile
  P_Base P_Monad P_Request SpecSlow P_Slow P_Slow2 Discovery Cli P_SlowCli Prop_Request Prop_Connect Prop_Slow Prop_Cli.

(** C136. [r] is what a run of the command line does when the adapter answers every message at
    once; with answers that come late, but not too late, a run prints the same, broadcasts the
    same, ends with the same exit code and leaves the same state. *)
Theorem C136_same_output n nw now o c w e t' rest : let r := cli n nw now o c w in
  (forall y, r_end r <> Stuck y) -> slower (spare w) (r_trace r) e t' ->
  cli n nw now o c (set_env (e ++ rest) w) = mkResult (r_out r) (r_net r) t' (set_env rest (r_world r)) (r_end r).
Proof.
  cbv zeta. unfold cli. destruct (if no_ip o then async_discover nw else ([], Ok [])) as [dv found].
  destruct (run n (program o now found c) w) as [ls [[t w1] z]] eqn:R. intros N S.
  assert (Nz : forall y, z <> Stuck y) by (intros y ->; exact (N y eq_refl)).
  assert (S1 : slower (spare w) t e t') by (destruct z as [?|x|?]; [exact S|destruct (is_sl x); exact S|exact S]). clear S N.
  pose (lim := fun X => Z.min (spare w X) (w_retries w)).
  assert (A16 : lim 16 <= 0) by (unfold lim, spare; cbn; lia). assert (AR : lim 12524 <= 0) by (unfold lim, spare; cbn; lia).
  assert (K : forall X, lim X <= w_retries w) by (intros X; apply Z.le_min_r).
  assert (S2 : slower lim t e t').
  { eapply slower_more_tries; [|exact S1]. intros X i. unfold lim, spare. clear. destruct ((X =? 12524) || (X =? 16)); intros I; [exfalso; lia|]. rewrite Z.min_id. lia. }
  rewrite (proj2 (proj2 (tolp_program lim A16 AR n o now found c w _ _ _ _ R Nz K)) e t' rest S2).
  destruct z as [?|x|?]; [reflexivity|destruct (is_sl x); reflexivity|reflexivity].
Qed.
Print Assumptions C136_same_output.

(** every answer one try late, the first one having timed out *)
Fixpoint delayed (t : trace) : list resp * trace :=
  match t with
  | Send c X b :: t1 =>
      match t1 with
      | AwaitReply _ _ :: Got r :: t2 =>
          if (X =? 12524) || (X =? 16) then (r :: fst (delayed t2), Send c X b :: AwaitReply c 2000 :: Got r :: snd (delayed t2))
          else (no_time :: ok :: r :: fst (delayed t2), Send c X b :: AwaitReply c 2000 :: Got no_time :: Sleep 1000 :: Got ok ::
             Send c X b :: AwaitReply c 2000 :: Got r :: snd (delayed t2))
      | _ => ([], [])
      end
  | Got r :: t1 => (r :: fst (delayed t1), Got r :: snd (delayed t1))
  | x :: t1 => (fst (delayed t1), x :: snd (delayed t1))
  | [] => ([], [])
  end.
(** every message is answered at once *)
Fixpoint prompt (t : trace) : bool :=
  match t with
  | [] => true
  | Send c X b :: t1 =>
      match t1 with
      | AwaitReply c1 2000 :: Got r :: t2 =>
          (Nat.eqb c c1 && match answer_of r with Some (k, _) => k =? X + 1 | None => false end && prompt t2)%bool
      | _ => false
      end
  | Got _ :: _ | AwaitReply _ _ :: _ => false
  | (Open _ _ _ | AwaitFutures _ _ | AwaitClosed _ | Sleep _) :: t1 => match t1 with Got _ :: t2 => prompt t2 | _ => false end
  | _ :: t1 => prompt t1
  end.
Lemma delayed_slower n t : (forall X, (X =? 12524) || (X =? 16) = false -> 1 <= n X) -> prompt t = true -> slower n t (fst (delayed t)) (snd (delayed t)).
Proof.
  intros L. assert (Q : forall k t, (List.length t <= k)%nat -> prompt t = true -> slower n t (fst (delayed t)) (snd (delayed t))); [|intros P; eapply Q; [reflexivity|exact P]].
  clear t. induction k as [|k IH]; intros t Ln P.
  - destruct t; [constructor|cbn in Ln; lia].
  - destruct t as [|x t]; [constructor|]. cbn [List.length] in Ln. destruct x as [c X b| |c ms|ip port ms| | | |ms| | | ]; cbn [prompt] in P; try discriminate P;
      try (cbn [delayed fst snd]; apply slower_else; [exact Logic.I|]; apply IH; [lia|exact P]);
      try (destruct t as [|[] t]; try discriminate P; cbn [delayed fst snd]; apply slower_wait; [exact Logic.I|]; apply IH; [cbn [List.length] in Ln; lia|exact P]).
    destruct t as [|[] t]; try discriminate P. destruct ms as [|ms|]; try discriminate P. 
    destruct (Pos.eq_dec ms 2000) as [->|Ne]; [|exfalso; clear - P Ne; repeat (destruct ms; try discriminate P); congruence].
    destruct t as [|[] t]; try discriminate P. apply andb_prop in P. destruct P as (P & Pt). apply andb_prop in P. destruct P as (Pc & Pa).
    apply Nat.eqb_eq in Pc. subst. destruct (answer_of _) as [[k0 a]|] eqn:A; [|discriminate Pa]. apply Z.eqb_eq in Pa. subst k0.
    cbn [List.length] in Ln. specialize (IH t ltac:(lia) Pt). cbn [delayed]. destruct ((X =? 12524) || (X =? 16)) eqn:Sx; cbn [fst snd].
    + match goal with |- slower _ _ (?r :: ?e) _ => change (r :: e) with ([r] ++ e) end.
      eapply (slower_ask n _ X b _ a _ _ _ _ [_; _; _]); [exact A|apply late_now|exact IH].
    + match goal with |- slower _ _ (?q :: ?s :: ?r :: ?e) _ => change (q :: s :: r :: e) with ([q; s; r] ++ e) end.
      eapply (slower_ask n _ X b _ a _ _ _ _ [_; _; _; _; _; _; _; _]); [exact A| |exact IH].
      eapply second_try; [apply L, Sx|apply late_futile; [split; reflexivity|left; reflexivity]|exact A].
Qed.
Definition run_on (w : world) : result := cli 5 some_net some_now (at_home false) (SCircuit 500 (u "on")) w.
Definition home_gw : world := new_gw (hello ++ [says (KReply 12531 [])] ++ update_answers ++ goodbye).
Lemma five {A B C D E : Type} (a a1 : A) (b b1 : B) (c c1 : C) (d d1 : D) (e e1 : E) : (a, b, c, d, e) = (a1, b1, c1, d1, e1) -> a = a1 /\ b = b1 /\ c = c1 /\ d = d1 /\ e = e1.
Proof. intros H. injection H. auto. Qed.
Lemma run_facts : (prompt (r_trace (run_on home_gw)), r_end (run_on home_gw), List.length (sends (r_trace (run_on home_gw))), List.length (r_out (run_on home_gw)),
  List.length (sends (snd (delayed (r_trace (run_on home_gw)))))) = (true, Val 0, 17%nat, 1%nat, 34%nat).
Proof.
  assert (Q : (let r := run_on home_gw in (prompt (r_trace r), r_end r, List.length (sends (r_trace r)), List.length (r_out r),
    List.length (sends (snd (delayed (r_trace r)))))) = (true, Val 0, 17%nat, 1%nat, 34%nat))
    by (vm_cast_no_check (eq_refl (true, @Val Z 0, 17%nat, 1%nat, 34%nat))).
  exact Q.
Qed.
Lemma run_on_late w e t' : (forall y, r_end (run_on w) <> Stuck y) -> slower (spare w) (r_trace (run_on w)) e t' ->
  run_on (set_env e w) = mkResult (r_out (run_on w)) (r_net (run_on w)) t' (set_env [] (r_world (run_on w))) (r_end (run_on w)).
Proof. intros N S. rewrite <- (app_nil_r e) at 1. exact (C136_same_output 5 some_net some_now (at_home false) (SCircuit 500 (u "on")) w e t' [] N S). Qed.
Lemma late_case w : w_retries w = 1 -> (prompt (r_trace (run_on w)), r_end (run_on w), List.length (sends (r_trace (run_on w))), List.length (r_out (run_on w)),
  List.length (sends (snd (delayed (r_trace (run_on w)))))) = (true, Val 0, 17%nat, 1%nat, 34%nat) ->
  slower (spare w) (r_trace (run_on w)) (fst (delayed (r_trace (run_on w)))) (snd (delayed (r_trace (run_on w)))) /\
  r_end (run_on (set_env (fst (delayed (r_trace (run_on w)))) w)) = Val 0 /\
  r_out (run_on (set_env (fst (delayed (r_trace (run_on w)))) w)) = r_out (run_on w) /\ List.length (r_out (run_on w)) = 1%nat /\
  List.length (sends (r_trace (run_on w))) = 17%nat /\ List.length (sends (r_trace (run_on (set_env (fst (delayed (r_trace (run_on w)))) w)))) = 34%nat.
Proof.
  intros R F. apply five in F. destruct F as (F0 & F1 & F2 & F3 & F4).
  assert (S : slower (spare w) (r_trace (run_on w)) (fst (delayed (r_trace (run_on w)))) (snd (delayed (r_trace (run_on w))))).
  { apply delayed_slower; [|exact F0]. intros X N. unfold spare. rewrite N, R. lia. }
  pose proof (run_on_late w _ _ ltac:(rewrite F1; discriminate) S) as K. rewrite K. cbn [r_end r_out r_trace].
  split; [exact S|]. split; [exact F1|]. split; [reflexivity|]. split; [exact F3|]. split; [exact F2|exact F4].
Qed.
(** 'set circuit 500 on' against an adapter that lets the first try of each of the 17 messages time out *)
Example C136_nonvacuous :
  slower (spare home_gw) (r_trace (run_on home_gw)) (fst (delayed (r_trace (run_on home_gw)))) (snd (delayed (r_trace (run_on home_gw)))) /\
  r_end (run_on (set_env (fst (delayed (r_trace (run_on home_gw)))) home_gw)) = Val 0 /\
  r_out (run_on (set_env (fst (delayed (r_trace (run_on home_gw)))) home_gw)) = r_out (run_on home_gw) /\ List.length (r_out (run_on home_gw)) = 1%nat /\
  List.length (sends (r_trace (run_on home_gw))) = 17%nat /\ List.length (sends (r_trace (run_on (set_env (fst (delayed (r_trace (run_on home_gw)))) home_gw)))) = 34%nat.
Proof. exact (late_case home_gw (eq_refl 1) run_facts). Qed.
