(** Proof machinery for Client.v: the flag [_is_client] against the exchanges of the history (C71). *)
From Verif Require Import Py F64 Struct Utf Utility Const Decode World Client P_Client P_Client2 P_Client3 P_Client4 P_Client5 P_Client6.
From Coq Require Import Lia.

Definition noremove (s : cstate) : Prop := forall t, In t (x_tasks s) -> ~ In FRemoving (k_frames t).
Definition calmc (s s' : cstate) : Prop := x_client s' = true -> x_client s = true /\ (noremove s -> noremove s').
Lemma calmc_refl s : calmc s s. Proof. intros H; auto. Qed.
Lemma calmc_trans a b c : calmc a b -> calmc b c -> calmc a c.
Proof. intros H K E. destruct (K E) as [E1 N1]. destruct (H E1) as [E2 N2]. auto. Qed.
Lemma calmc_same s s' : x_client s' = x_client s -> x_tasks s' = x_tasks s -> calmc s s'.
Proof. intros A B H. rewrite A in H. split; auto. unfold noremove. rewrite B. auto. Qed.
Lemma calmc_false s s' : x_client s' = false -> calmc s s'. Proof. intros A H. congruence. Qed.
Lemma calmc_tasks s s' : x_client s' = x_client s -> (forall t, In t (x_tasks s') -> In FRemoving (k_frames t) -> exists t0, In t0 (x_tasks s) /\ In FRemoving (k_frames t0)) -> calmc s s'.
Proof. intros A B H. rewrite A in H. split; auto. intros N t T F. destruct (B t T F) as (t0 & T0 & F0). exact (N t0 T0 F0). Qed.
Lemma calmc_returned i s : calmc s (returned i s).
Proof. unfold returned. destruct (get_task i s) as [[? ? ?| |] [|? ?]]; apply calmc_same; reflexivity. Qed.
Lemma calmc_push i f s : f <> FRemoving -> calmc s (push_frame i f s).
Proof.
  intros Nf. apply calmc_tasks; [reflexivity|]. unfold push_frame. cbn [x_tasks sx_tasks]. intros t T F.
  destruct (Nat.lt_ge_cases i (List.length (x_tasks s))) as [L|L]; [|rewrite xlset_out in T by auto; eauto].
  apply in_lset in T. destruct T as [->|T]; [|eauto]. cbn in F. destruct F as [F|F]; [congruence|].
  exists (get_task i s). split; [apply nth_In; auto|auto].
Qed.
Lemma calmc_pop i s : calmc s (pop_frame i s).
Proof.
  apply calmc_tasks; [reflexivity|]. unfold pop_frame. cbn [x_tasks sx_tasks]. intros t T F.
  destruct (Nat.lt_ge_cases i (List.length (x_tasks s))) as [L|L]; [|rewrite xlset_out in T by auto; eauto].
  apply in_lset in T. destruct T as [->|T]; [|eauto]. cbn in F.
  exists (get_task i s). split; [apply nth_In; auto|]. destruct (k_frames (get_task i s)); [destruct F|right; auto].
Qed.
Lemma calmc_add t0 s : ~ In FRemoving (k_frames t0) -> calmc s (sx_tasks (x_tasks s ++ [t0]) s).
Proof.
  intros N. apply calmc_tasks; [reflexivity|]. cbn [x_tasks sx_tasks]. intros t T F. apply in_app_iff in T.
  destruct T as [T|[<-|[]]]; [eauto|contradiction].
Qed.
Lemma calmc_enter_sub i s : calmc s (enter_sub i s).
Proof.
  unfold enter_sub. destruct (x_is_client s).
  - eapply calmc_trans; [|apply calmc_returned]. apply calmc_same; reflexivity.
  - apply calmc_push. discriminate.
Qed.
Lemma calmc_begin_sub i s : calmc s (begin_sub i s).
Proof.
  unfold begin_sub, wait_lock. destruct (x_attached s); [|apply calmc_returned]. destruct (lock_free s).
  - eapply calmc_trans; [|apply calmc_enter_sub]. apply calmc_same; reflexivity.
  - eapply calmc_trans; [|apply calmc_push; discriminate]. apply calmc_same; reflexivity.
Qed.
Lemma client_on_cur f s : (forall p s, x_client (f p s) = x_client s) -> x_client (on_cur f s) = x_client s.
Proof. intros H. unfold on_cur. destruct (x_cur s); auto. Qed.
Lemma tasks_on_cur f s : (forall p s, x_tasks (f p s) = x_tasks s) -> x_tasks (on_cur f s) = x_tasks s.
Proof. intros H. unfold on_cur. destruct (x_cur s); auto. Qed.
Lemma calmc_enter_unsub i s : calmc s (enter_unsub i s).
Proof.
  unfold enter_unsub. destruct (x_client s) eqn:C.
  - apply calmc_false. unfold push_frame. cbn [x_client sx_tasks]. rewrite !client_on_cur; reflexivity.
  - eapply calmc_trans; [|apply calmc_returned]. apply calmc_same; reflexivity.
Qed.
Lemma calmc_begin_unsub i s : calmc s (begin_unsub i s).
Proof.
  unfold begin_unsub, wait_lock. destruct (x_attached s); [|apply calmc_returned]. destruct (lock_free s).
  - eapply calmc_trans; [|apply calmc_enter_unsub]. apply calmc_same; reflexivity.
  - eapply calmc_trans; [|apply calmc_push; discriminate]. apply calmc_same; reflexivity.
Qed.
Lemma calmc_on_cur f s : (forall p s, x_client (f p s) = x_client s) -> (forall p s, x_tasks (f p s) = x_tasks s) -> calmc s (on_cur f s).
Proof. intros A B. apply calmc_same; [apply client_on_cur|apply tasks_on_cur]; auto. Qed.
Lemma calmc_subscribe cb code s : calmc s (subscribe cb code s).
Proof.
  unfold subscribe. destruct (x_attached s); [|apply calmc_refl].
  destruct (match tget code (x_table s) with Some st => (st, s) | None => _ end) as [st s1] eqn:E1.
  assert (H1 : calmc s s1) by (destruct (tget code (x_table s)); injection E1 as <- <-; [apply calmc_refl|apply calmc_same; reflexivity]).
  eapply calmc_trans; [exact H1|]. clear H1 E1. cbv zeta.
  set (s2 := if mem cb (get_set st s1) then s1 else _).
  assert (H2 : calmc s1 s2) by (unfold s2; destruct (mem _ _); [apply calmc_refl|apply calmc_same; reflexivity]).
  eapply calmc_trans; [exact H2|]. clearbody s2. clear H2.
  set (s3 := on_cur _ s2).
  assert (H3 : calmc s2 s3) by (apply calmc_on_cur; reflexivity).
  eapply calmc_trans; [exact H3|]. clearbody s3. clear H3.
  eapply calmc_trans; [apply (calmc_add (mkT (KSub cb code st) [])); intros []|]. fold (new_task (KSub cb code st) s3).
  destruct (x_needed _); [apply calmc_begin_sub|apply calmc_returned].
Qed.
Lemma calmc_remove c s : calmc s (remove_listener c s).
Proof.
  unfold remove_listener. destruct c as [i0 cb code st]. destruct (mem cb (get_set st s)); [|apply calmc_refl]. cbv zeta.
  set (l := filter _ _). set (s1 := sx_sets _ s).
  assert (H1 : calmc s s1) by (apply calmc_same; reflexivity). eapply calmc_trans; [exact H1|]. clearbody s1 l. clear H1.
  destruct l; [|apply calmc_refl]. destruct (tget code (x_table s1)); [|apply calmc_refl].
  eapply (calmc_trans _ (sx_table (tdel code (x_table s1)) s1)); [apply calmc_same; reflexivity|].
  set (s2 := sx_table _ s1). clearbody s2. destruct (x_attached s2); [|apply calmc_refl].
  eapply calmc_trans; [apply (calmc_on_cur (fun p => p_unregister p code)); reflexivity|].
  set (s3 := on_cur _ s2). destruct (x_table s3); [|apply calmc_refl]. apply calmc_add. cbn. intros [F|[]]. discriminate.
Qed.
Lemma calmc_call r s : calmc s (call_closure r s).
Proof. unfold call_closure. destruct (nth_error _ _); [apply calmc_remove|apply calmc_refl]. Qed.
Lemma calmc_attach i p s : calmc s (attach_to i p s) /\ x_client (attach_to i p s) = false.
Proof.
  assert (F : x_client (attach_to i p s) = false); [|split; [apply calmc_false|]; exact F].
  unfold attach_to. set (s1 := sx_client _ _). assert (C1 : x_client s1 = false) by reflexivity. clearbody s1.
  destruct (x_needed s1); [|rewrite client_returned; exact C1].
  assert (Fl : forall l s0, x_client s0 = false -> x_client (fold_left (fun s code => p_register p code (HClient code) s) l s0) = false).
  { induction l as [|c l IH]; intros s0 C0; cbn [fold_left]; auto. }
  set (s2 := fold_left _ _ _).
  assert (C2 : x_client s2 = false) by (apply Fl; exact C1).
  destruct (x_client (begin_sub i s2)) eqn:E; auto. destruct (calmc_begin_sub i s2 E) as [X _]. congruence.
Qed.
Lemma calmc_common react order code m s : calmc s (common_callback react order code m s).
Proof.
  set (I := fun x => calmc s x). change (I (common_callback react order code m s)). apply (common_inv I).
  - intros v s1 H. eapply calmc_trans; [exact H|]. apply calmc_same; reflexivity.
  - intros v s1 H. eapply calmc_trans; [exact H|]. apply calmc_same; reflexivity.
  - intros r s1 _ H. eapply calmc_trans; [exact H|]. apply calmc_call.
  - apply calmc_refl.
Qed.

Definition is_added (e : event) : bool := match e with EAdded _ => true | _ => false end.
(** events that end or undo a registration *)
Definition undoes (e : event) : bool := match e with ERemoved _ | EAttach _ _ => true | _ => false end.

Lemma calmc_step s e s' : xstep s e = Some s' -> is_added e = false -> calmc s s'.
Proof.
  intros E N. destruct e as [cb code|r|who| |who p|p|i|i|i|i|i|i|p code h|p code|p code m|order react]; cbn [xstep is_added] in *; try discriminate.
  - injection E as <-. apply calmc_subscribe.
  - destruct (Nat.ltb _ _); [|discriminate]. injection E as <-. apply calmc_call.
  - unfold by_task in E. destruct who as [i|].
    + destruct (top i s) as [[| | | |]|]; try discriminate. injection E as <-. destruct (x_is_client s); [apply calmc_begin_unsub|apply calmc_refl].
    + injection E as <-. eapply calmc_trans; [apply (calmc_add (mkT KUnsub [])); intros []|]. fold (new_task KUnsub s).
      destruct (x_is_client _); [apply calmc_begin_unsub|apply calmc_refl].
  - injection E as <-. apply calmc_same; reflexivity.
  - destruct (Nat.ltb _ _); [|discriminate]. unfold by_task in E. destruct who as [i|].
    + destruct (top i s) as [[| | | |]|]; try discriminate. injection E as <-. apply calmc_attach.
    + injection E as <-. apply calmc_false. apply calmc_attach.
  - destruct (q_up _); [|discriminate]. injection E as <-. apply calmc_same; reflexivity.
  - destruct (top i s) as [[| | | |]|]; try discriminate. injection E as <-. eapply calmc_trans; [apply calmc_pop|apply calmc_begin_unsub].
  - destruct (top i s) as [[| | | |]|]; try discriminate; injection E as <-; eapply calmc_trans; try apply calmc_pop; try apply calmc_refl;
      apply calmc_same; reflexivity.
  - destruct (x_locked s); [discriminate|]. destruct (x_queue s) as [|j q]; [discriminate|]. destruct (Nat.eqb i j); [|discriminate].
    assert (C : calmc s (sx_locked true (pop_frame i (sx_queue q s)))).
    { eapply (calmc_trans _ (sx_queue q s)); [apply calmc_same; reflexivity|]. eapply calmc_trans; [apply calmc_pop|]. apply calmc_same; reflexivity. }
    destruct (top i s) as [[| | | |]|]; try discriminate; injection E as <-; (eapply calmc_trans; [exact C|]); [apply calmc_enter_sub|apply calmc_enter_unsub].
  - destruct (top i s) as [[| | | |]|]; try discriminate. injection E as <-. eapply calmc_trans; [apply calmc_pop|]. apply calmc_same; reflexivity.
  - destruct (top i s) as [[| | | |]|]; try discriminate. injection E as <-. eapply calmc_trans; [apply calmc_pop|].
    eapply calmc_trans; [|apply calmc_returned]. apply calmc_same; reflexivity.
  - injection E as <-. apply calmc_same; reflexivity.
  - injection E as <-. apply calmc_same; reflexivity.
  - destruct (q_up _); [|discriminate]. destruct (tget _ _); injection E as <-; apply calmc_same; reflexivity.
  - destruct (x_pushes s) as [|[[code0|n] m] q]; [discriminate| |injection E as <-; apply calmc_same; reflexivity].
    assert (C : calmc s (common_callback react order code0 m (sx_pushes q s))).
    { eapply (calmc_trans _ (sx_pushes q s)); [apply calmc_same; reflexivity|apply calmc_common]. }
    destruct (tget code0 (x_table s)); [destruct (perm_b _ _); [|discriminate]|]; injection E as <-; exact C.
Qed.

Lemma undo_step s e s' : xstep s e = Some s' -> undoes e = true -> (x_client s = true -> noremove s) -> x_client s' = false.
Proof.
  intros E U H. destruct e as [cb code|r|who| |who p|p|i|i|i|i|i|i|p code h|p code|p code m|order react]; try discriminate.
  - cbn [xstep] in E. destruct (Nat.ltb _ _); [|discriminate]. unfold by_task in E. destruct who as [i|].
    + destruct (top i s) as [[| | | |]|]; try discriminate. injection E as <-. apply calmc_attach.
    + injection E as <-. apply calmc_attach.
  - assert (C : x_client s = false).
    { destruct (x_client s); auto. exfalso. cbn [xstep] in E. destruct (top i s) as [[| | | |]|] eqn:T; try discriminate.
      destruct (get_task_in _ _ _ T) as [A B]. exact (H eq_refl _ A B). }
    destruct (x_client s') eqn:X; auto. destruct (calmc_step _ _ _ E eq_refl X) as [Y _]. congruence.
Qed.

Definition registered_by (es : list event) : Prop :=
  exists es1 i es2, es = es1 ++ EAdded i :: es2 /\ forallb (fun e => negb (undoes e)) es2 = true.
Lemma noremove_added s i s' : I67 s -> xstep s (EAdded i) = Some s' -> noremove s'.
Proof.
  intros H E. cbn [xstep] in E. destruct (top i s) as [[| | | |]|] eqn:T; try discriminate. injection E as <-.
  assert (N : noremove (pop_frame i s)).
  { pose proof (ex_pop _ _ _ T) as P. cbn [is_exchange b2n] in P. unfold I67 in H. assert (Z : exchanges (pop_frame i s) = []).
    { destruct (exchanges (pop_frame i s)); [reflexivity|]. cbn in P. destruct (x_locked s); cbn in H; lia. }
    intros t Tt F. assert (X : In FRemoving (exchanges (pop_frame i s))).
    { unfold exchanges. apply filter_In. split; [|reflexivity]. apply in_concat. exists (k_frames t). split; [apply in_map; exact Tt|exact F]. }
    rewrite Z in X. destruct X. }
  set (s1 := sx_locked false _).
  assert (Q : x_tasks s1 = x_tasks (pop_frame i s)).
  { unfold s1. cbn [x_tasks sx_locked]. rewrite tasks_on_cur; reflexivity. }
  assert (Q2 : x_tasks (returned i s1) = x_tasks s1) by (unfold returned; destruct (get_task i s1) as [[? ? ?| |] [|? ?]]; reflexivity).
  unfold noremove. rewrite Q2, Q. exact N.
Qed.
Lemma xrun_snoc es e : forall s s', xrun s (es ++ [e]) = Some s' -> exists s1, xrun s es = Some s1 /\ xstep s1 e = Some s'.
Proof.
  induction es as [|x es IH]; intros s s'; cbn [app xrun].
  - destruct (xstep s e) as [y|] eqn:E; [|discriminate]. intros X. injection X as <-. exists s. auto.
  - destruct (xstep s x); [apply IH|discriminate].
Qed.
Lemma flag_run es : forall s, xrun client_init es = Some s -> x_client s = true -> registered_by es /\ noremove s.
Proof.
  induction es as [|e es IH] using rev_ind; intros s R C.
  { injection R as <-. discriminate. }
  apply xrun_snoc in R. destruct R as (s1 & R1 & E).
  destruct (is_added e) eqn:A.
  - destruct e as [| | | | | | | | |i| | | | | |]; try discriminate. split.
    + exists es, i, []. split; reflexivity.
    + eapply noremove_added; [|exact E]. eapply (run_inv I67); [intros; eapply I67_step; eauto|apply I67_init|exact R1].
  - destruct (calmc_step _ _ _ E A C) as [C1 N1]. destruct (IH _ R1 C1) as [(a & i & b & -> & F) N].
    split; [|auto]. exists a, i, (b ++ [e]). split; [rewrite <- app_assoc; reflexivity|]. rewrite forallb_app, F. cbn [forallb].
    destruct (undoes e) eqn:U; [|reflexivity]. rewrite (undo_step _ _ _ E U) in C; [discriminate|auto].
Qed.
