(** What a graceful close does guarantee, and corollaries of the keepalive refinement. *)
From Verif Require Import Py F64 Struct Utf Utility Spec P_Base P_Util Protocol P_Proto1 P_Proto2 P_Proto3 P_Proto4.

Definition nth_closer (s : pstate) (n : nat) : closer := nth n (p_closers s) CDone.

Lemma cset_length i x l : List.length (cset i x l) = List.length l.
Proof. revert i; induction l as [|y l IH]; intros [|i]; cbn; auto. Qed.
Lemma nth_cset i x l j d : (i < List.length l)%nat -> nth j (cset i x l) d = if Nat.eqb j i then x else nth j l d.
Proof.
  revert i j; induction l as [|y l IH]; intros i j H; cbn in H; [lia|].
  destruct i as [|i], j as [|j]; cbn; auto. apply IH. lia.
Qed.

(** closer n either stays as it is or moves on when event i = n allows it *)
Lemma closers_other s e : match e with EvClose _ | EvCloseResume _ | EvCloseCancel _ => False | _ => True end ->
  p_closers (pstep s e) = p_closers s.
Proof.
  assert (Sk : forall s, p_closers (stop_keepalive s) = p_closers s) by (intros s0; unfold stop_keepalive; destruct (p_stop s0); reflexivity).
  assert (Dl : forall m s, p_closers (deliver s m) = p_closers s).
  { intros m s0. unfold deliver, mark_done. destruct (zget (msg_id m) (p_coll s0)) as [f|]; cbn [up_futs p_futs p_coll].
    - destruct (fget f (p_futs s0)); cbn; try reflexivity; destruct (zget (msg_code m) (p_cbs s0)); reflexivity.
    - destruct (zget (msg_code m) (p_cbs s0)); reflexivity. }
  assert (Dr : forall b s, p_closers (data_received b s) = p_closers s).
  { intros b s0. unfold data_received. destruct (p_closing s0); [reflexivity|]. destruct (complete_messages _ _) as [ms r].
    assert (G : forall l s1, p_closers (fold_left deliver_res l s1) = p_closers s1).
    { induction l as [|[m|e0] l IH]; intros s1; cbn [fold_left deliver_res]; [reflexivity| |apply IH]. rewrite IH. apply Dl. }
    rewrite G. reflexivity. }
  assert (Sm : forall i c d s, p_closers (fst (send_message i c d s)) = p_closers s).
  { intros i c d s0. unfold send_message. destruct (p_transport s0); cbn [fst]; try reflexivity;
    try (destruct (makeMessage i c d); cbn [fst]; [|reflexivity]);
    destruct (p_ka _); try reflexivity; unfold set_keepalive; cbn [up_timers p_closers]; rewrite Sk; reflexivity. }
  destruct e; intros L; try contradiction; cbn [pstep].
  - destruct (p_transport s); reflexivity.
  - destruct (p_transport s); rewrite ?Dr; reflexivity.
  - assert (G : p_closers (fst (connection_lost s)) = p_closers s).
    { unfold connection_lost. pose proof (Sk (up_conn false TGone s)) as E. cbn [up_conn p_closers] in E.
      destruct (p_closed (up_tasks _ _)); cbn [fst]; [destruct (p_cb _)| |]; cbn [up_log up_closed up_tasks p_closers]; rewrite E; reflexivity. }
    destruct (p_transport s); auto.
  - destruct (p_lost_tasks s); reflexivity.
  - unfold await_send_message.
    match goal with |- context [up_log [OutRequest ?f ?i ?c ?d] ?x] => set (s1 := up_log [OutRequest f i c d] x) end.
    destruct (p_closing s1); [reflexivity|]. pose proof (Sm (p_next s) code data s1) as E.
    destruct (send_message (p_next s) code data s1) as [s2 [|]]; cbn [fst] in *; rewrite E; reflexivity.
  - apply Sm.
  - reflexivity.
  - reflexivity.
  - reflexivity.
  - reflexivity.
  - unfold set_keepalive. cbn [up_timers p_closers]. rewrite Sk. reflexivity.
  - rewrite Sk. reflexivity.
  - destruct (0 <=? dt); reflexivity.
  - destruct (p_timers s) as [|[n due] ts]; [reflexivity|]. destruct (due <=? p_now s); [|reflexivity]. cbn [up_timers p_ka]. destruct (p_ka s); reflexivity.
Qed.

Definition settled (fs : list nat) (l : list fstate) : Prop :=
  (forall f, In f fs -> fget f l <> FPending) \/ (exists f, In f fs /\ fget f l = FCancelled).

Lemma gather_settled fs l : gather_done fs l = true -> settled fs l.
Proof.
  unfold gather_done. intros H. apply orb_true_iff in H. destruct H as [H|H].
  - left. intros f Hf. rewrite forallb_forall in H. specialize (H f Hf). destruct (fget f l); [discriminate|congruence..].
  - right. apply existsb_exists in H. destruct H as (f & A & B). exists f. split; [exact A|]. destruct (fget f l); congruence.
Qed.

(** closer n of a run: it waits for fs until fs has settled *)
Definition waiting (n : nat) (fs : list nat) (s : pstate) : Prop :=
  (n < List.length (p_closers s))%nat /\ (Forall (fun f => f < List.length (p_futs s))%nat fs) /\
  (nth n (p_closers s) CDone = CGather fs \/ settled fs (p_futs s)).

Lemma settled_step s e fs : invF s -> wf_bytes (p_buff s) -> wf_event e -> Forall (fun f => f < List.length (p_futs s))%nat fs ->
  settled fs (p_futs s) -> settled fs (p_futs (pstep s e)).
Proof.
  intros I W We F S. destruct (step_futs s e I W We) as (_ & K). rewrite Forall_forall in F. destruct S as [A|(f & A & B)].
  - left. intros f Hf. rewrite K; auto.
  - right. exists f. split; [exact A|]. rewrite K; auto. congruence.
Qed.

Lemma waiting_step n fs s e : invF s -> wf_bytes (p_buff s) -> wf_event e -> waiting n fs s -> waiting n fs (pstep s e).
Proof.
  intros I W We (L & F & G). destruct (step_futs s e I W We) as (Len & K).
  assert (F' : Forall (fun f => f < List.length (p_futs (pstep s e)))%nat fs).
  { eapply Forall_impl; [|exact F]. cbn. intros; lia. }
  assert (S' : settled fs (p_futs s) -> settled fs (p_futs (pstep s e))) by (apply settled_step; assumption).
  assert (Oth : match e with EvClose _ | EvCloseResume _ | EvCloseCancel _ => False | _ => True end -> waiting n fs (pstep s e)).
  { intros O. pose proof (closers_other s e O) as E. unfold waiting. rewrite E. split; [exact L|]. split; [exact F'|]. destruct G; auto. }
  destruct e; try (apply Oth; exact Logic.I).
  - (* EvClose *)
    split; [|split; [exact F'|]].
    + cbn [pstep]. destruct (p_transport s); [exact L|..]; unfold close_start, all_done_start; cbn; destruct force; cbn; rewrite app_length; lia.
    + destruct G as [G|G]; [left|right; auto].
      cbn [pstep]. destruct (p_transport s); [exact G|..]; unfold close_start, all_done_start; cbn; destruct force; cbn; rewrite app_nth1; auto.
  - (* EvCloseResume *)
    assert (Len2 : List.length (p_closers (pstep s (EvCloseResume i))) = List.length (p_closers s)).
    { cbn [pstep]. unfold close_resume, close_transport. destruct (nth i (p_closers s) CDone); auto.
      - destruct (gather_done fs0 (p_futs s)); auto. destruct (p_transport s); cbn; apply cset_length.
      - destruct (p_closed s); cbn; auto; apply cset_length. }
    split; [rewrite Len2; exact L|]. split; [exact F'|]. destruct G as [G|G]; [|right; auto].
    cbn [pstep]. unfold close_resume. destruct (nth i (p_closers s) CDone) eqn:Ni; auto.
    + destruct (gather_done fs0 (p_futs s)) eqn:Gd; auto.
      destruct (Nat.eq_dec n i) as [->|N].
      * right. rewrite Ni in G. inversion G; subst. unfold close_transport. apply gather_settled in Gd.
        destruct (p_transport s); exact Gd.
      * left. assert (i < List.length (p_closers s))%nat.
        { destruct (Nat.lt_ge_cases i (List.length (p_closers s))); auto. rewrite nth_overflow in Ni by lia. discriminate. }
        unfold close_transport. destruct (p_transport s); cbn; rewrite nth_cset by assumption;
        (destruct (Nat.eqb_spec n i); [contradiction|exact G]).
    + assert (n <> i) by (intros ->; congruence).
      assert (i < List.length (p_closers s))%nat.
      { destruct (Nat.lt_ge_cases i (List.length (p_closers s))); auto. rewrite nth_overflow in Ni by lia. discriminate. }
      destruct (p_closed s); auto; left; cbn; rewrite nth_cset by assumption; (destruct (Nat.eqb_spec n i); [contradiction|exact G]).
  - (* EvCloseCancel *)
    assert (Len2 : List.length (p_closers (pstep s (EvCloseCancel i))) = List.length (p_closers s)).
    { cbn [pstep]. unfold close_cancel. destruct (nth i (p_closers s) CDone); auto.
      destruct (p_closed s); cbn; auto; apply cset_length. }
    split; [rewrite Len2; exact L|]. split; [exact F'|]. destruct G as [G|G]; [|right; auto].
    cbn [pstep]. unfold close_cancel. destruct (nth i (p_closers s) CDone) eqn:Ni; auto.
    assert (n <> i) by (intros ->; congruence).
    assert (i < List.length (p_closers s))%nat.
    { destruct (Nat.lt_ge_cases i (List.length (p_closers s))); auto. rewrite nth_overflow in Ni by lia. discriminate. }
    destruct (p_closed s); auto; left; cbn; rewrite nth_cset by assumption; (destruct (Nat.eqb_spec n i); [contradiction|exact G]).
Qed.

Lemma waiting_run n fs es : forall s, invF s -> wf_bytes (p_buff s) -> history es -> waiting n fs s -> waiting n fs (prun s es).
Proof.
  induction es as [|e es IH]; intros s I W Hs G; [exact G|]. inversion Hs; subst. rewrite prun_cons.
  apply IH; auto. - apply invF_step; auto. - apply step_stream; auto. - apply waiting_step; auto.
Qed.

Definition outstanding (s : pstate) (f : nat) : Prop := fget f (p_futs s) = FPending /\ current s f.

Lemma graceful_close s es : reachable s -> p_transport s <> TNone -> history es ->
  let n := List.length (p_closers s) in
  let s' := prun (pstep s (EvClose false)) es in
  (forall fs, nth_closer s' n <> CGather fs) ->
  (forall f, outstanding s f -> fget f (p_futs s') = FCancelled)
  \/ (exists g, fget g (p_futs s') = FCancelled /\ (g < List.length (p_futs s))%nat).
Proof.
  intros R T Hs n s' Nw. destruct (reach_inv s R) as (I & W & _).
  assert (E1 : pstep s (EvClose false) = close_start false s) by (cbn [pstep]; destruct (p_transport s); congruence).
  assert (R1 : reachable (pstep s (EvClose false))).
  { change (pstep s (EvClose false)) with (prun s [EvClose false]). apply reach_run; [exact R|]. repeat constructor. }
  destruct (reach_inv _ R1) as (I1 & W1 & _).
  set (fs := map snd (p_coll s)).
  assert (Fs : Forall (fun f => f < List.length (p_futs s))%nat fs).
  { apply Forall_forall. intros f Hf. unfold fs in Hf. apply in_map_iff in Hf. destruct Hf as ([i g] & <- & Hin).
    destruct I as [_ _ Nd Co _ _]. apply (zget_nodup i g) in Hin; [|exact Nd]. cbn. apply (Co i g Hin). }
  assert (G : waiting n fs (pstep s (EvClose false))).
  { rewrite E1. split; [|split].
    - unfold close_start, all_done_start. cbn. rewrite app_length. cbn. fold n. lia.
    - exact Fs.
    - left. unfold close_start, all_done_start. cbn. rewrite app_nth2 by (unfold n; lia). replace (n - _)%nat with 0%nat by (unfold n; lia). reflexivity. }
  pose proof (waiting_run n fs es _ I1 W1 Hs G) as (_ & _ & Q). fold s' in Q.
  destruct Q as [Q|Q]; [exfalso; apply (Nw fs); exact Q|].
  assert (P : forall f, outstanding s f -> In f fs).
  { intros f (P & Cu). pose proof (pending_in_coll s f I P Cu) as Z. apply zget_in in Z. unfold fs. change f with (snd (kth_id f, f)). apply in_map. exact Z. }
  destruct Q as [Q|(g & A & B)].
  - left. intros f Of. specialize (Q f (P f Of)).
    (* nothing completes while closing: a resolved one can only be cancelled... *)
    assert (Hnd : forall es s0, p_closing s0 = true -> forall m, fget f (p_futs s0) = FPending -> invF s0 -> wf_bytes (p_buff s0) -> history es ->
       fget f (p_futs (prun s0 es)) <> FDone m).
    { clear. induction es as [|e es IH]; intros s0 C m P I W Hs; [cbn; congruence|]. inversion Hs as [|? ? We Hes]; subst. rewrite prun_cons.
      assert (S1 : p_closing (pstep s0 e) = true /\ fget f (p_futs (pstep s0 e)) <> FDone m).
      { destruct (direct_send e) eqn:D.
        - destruct e; try discriminate. cbn [pstep]. destruct (send_message_frame id code data s0) as (_ & F & _ & _ & _ & Cl & _). rewrite F, Cl. split; [exact C|congruence].
        - destruct (step_closing s0 e C D) as (C' & _ & _ & _ & _ & Fd). split; [exact C'|]. intros K. apply Fd in K. congruence. }
      destruct S1 as (C1 & D1).
      assert (I1 : invF (pstep s0 e)) by (apply invF_step; auto).
      assert (W1 : wf_bytes (p_buff (pstep s0 e))) by (apply step_stream; auto).
      destruct (fget f (p_futs (pstep s0 e))) eqn:E.
      - apply IH; auto.
      - assert (Hs1 : (f < List.length (p_futs (pstep s0 e)))%nat).
        { destruct (Nat.lt_ge_cases f (List.length (p_futs (pstep s0 e)))); auto. rewrite fget_over in E by assumption. discriminate. }
        destruct (run_futs es _ I1 W1 Hes) as (_ & Fu). rewrite Fu; [rewrite E; exact D1|exact Hs1|congruence].
      - destruct (Nat.lt_ge_cases f (List.length (p_futs (pstep s0 e)))) as [L|L].
        + destruct (run_futs es _ I1 W1 Hes) as (_ & Fu). rewrite Fu; [rewrite E; discriminate|exact L|congruence].
        + destruct (step_futs s0 e I W We) as (Len & _).
          assert (f < List.length (p_futs s0))%nat. { destruct (Nat.lt_ge_cases f (List.length (p_futs s0))); auto. rewrite fget_over in P by assumption. discriminate. }
          lia. }
    destruct (fget f (p_futs s')) eqn:E; [congruence| |reflexivity]. exfalso.
    destruct Of as (P0 & _). apply (Hnd es (pstep s (EvClose false))) with (m := m); auto.
    { apply close_closing. exact T. } { rewrite E1. exact P0. }
  - right. exists g. split; [exact B|]. rewrite Forall_forall in Fs. apply Fs. exact A.
Qed.

(** keepalive corollaries, one event at a time *)
Definition timers_due (s : pstate) : list Z := map snd (p_timers s).

Lemma timers_at_most_one s : reachable s -> (List.length (timers_due s) <= 1)%nat.
Proof.
  intros (cb & es & Hs & ->). destruct (keepalive_refines cb es) as (A & _). unfold timers_due. rewrite A. destruct (k_due _); cbn; lia.
Qed.
Lemma ka_reach s : reachable s -> exists k, RelK s k.
Proof. intros (cb & es & _ & ->). exists (krun (p_init cb) k_init es). apply RelK_run. constructor; cbn; auto. Qed.
Lemma due_of s k : RelK s k -> timers_due s = match k_due k with Some d => [d] | None => [] end.
Proof. intros [_ _ C]. unfold timers_due. destruct (k_due k); [destruct C as (n & -> & _); reflexivity|rewrite C; reflexivity]. Qed.

Lemma ka_enable s a i : reachable s -> timers_due (pstep s (EvEnableKA a i)) = [p_now s + i] /\ p_ka (pstep s (EvEnableKA a i)) = Some a
  /\ p_interval (pstep s (EvEnableKA a i)) = i.
Proof.
  intros R. destruct (ka_reach s R) as (k & K). pose proof (RelK_step s k (EvEnableKA a i) K) as K'. rewrite (due_of _ _ K'). cbn [kstep is_lost sends k_due].
  destruct K as [A _ _]. rewrite A. split; [reflexivity|]. cbn [pstep]. unfold set_keepalive, stop_keepalive. cbn [up_ka p_stop]. destruct (p_stop s); split; reflexivity.
Qed.
Lemma ka_disable s : reachable s -> timers_due (pstep s EvDisableKA) = [].
Proof. intros R. destruct (ka_reach s R) as (k & K). pose proof (RelK_step s k EvDisableKA K) as K'. rewrite (due_of _ _ K'). reflexivity. Qed.
Lemma ka_lost s : reachable s -> up s = true -> timers_due (pstep s EvLost) = [].
Proof. intros R U. destruct (ka_reach s R) as (k & K). pose proof (RelK_step s k EvLost K) as K'. rewrite (due_of _ _ K').
  cbn [kstep is_lost sends]. rewrite U. reflexivity. Qed.
Lemma ka_off s : reachable s -> p_ka s = None -> timers_due s = [].
Proof. intros R Kn. destruct (ka_reach s R) as (k & K). rewrite (due_of _ _ K). destruct K as [_ B _]. rewrite Kn in B. destruct B as (_ & ->). reflexivity. Qed.
(** every event that sends (a request or a direct send that does not raise) re-arms the timer *)
Lemma ka_send s e : reachable s -> sends s e = true -> p_ka s <> None -> timers_due (pstep s e) = [p_now s + p_interval s].
Proof.
  intros R Sn On. destruct (ka_reach s R) as (k & K). pose proof (RelK_step s k e K) as K'. rewrite (due_of _ _ K').
  destruct K as [A B _]. destruct (p_ka s); [|congruence].
  destruct e; try discriminate Sn; cbn [kstep is_lost] ; rewrite Sn, B, A; reflexivity.
Qed.
(** all other events leave the timer alone *)
Lemma ka_other s e : reachable s -> sends s e = false ->
  match e with EvEnableKA _ _ | EvDisableKA | EvLost | EvFire => False | _ => True end -> timers_due (pstep s e) = timers_due s.
Proof.
  intros R Sn O. destruct (ka_reach s R) as (k & K). pose proof (RelK_step s k e K) as K'. rewrite (due_of _ _ K'), (due_of _ _ K).
  destruct e; try contradiction; cbn [kstep is_lost]; rewrite ?Sn; reflexivity.
Qed.
(** the keepalive runs only from a due timer, which it consumes *)
Lemma ka_fire s : reachable s ->
  match timers_due s with
  | [d] => if d <=? p_now s
           then exists a, p_ka s = Some a /\ p_log (pstep s EvFire) = p_log s ++ [OutKeepalive a] /\ timers_due (pstep s EvFire) = []
           else pstep s EvFire = s
  | _ => pstep s EvFire = s
  end.
Proof.
  intros R. destruct (ka_reach s R) as (k & K). rewrite (due_of _ _ K). pose proof (RelK_step s k EvFire K) as K'.
  pose proof (due_of _ _ K') as D'. cbn [kstep is_lost sends k_due] in D'.
  destruct K as [A B C]. destruct (k_due k) as [d|].
  - destruct C as (n & C & _). destruct (d <=? p_now s) eqn:E.
    + destruct (p_ka s) as [a|] eqn:Ka; [|destruct B; discriminate]. exists a. split; [reflexivity|].
      split; [cbn [pstep]; rewrite C, E; cbn [up_timers p_ka]; rewrite Ka; reflexivity|].
      rewrite D'. rewrite <- A, E. reflexivity.
    + cbn [pstep]. rewrite C, E. reflexivity.
  - cbn [pstep]. rewrite C. reflexivity.
Qed.
