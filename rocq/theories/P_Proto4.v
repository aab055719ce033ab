(** Closing, connection loss and the keepalive timer. *)
From Verif Require Import Py F64 Struct Utf Utility Spec P_Base P_Util Protocol P_Proto1 P_Proto2 P_Proto3.

(** ** closing *)
Definition quiet (o : pout) : Prop :=
  match o with OutWrite _ | OutCompleted _ _ | OutHandler _ _ | OutDropped _ => False | _ => True end.

Definition direct_send (e : pevent) : bool := match e with EvSend _ _ _ => true | _ => false end.

Lemma step_closing s e : p_closing s = true -> direct_send e = false ->
  p_closing (pstep s e) = true /\ (exists os, p_log (pstep s e) = p_log s ++ os /\ Forall quiet os) /\
  p_buff (pstep s e) = p_buff s /\
  (List.length (p_futs s) <= List.length (p_futs (pstep s e)))%nat /\
  (forall f, fget f (p_futs (pstep s e)) = FPending -> fget f (p_futs s) = FPending) /\
  (forall f m, fget f (p_futs (pstep s e)) = FDone m -> fget f (p_futs s) = FDone m).
Proof.
  intros C D.
  assert (Same : forall s', p_closing s' = true -> p_log s' = p_log s -> p_buff s' = p_buff s -> p_futs s' = p_futs s ->
    p_closing s' = true /\ (exists os, p_log s' = p_log s ++ os /\ Forall quiet os) /\ p_buff s' = p_buff s /\
    (List.length (p_futs s) <= List.length (p_futs s'))%nat /\
    (forall f, fget f (p_futs s') = FPending -> fget f (p_futs s) = FPending) /\
    (forall f m, fget f (p_futs s') = FDone m -> fget f (p_futs s) = FDone m)).
  { intros s' A B E ->. split; [exact A|]. split; [exists []; rewrite app_nil_r; auto|]. auto. }
  assert (Cancel : forall gs f, (fget f (fcancel_all gs (p_futs s)) = FPending -> fget f (p_futs s) = FPending) /\
    (forall m, fget f (fcancel_all gs (p_futs s)) = FDone m -> fget f (p_futs s) = FDone m)).
  { intros gs f. rewrite fget_fcancel_all. destruct (existsb _ gs); [|auto].
    destruct (fget f (p_futs s)); cbn; split; intros; discriminate || auto. }
  destruct e; cbn [pstep]; try discriminate D.
  - apply Same; destruct (p_transport s); auto.
  - assert (G : data_received b s = s) by (unfold data_received; rewrite C; reflexivity).
    rewrite G. assert (G2 : match p_transport s with TUp | TClosing => s | _ => s end = s) by (destruct (p_transport s); reflexivity).
    rewrite G2. apply Same; auto.
  - unfold connection_lost. destruct (stop_keepalive_frame (up_conn false TGone s)) as (_ & B & _ & Dl & _ & F & G & _).
    cbn [up_conn p_futs p_log p_buff p_closing] in *.
    assert (K : let s' := fst (let s0 := up_tasks (S (p_lost_tasks (stop_keepalive (up_conn false TGone s)))) (stop_keepalive (up_conn false TGone s)) in
       match p_closed s0 with FPending => let s1 := up_closed (FDone (0, 0, [])) s0 in ((if p_cb s1 then up_log [OutLost] s1 else s1), Ok tt) | _ => (s0, Err EInvalidState) end) in
       p_closing s' = true /\ (exists os, p_log s' = p_log s ++ os /\ Forall quiet os) /\ p_buff s' = p_buff s /\ p_futs s' = p_futs s).
    { cbv zeta. destruct (p_closed (up_tasks _ _)); cbn [fst]; [destruct (p_cb _)| |];
        cbn [up_log up_closed up_tasks p_closing p_log p_buff p_futs]; rewrite ?B, ?Dl, ?F, ?G;
        (split; [exact C|]; split; [|auto]);
        first [ exists [OutLost]; split; [reflexivity|repeat constructor] | exists []; rewrite app_nil_r; split; [reflexivity|constructor] ]. }
    cbv zeta in K. destruct K as (K1 & K2 & K3 & K4).
    assert (K5 : forall t, t = fst (connection_lost s) \/ t = s ->
       p_closing t = true /\ (exists os, p_log t = p_log s ++ os /\ Forall quiet os) /\ p_buff t = p_buff s /\
       (List.length (p_futs s) <= List.length (p_futs t))%nat /\
       (forall f, fget f (p_futs t) = FPending -> fget f (p_futs s) = FPending) /\
       (forall f m, fget f (p_futs t) = FDone m -> fget f (p_futs s) = FDone m)).
    { intros t [-> | ->]; [|apply Same; auto]. unfold connection_lost. split; [exact K1|]. split; [exact K2|]. split; [exact K3|].
      rewrite K4. auto. }
    apply K5. destruct (p_transport s); auto.
  - destruct (p_lost_tasks s); [apply Same; auto|]. unfold all_done_start. cbn [fst up_tasks up_futs p_closing p_log p_buff p_futs].
    split; [exact C|]. split; [exists []; rewrite app_nil_r; auto|]. split; [reflexivity|]. rewrite fcancel_all_length. split; [lia|].
    split; intros; eapply Cancel; eauto.
  - unfold await_send_message. cbn [up_log up_futs up_next p_closing p_futs p_coll]. rewrite C.
    cbn [fst up_log up_futs up_next p_closing p_futs p_log p_buff].
    split; [exact C|]. split; [eexists; split; [reflexivity|repeat constructor]|]. split; [reflexivity|].
    rewrite fcancel_length, app_length. split; [lia|].
    assert (G : forall f, fget f (fcancel (List.length (p_futs s)) (p_futs s ++ [FPending])) = fget f (p_futs s)).
    { intros f. rewrite fget_fcancel. destruct (Nat.eqb_spec f (List.length (p_futs s))) as [->|N].
      - rewrite (fget_over _ (p_futs s)) by lia. unfold fget. rewrite app_nth2 by lia. rewrite Nat.sub_diag. reflexivity.
      - unfold fget. destruct (Nat.lt_ge_cases f (List.length (p_futs s))).
        + apply app_nth1. exact H.
        + rewrite !nth_overflow; auto. rewrite app_length. cbn. lia. }
    split; intros f; rewrite G; auto.
  - cbn [up_futs p_closing p_log p_buff p_futs]. split; [exact C|]. split; [exists []; rewrite app_nil_r; auto|]. split; [reflexivity|].
    rewrite fcancel_length. split; [lia|]. pose proof (Cancel [f]) as K. split; intros g; eapply K.
  - assert (G : let s' := close_start force s in p_closing s' = true /\ (exists os, p_log s' = p_log s ++ os /\ Forall quiet os) /\ p_buff s' = p_buff s /\
      (List.length (p_futs s) <= List.length (p_futs s'))%nat /\
      (forall f, fget f (p_futs s') = FPending -> fget f (p_futs s) = FPending) /\
      (forall f m, fget f (p_futs s') = FDone m -> fget f (p_futs s) = FDone m)).
    { cbv zeta. unfold close_start, all_done_start. destruct force; cbn [up_closing up_futs up_closers p_closing p_log p_buff p_futs p_coll];
      (split; [reflexivity|]; split; [exists []; rewrite app_nil_r; auto|]; split; [reflexivity|]).
      - rewrite fcancel_all_length. split; [lia|]. split; intros; eapply Cancel; eauto.
      - auto. }
    cbv zeta in G. destruct (p_transport s); auto.
  - unfold close_resume, close_transport; destruct (nth i (p_closers s) CDone); try (apply Same; auto; fail).
    + destruct (gather_done fs (p_futs s)); [|apply Same; auto]. destruct (p_transport s); try (apply Same; auto; fail).
      cbn. split; [exact C|]. split; [exists [OutClosedTransport]; split; [reflexivity|repeat constructor]|]. auto.
    + destruct (p_closed s); apply Same; auto.
  - unfold close_cancel; destruct (nth i (p_closers s) CDone); try (apply Same; auto; fail).
    + cbn [up_futs p_closing p_log p_buff p_futs]. split; [exact C|]. split; [exists []; rewrite app_nil_r; auto|]. split; [reflexivity|].
      rewrite fcancel_all_length. split; [lia|]. split; intros; eapply Cancel; eauto.
    + destruct (p_closed s); apply Same; auto.
  - apply Same; auto.
  - apply Same; auto.
  - apply Same; auto.
  - destruct (set_keepalive_frame (up_ka (Some a) interval s)) as (_ & B & _ & Dl & _ & F & G & _). apply Same; auto.
    rewrite G. exact C.
  - destruct (stop_keepalive_frame (up_ka None (p_interval s) s)) as (_ & B & _ & Dl & _ & F & G & _). apply Same; auto.
    rewrite G. exact C.
  - apply Same; destruct (0 <=? dt); auto.
  - destruct (p_timers s) as [|[n due] ts]; [apply Same; auto|]. destruct (due <=? p_now s); [|apply Same; auto].
    cbn [up_timers p_ka]. destruct (p_ka s); [|apply Same; auto].
    cbn. split; [exact C|]. split; [eexists; split; [reflexivity|repeat constructor]|]. auto.
Qed.

Lemma run_closing es : forall s, p_closing s = true -> forallb (fun e => negb (direct_send e)) es = true ->
  p_closing (prun s es) = true /\ (exists os, p_log (prun s es) = p_log s ++ os /\ Forall quiet os) /\
  p_buff (prun s es) = p_buff s /\
  (forall f, fget f (p_futs (prun s es)) = FPending -> fget f (p_futs s) = FPending) /\
  (forall f m, fget f (p_futs (prun s es)) = FDone m -> fget f (p_futs s) = FDone m).
Proof.
  induction es as [|e es IH]; intros s C D.
  - cbn. split; [exact C|]. split; [exists []; rewrite app_nil_r; auto|]. auto.
  - cbn [forallb] in D. apply andb_true_iff in D. destruct D as (D1 & D2).
    apply negb_true_iff in D1. destruct (step_closing s e C D1) as (C1 & (os1 & L1 & Q1) & B1 & _ & P1 & F1).
    destruct (IH (pstep s e) C1 D2) as (C2 & (os2 & L2 & Q2) & B2 & P2 & F2). rewrite prun_cons.
    split; [exact C2|]. split; [exists (os1 ++ os2); rewrite L2, L1, <- app_assoc; split; [reflexivity|apply Forall_app; auto]|].
    split; [congruence|]. split; auto.
Qed.

Lemma close_closing s force : p_transport s <> TNone -> p_closing (pstep s (EvClose force)) = true
  /\ p_log (pstep s (EvClose force)) = p_log s.
Proof. intros T. cbn [pstep]. unfold close_start, all_done_start. destruct (p_transport s); try congruence; destruct force; split; reflexivity. Qed.

(** C22 / C24: cancelling everything in the collection *)
Lemma all_cancelled s f : invF s -> fget f (p_futs s) = FPending -> current s f ->
  fget f (fcancel_all (map snd (p_coll s)) (p_futs s)) = FCancelled.
Proof.
  intros I P Cu. pose proof (pending_in_coll s f I P Cu) as G. rewrite fget_fcancel_all.
  assert (E : existsb (Nat.eqb f) (map snd (p_coll s)) = true).
  { apply existsb_exists. exists f. split; [|apply Nat.eqb_refl]. apply zget_in in G.
    change f with (snd (kth_id f, f)). apply in_map. exact G. }
  rewrite E, P. reflexivity.
Qed.

Lemma force_close s f : reachable s -> p_transport s <> TNone -> fget f (p_futs s) = FPending -> current s f ->
  fget f (p_futs (pstep s (EvClose true))) = FCancelled.
Proof.
  intros R T P Cu. destruct (reach_inv s R) as (I & _). cbn [pstep].
  assert (G : p_futs (close_start true s) = fcancel_all (map snd (p_coll s)) (p_futs s)) by reflexivity.
  destruct (p_transport s); try congruence; rewrite G; apply all_cancelled; assumption.
Qed.

(** ** connection loss *)
Definition lost_task (e : pevent) : bool := match e with EvLostTask => true | _ => false end.

Lemma lost_tasks_step s e : lost_task e = false -> (p_lost_tasks s <= p_lost_tasks (pstep s e))%nat.
Proof.
  assert (Sk : forall s, p_lost_tasks (stop_keepalive s) = p_lost_tasks s) by (intros s0; unfold stop_keepalive; destruct (p_stop s0); reflexivity).
  assert (Dl : forall m s, p_lost_tasks (deliver s m) = p_lost_tasks s).
  { intros m s0. unfold deliver, mark_done. destruct (zget (msg_id m) (p_coll s0)) as [f|]; cbn [up_futs p_futs p_coll].
    - destruct (fget f (p_futs s0)); cbn; try reflexivity; destruct (zget (msg_code m) (p_cbs s0)); reflexivity.
    - destruct (zget (msg_code m) (p_cbs s0)); reflexivity. }
  assert (Dr : forall b s, p_lost_tasks (data_received b s) = p_lost_tasks s).
  { intros b s0. unfold data_received. destruct (p_closing s0); [reflexivity|]. destruct (complete_messages _ _) as [ms r].
    assert (G : forall l s1, p_lost_tasks (fold_left deliver_res l s1) = p_lost_tasks s1).
    { induction l as [|[m|e0] l IH]; intros s1; cbn [fold_left deliver_res]; [reflexivity| |apply IH]. rewrite IH. apply Dl. }
    rewrite G. reflexivity. }
  assert (Sm : forall i c d s, p_lost_tasks (fst (send_message i c d s)) = p_lost_tasks s).
  { intros i c d s0. unfold send_message. destruct (p_transport s0); cbn [fst]; try reflexivity;
    try (destruct (makeMessage i c d); cbn [fst]; [|reflexivity]);
    destruct (p_ka _); try reflexivity; unfold set_keepalive; cbn [up_timers p_lost_tasks]; rewrite Sk; reflexivity. }
  destruct e; intros L; try discriminate L; cbn [pstep].
  - destruct (p_transport s); cbn; lia.
  - destruct (p_transport s); rewrite ?Dr; lia.
  - assert (G : (p_lost_tasks s <= p_lost_tasks (fst (connection_lost s)))%nat).
    { unfold connection_lost. pose proof (Sk (up_conn false TGone s)) as E. cbn [up_conn p_lost_tasks] in E.
      destruct (p_closed (up_tasks _ _)); cbn [fst]; [destruct (p_cb _)| |]; cbn [up_log up_closed up_tasks p_lost_tasks]; rewrite E; lia. }
    destruct (p_transport s); lia.
  - unfold await_send_message.
    match goal with |- context [up_log [OutRequest ?f ?i ?c ?d] ?x] => set (s1 := up_log [OutRequest f i c d] x) end.
    destruct (p_closing s1); [cbn; lia|]. pose proof (Sm (p_next s) code data s1) as E.
    destruct (send_message (p_next s) code data s1) as [s2 [|]]; cbn [fst] in *; rewrite E; cbn; lia.
  - rewrite Sm. lia.
  - cbn. lia.
  - unfold close_start, all_done_start. destruct (p_transport s); try lia; destruct force; cbn; lia.
  - unfold close_resume, close_transport; destruct (nth i (p_closers s) CDone);
      try (destruct (gather_done fs (p_futs s)); [|lia]; destruct (p_transport s); cbn; lia);
      try (destruct (p_closed s); cbn; lia); lia.
  - unfold close_cancel; destruct (nth i (p_closers s) CDone); cbn; try lia; destruct (p_closed s); cbn; lia.
  - cbn; lia.
  - cbn; lia.
  - cbn; lia.
  - unfold set_keepalive. cbn [up_timers p_lost_tasks]. rewrite Sk. cbn. lia.
  - rewrite Sk. cbn. lia.
  - destruct (0 <=? dt); cbn; lia.
  - destruct (p_timers s) as [|[n due] ts]; [lia|]. destruct (due <=? p_now s); [|lia]. cbn [up_timers p_ka]. destruct (p_ka s); cbn; lia.
Qed.

Lemma lost_tasks_run es : forall s, forallb (fun e => negb (lost_task e)) es = true ->
  (p_lost_tasks s <= p_lost_tasks (prun s es))%nat.
Proof.
  induction es as [|e es IH]; intros s D; [cbn; lia|]. cbn [forallb] in D. apply andb_true_iff in D. destruct D as (D1 & D2).
  apply negb_true_iff in D1. rewrite prun_cons. pose proof (lost_tasks_step s e D1). specialize (IH (pstep s e) D2). lia.
Qed.

Lemma lost_task_cancels s f : reachable s -> (0 < p_lost_tasks s)%nat -> fget f (p_futs s) = FPending -> current s f ->
  fget f (p_futs (pstep s EvLostTask)) = FCancelled.
Proof.
  intros R T P Cu. destruct (reach_inv s R) as (I & _). cbn [pstep].
  destruct (p_lost_tasks s); [lia|]. unfold all_done_start. cbn [fst up_tasks up_futs p_futs]. apply all_cancelled; assumption.
Qed.

Lemma lost_now s : up s = true ->
  let s' := pstep s EvLost in
  p_connected s' = false /\ up s' = false /\ p_stop s' = None /\ (0 < p_lost_tasks s')%nat
  /\ p_log s' = p_log s ++ (if p_cb s then match p_closed s with FPending => [OutLost] | _ => [] end else []).
Proof.
  unfold up. intros U. cbv zeta. cbn [pstep].
  assert (G : let s' := fst (connection_lost s) in
    p_connected s' = false /\ p_transport s' = TGone /\ p_stop s' = None /\ (0 < p_lost_tasks s')%nat
    /\ p_log s' = p_log s ++ (if p_cb s then match p_closed s with FPending => [OutLost] | _ => [] end else [])).
  { cbv zeta. unfold connection_lost, stop_keepalive. cbn [up_conn p_stop].
    destruct (p_stop s) eqn:St; cbn; rewrite ?St; destruct (p_closed s); cbn; destruct (p_cb s) eqn:Cb; cbn;
      rewrite ?St, ?app_nil_r; repeat split; auto; lia. }
  cbv zeta in G. destruct G as (A & B & C & D & E).
  destruct (p_transport s); try discriminate; rewrite B; auto.
Qed.

(** number of runs of the connection-lost callback *)
Definition lost_count (log : list pout) : nat :=
  List.length (filter (fun o => match o with OutLost => true | _ => false end) log).

Definition cancels_close (e : pevent) : bool := match e with EvCloseCancel _ => true | _ => false end.

Lemma lost_count_app a b : lost_count (a ++ b) = (lost_count a + lost_count b)%nat.
Proof. unfold lost_count. rewrite filter_app, app_length. reflexivity. Qed.
Lemma lost_count_snoc l o : match o with OutLost => False | _ => True end -> lost_count (l ++ [o]) = lost_count l.
Proof. intros H. rewrite lost_count_app. destruct o; try contradiction; cbn; lia. Qed.

(** life cycle of the transport, of [_closed] and of the callback count *)
Record InvL (s : pstate) : Prop := {
  il_cb : (lost_count (p_log s) <= 1)%nat;
  il_zero : p_transport s <> TGone -> lost_count (p_log s) = 0%nat;
  il_nocb : p_cb s = false -> lost_count (p_log s) = 0%nat
}.
(** ... when no async_close task is cancelled *)
Record InvL' (s : pstate) : Prop := {
  il_closed : up s = true -> p_closed s = FPending;
  il_one : p_transport s = TGone -> p_cb s = true -> lost_count (p_log s) = 1%nat
}.

Lemma step_life s e : wf_event e -> invF s -> wf_bytes (p_buff s) ->
  p_cb (pstep s e) = p_cb s /\
  ((p_transport (pstep s e) = p_transport s /\ p_closed (pstep s e) = p_closed s /\ lost_count (p_log (pstep s e)) = lost_count (p_log s))
   \/ (e = EvMade /\ p_transport s = TNone /\ p_transport (pstep s e) = TUp /\ p_closed (pstep s e) = FPending /\ p_log (pstep s e) = p_log s)
   \/ (p_transport s = TUp /\ p_transport (pstep s e) = TClosing /\ p_closed (pstep s e) = p_closed s /\ lost_count (p_log (pstep s e)) = lost_count (p_log s))
   \/ (e = EvLost /\ up s = true /\ p_transport (pstep s e) = TGone /\
       p_log (pstep s e) = p_log s ++ (if p_cb s then match p_closed s with FPending => [OutLost] | _ => [] end else []))
   \/ (cancels_close e = true /\ p_transport (pstep s e) = p_transport s /\ lost_count (p_log (pstep s e)) = lost_count (p_log s))).
Proof.
  intros We I Wb.
  assert (Sk : forall s, p_cb (stop_keepalive s) = p_cb s /\ p_closed (stop_keepalive s) = p_closed s
     /\ p_transport (stop_keepalive s) = p_transport s /\ p_log (stop_keepalive s) = p_log s)
    by (intros s0; unfold stop_keepalive; destruct (p_stop s0); auto).
  assert (Dl : forall m s, p_cb (deliver s m) = p_cb s /\ p_closed (deliver s m) = p_closed s /\ p_transport (deliver s m) = p_transport s
     /\ lost_count (p_log (deliver s m)) = lost_count (p_log s)).
  { intros m s0. unfold deliver, mark_done. destruct (zget (msg_id m) (p_coll s0)) as [f|]; cbn [up_futs p_futs p_coll].
    - destruct (fget f (p_futs s0)); cbn [up_log up_futs p_cb p_closed p_transport p_log p_cbs]; try destruct (zget (msg_code m) (p_cbs s0));
        cbn [up_log up_futs p_cb p_closed p_transport p_log]; repeat split; auto; apply lost_count_snoc; exact Logic.I.
    - destruct (zget (msg_code m) (p_cbs s0)); cbn [up_log up_futs p_cb p_closed p_transport p_log]; repeat split; auto; apply lost_count_snoc; exact Logic.I. }
  assert (Dr : forall b s, p_cb (data_received b s) = p_cb s /\ p_closed (data_received b s) = p_closed s
     /\ p_transport (data_received b s) = p_transport s /\ lost_count (p_log (data_received b s)) = lost_count (p_log s)).
  { intros b s0. unfold data_received. destruct (p_closing s0); [auto|]. destruct (complete_messages _ _) as [ms r].
    assert (G : forall l s1, p_cb (fold_left deliver_res l s1) = p_cb s1 /\ p_closed (fold_left deliver_res l s1) = p_closed s1
      /\ p_transport (fold_left deliver_res l s1) = p_transport s1 /\ lost_count (p_log (fold_left deliver_res l s1)) = lost_count (p_log s1)).
    { induction l as [|[m|e0] l IH]; intros s1; cbn [fold_left deliver_res]; [auto| |apply IH].
      destruct (IH (deliver s1 m)) as (A & B & C & D). destruct (Dl m s1) as (A1 & B1 & C1 & D1). rewrite A, B, C, D. auto. }
    destruct (G ms (up_buff r s0)) as (A & B & C & D). auto. }
  assert (Sm : forall i c d s, p_cb (fst (send_message i c d s)) = p_cb s /\ p_closed (fst (send_message i c d s)) = p_closed s
    /\ p_transport (fst (send_message i c d s)) = p_transport s /\ lost_count (p_log (fst (send_message i c d s))) = lost_count (p_log s)).
  { intros i c d s0. destruct (send_message_frame i c d s0) as (_ & _ & _ & _ & _ & _ & T & L).
    assert (A : p_cb (fst (send_message i c d s0)) = p_cb s0 /\ p_closed (fst (send_message i c d s0)) = p_closed s0).
    { unfold send_message. destruct (p_transport s0); cbn [fst]; auto;
      try (destruct (makeMessage i c d); cbn [fst]; [|auto]);
      destruct (p_ka _); auto; unfold set_keepalive; cbn [up_timers p_cb p_closed];
      match goal with |- context [stop_keepalive ?x] => destruct (Sk x) as (K1 & K2 & _) end; rewrite K1, K2; auto. }
    destruct A as (A & B). split; [exact A|]. split; [exact B|]. split; [exact T|].
    destruct L as [->|(_ & b & _ & ->)]; [reflexivity|]. rewrite lost_count_app. cbn. lia. }
  destruct e; cbn [pstep].
  - destruct (p_transport s) eqn:T; (split; [reflexivity|]); [right; left; cbn; auto|left; rewrite ?T; auto..].
  - destruct (Dr b s) as (A & B & C & D). destruct (p_transport s) eqn:T; rewrite ?T; (split; [auto|]); left; auto; rewrite C; auto.
  - destruct (up s) eqn:U.
    + destruct (lost_now s U) as (_ & _ & _ & _ & L). cbn [pstep] in L.
      assert (A : p_cb (fst (connection_lost s)) = p_cb s /\ p_transport (fst (connection_lost s)) = TGone).
      { unfold connection_lost. destruct (Sk (up_conn false TGone s)) as (K1 & K2 & K3 & K4). cbn [up_conn p_cb p_transport] in K1, K3.
        destruct (p_closed (up_tasks _ _)); cbn [fst]; [destruct (p_cb (up_closed _ _))| |]; cbn [up_log up_closed up_tasks p_cb p_transport]; auto. }
      destruct A as (A & B). unfold up in U.
      destruct (p_transport s); try discriminate; (split; [exact A|]); right; right; right; left; unfold up; auto.
    + unfold up in U. destruct (p_transport s) eqn:T; try discriminate; (split; [reflexivity|]); left; rewrite ?T; auto.
  - destruct (p_lost_tasks s); split; auto.
  - unfold await_send_message.
    match goal with |- context [up_log [OutRequest ?f ?i ?c ?d] ?x] => set (s1 := up_log [OutRequest f i c d] x) end.
    assert (K : p_cb s1 = p_cb s /\ p_closed s1 = p_closed s /\ p_transport s1 = p_transport s /\ lost_count (p_log s1) = lost_count (p_log s)).
    { unfold s1. cbn [up_log up_futs up_next p_cb p_closed p_transport p_log]. rewrite lost_count_app. cbn. repeat split; lia. }
    destruct K as (K1 & K2 & K3 & K4).
    destruct (p_closing s1).
    + cbn [fst up_futs p_cb p_closed p_transport p_log]. auto.
    + destruct (Sm (p_next s) code data s1) as (A & B & C & D).
      destruct (send_message (p_next s) code data s1) as [s2 [|]]; cbn [fst] in *; (split; [congruence|]); left; repeat split; congruence.
  - destruct (Sm id code data s) as (A & B & C & D). split; [exact A|]. left. auto.
  - split; auto.
  - unfold close_start, all_done_start. destruct (p_transport s) eqn:T; (destruct force; (split; [reflexivity|]); left; cbn; rewrite ?T; auto).
  - unfold close_resume, close_transport; destruct (nth i (p_closers s) CDone).
    + destruct (gather_done fs (p_futs s)); [|auto]. destruct (p_transport s) eqn:T; cbn [up_log up_conn up_closers p_cb p_transport p_closed p_log]; (split; [reflexivity|]); rewrite ?T; auto.
      right; right; left. rewrite lost_count_snoc by exact Logic.I. auto.
    + destruct (p_closed s) eqn:E; (split; [reflexivity|]); left; cbn; rewrite ?E; auto.
    + auto.
    + auto.
  - unfold close_cancel; destruct (nth i (p_closers s) CDone); [|destruct (p_closed s) eqn:E| |]; (split; [reflexivity|]); right; right; right; right; auto.
  - auto.
  - auto.
  - auto.
  - split; [|left]; unfold set_keepalive; cbn [up_timers p_cb p_closed p_transport p_log];
      destruct (Sk (up_ka (Some a) interval s)) as (A & B & C & D); rewrite ?A, ?B, ?C, ?D; auto.
  - destruct (Sk (up_ka None (p_interval s) s)) as (A & B & C & D). split; [exact A|]. left. rewrite D. auto.
  - destruct (0 <=? dt); auto.
  - destruct (p_timers s) as [|[n due] ts]; [auto|]. destruct (due <=? p_now s); [|auto]. cbn [up_timers p_ka]. destruct (p_ka s); [|auto].
    cbn [up_log up_timers p_cb p_transport p_closed p_log]. rewrite lost_count_snoc by exact Logic.I. auto.
Qed.

Lemma InvL_step s e : wf_event e -> invF s -> wf_bytes (p_buff s) -> InvL s -> InvL (pstep s e).
Proof.
  intros We I Wb [A B C]. destruct (step_life s e We I Wb) as (Cb & [(T & Cl & L)|[(-> & T0 & T & Cl & L)|[(T0 & T & Cl & L)|[(-> & U & T & L)|(_ & T & L)]]]]).
  - constructor; rewrite ?Cb, ?T, ?L; auto.
  - constructor; rewrite ?Cb, ?T, ?L; auto. intros _. apply B. congruence.
  - constructor; rewrite ?Cb, ?T, ?L; auto. intros _. apply B. congruence.
  - assert (Z : lost_count (p_log s) = 0%nat). { apply B. unfold up in U. destruct (p_transport s); discriminate. }
    constructor; rewrite ?Cb, ?T, ?L, ?lost_count_app, ?Z.
    + destruct (p_cb s), (p_closed s); cbn; lia.
    + congruence.
    + intros K. rewrite K. reflexivity.
  - constructor; rewrite ?Cb, ?T, ?L; auto.
Qed.
Lemma InvL'_step s e : wf_event e -> invF s -> wf_bytes (p_buff s) -> cancels_close e = false -> InvL s -> InvL' s -> InvL' (pstep s e).
Proof.
  intros We I Wb Cc [A B C] [D E]. destruct (step_life s e We I Wb) as (Cb & [(T & Cl & L)|[(-> & T0 & T & Cl & L)|[(T0 & T & Cl & L)|[(-> & U & T & L)|(F & _)]]]]).
  - constructor; unfold up in *; rewrite ?Cb, ?T, ?Cl, ?L; auto.
  - constructor; unfold up in *; rewrite ?Cb, ?T, ?Cl, ?L; auto. congruence.
  - constructor; rewrite ?Cb, ?T, ?Cl, ?L; [|congruence]. intros _. apply D. unfold up. rewrite T0. reflexivity.
  - constructor; [unfold up; rewrite T; discriminate|]. rewrite ?Cb, ?T, ?L, ?lost_count_app.
    assert (N : p_transport s <> TGone) by (unfold up in U; destruct (p_transport s); discriminate).
    intros _ K. rewrite (B N), (D U), K. reflexivity.
  - congruence.
Qed.

Lemma life_run cb es : history es ->
  let s := prun (p_init cb) es in
  p_cb s = cb /\ (lost_count (p_log s) <= 1)%nat /\ (p_transport s <> TGone -> lost_count (p_log s) = 0%nat) /\
  (forallb (fun e => negb (cancels_close e)) es = true ->
   (up s = true -> p_closed s = FPending) /\ (p_transport s = TGone -> cb = true -> lost_count (p_log s) = 1%nat)).
Proof.
  intros Hs. cbv zeta.
  assert (G : forall es s, invF s -> wf_bytes (p_buff s) -> history es -> InvL s ->
     InvL (prun s es) /\ p_cb (prun s es) = p_cb s /\ (forallb (fun e => negb (cancels_close e)) es = true -> InvL' s -> InvL' (prun s es))).
  { clear. induction es as [|e es IH]; intros s I W Hs L; [auto|].
    inversion Hs as [|? ? We Hes]; subst. rewrite prun_cons.
    destruct (IH (pstep s e) (invF_step s e I W We) (proj1 (step_stream s e I W We)) Hes (InvL_step s e We I W L)) as (A & B & C).
    split; [exact A|]. split; [rewrite B; apply step_life; auto|]. cbn [forallb]. intros D. apply andb_true_iff in D. destruct D as (D1 & D2).
    intros L'. apply C; [exact D2|]. apply InvL'_step; auto. apply negb_true_iff. exact D1. }
  destruct (G es (p_init cb) (invF_init cb) (Forall_nil _) Hs) as ([A B C] & Cb & D).
  { constructor; cbn; auto. }
  split; [exact Cb|]. split; [exact A|]. split; [exact B|]. intros E.
  destruct (D E) as [D1 D2]; [constructor; cbn; discriminate|]. split; [exact D1|]. intros T K. apply D2; [exact T|]. rewrite Cb. exact K.
Qed.

(** ** keepalive: a three-field abstract clock *)
Record ka := mkKA { k_on : option Z; k_due : option Z; k_now : Z }.
Definition k_init : ka := mkKA None None 0.

(** does this event send a message without raising? *)
Definition send_ok (s : pstate) (id code : Z) (data : bytes) : bool :=
  match p_transport s with
  | TNone => false
  | TUp => match makeMessage id code data with Ok _ => true | Err _ => false end
  | _ => true
  end.
Definition sends (s : pstate) (e : pevent) : bool :=
  match e with
  | EvRequest code data => negb (p_closing s) && send_ok s (p_next s) code data
  | EvSend id code data => send_ok s id code data
  | _ => false
  end.

(** [lost] and [sent] say whether the event is a connection loss / a successful send *)
Definition kstep (lost sent : bool) (k : ka) (e : pevent) : ka :=
  match e with
  | EvEnableKA _ i => mkKA (Some i) (Some (k_now k + i)) (k_now k)
  | EvDisableKA => mkKA None None (k_now k)
  | EvTick dt => mkKA (k_on k) (k_due k) (if 0 <=? dt then k_now k + dt else k_now k)
  | EvFire => mkKA (k_on k) (match k_due k with Some d => if d <=? k_now k then None else Some d | None => None end) (k_now k)
  | _ =>
      if lost then mkKA (k_on k) None (k_now k)
      else if sent then mkKA (k_on k) (match k_on k with Some i => Some (k_now k + i) | None => k_due k end) (k_now k)
      else k
  end.
Definition is_lost (s : pstate) (e : pevent) : bool := match e with EvLost => up s | _ => false end.

Fixpoint krun (s : pstate) (k : ka) (es : list pevent) : ka :=
  match es with [] => k | e :: es' => krun (pstep s e) (kstep (is_lost s e) (sends s e) k e) es' end.

Record RelK (s : pstate) (k : ka) : Prop := {
  rk_now : p_now s = k_now k;
  rk_on : match p_ka s with Some _ => k_on k = Some (p_interval s) | None => k_on k = None /\ k_due k = None end;
  rk_timer : match k_due k with
             | Some d => exists n, p_timers s = [(n, d)] /\ p_stop s = Some n
             | None => p_timers s = []
             end
}.

Lemma stop_keepalive_timers s : (p_timers s = [] \/ exists n d, p_timers s = [(n, d)] /\ p_stop s = Some n) ->
  p_timers (stop_keepalive s) = [] /\ p_stop (stop_keepalive s) = None
  /\ p_now (stop_keepalive s) = p_now s /\ p_ka (stop_keepalive s) = p_ka s /\ p_interval (stop_keepalive s) = p_interval s
  /\ p_ntimers (stop_keepalive s) = p_ntimers s.
Proof.
  unfold stop_keepalive. intros [E|(n & d & E & St)].
  - destruct (p_stop s) eqn:St; cbn; rewrite ?E; cbn; repeat split; auto.
  - rewrite St. cbn. rewrite E. cbn. rewrite Nat.eqb_refl. repeat split; auto.
Qed.

Lemma RelK_timers s k : RelK s k -> p_timers s = [] \/ exists n d, p_timers s = [(n, d)] /\ p_stop s = Some n.
Proof. intros [_ _ T]. destruct (k_due k) as [d|]; [right; destruct T as (n & A & B); eauto|left; exact T]. Qed.

Lemma RelK_same s s' k : RelK s k -> p_now s' = p_now s -> p_ka s' = p_ka s -> p_interval s' = p_interval s ->
  p_timers s' = p_timers s -> p_stop s' = p_stop s -> RelK s' k.
Proof. intros [A B C] E1 E2 E3 E4 E5. constructor; rewrite ?E1, ?E2, ?E3, ?E4, ?E5; assumption. Qed.

Lemma set_keepalive_rel s k : p_ka s <> None -> (p_timers s = [] \/ exists n d, p_timers s = [(n, d)] /\ p_stop s = Some n) ->
  p_now s = k_now k ->
  RelK (set_keepalive s) (mkKA (Some (p_interval s)) (Some (k_now k + p_interval s)) (k_now k)).
Proof.
  intros N T E. destruct (stop_keepalive_timers s T) as (A & B & C & D & F & G).
  unfold set_keepalive. constructor; cbn [up_timers p_now p_ka p_interval p_timers p_stop k_now k_on k_due].
  - congruence.
  - rewrite D, F. destruct (p_ka s); [reflexivity|congruence].
  - rewrite A, C, F, E. cbn. eexists. split; reflexivity.
Qed.

Lemma send_rel s k id code data : RelK s k ->
  RelK (fst (send_message id code data s))
       (if send_ok s id code data then mkKA (k_on k) (match k_on k with Some i => Some (k_now k + i) | None => k_due k end) (k_now k) else k).
Proof.
  intros R. pose proof (RelK_timers s k R) as T. destruct R as [A B C].
  assert (G : forall l, RelK (let s0 := up_last (Some (p_now s)) (up_log l s) in match p_ka s0 with Some _ => set_keepalive s0 | None => s0 end)
     (mkKA (k_on k) (match k_on k with Some i => Some (k_now k + i) | None => k_due k end) (k_now k))).
  { intros l. cbv zeta. cbn [up_last up_log p_ka]. destruct (p_ka s) as [a|] eqn:K.
    - rewrite B. apply (set_keepalive_rel (up_last (Some (p_now s)) (up_log l s)) k); cbn; [congruence|exact T|exact A].
    - destruct B as (B1 & B2). rewrite B1. constructor; cbn; [exact A|rewrite K; auto|exact C]. }
  unfold send_message, send_ok. destruct (p_transport s) eqn:Tr; cbn [fst].
  - constructor; assumption.
  - destruct (makeMessage id code data) as [b|e]; cbn [fst]; [apply (G [OutWrite b])|constructor; assumption].
  - pose proof (G []) as G0. cbv zeta in *. unfold up_log in G0. rewrite app_nil_r in G0. destruct s; exact G0.
  - pose proof (G []) as G0. cbv zeta in *. unfold up_log in G0. rewrite app_nil_r in G0. destruct s; exact G0.
Qed.

Lemma RelK_step s k e : RelK s k -> RelK (pstep s e) (kstep (is_lost s e) (sends s e) k e).
Proof.
  intros R. pose proof (RelK_timers s k R) as T.
  assert (Dl : forall m s, p_now (deliver s m) = p_now s /\ p_ka (deliver s m) = p_ka s /\ p_interval (deliver s m) = p_interval s
     /\ p_timers (deliver s m) = p_timers s /\ p_stop (deliver s m) = p_stop s).
  { intros m s0. unfold deliver, mark_done. destruct (zget (msg_id m) (p_coll s0)) as [f|]; cbn [up_futs p_futs p_coll].
    - destruct (fget f (p_futs s0)); cbn; try (destruct (zget (msg_code m) (p_cbs s0)); cbn); auto.
    - destruct (zget (msg_code m) (p_cbs s0)); cbn; auto. }
  assert (Dr : forall b, RelK (data_received b s) k).
  { intros b. unfold data_received. destruct (p_closing s); [exact R|]. destruct (complete_messages _ _) as [ms r].
    assert (G : forall l s1, RelK s1 k -> RelK (fold_left deliver_res l s1) k).
    { induction l as [|[m|e0] l IH]; intros s1 R1; cbn [fold_left deliver_res]; [exact R1| |apply IH; exact R1].
      apply IH. destruct (Dl m s1) as (A & B & C & D & E). eapply RelK_same; eauto. }
    apply G. eapply RelK_same; [exact R|reflexivity..]. }
  destruct e; cbn [pstep kstep is_lost sends].
  - destruct (p_transport s); eapply RelK_same; eauto; reflexivity.
  - destruct (p_transport s); auto.
  - assert (G : RelK (fst (connection_lost s)) (mkKA (k_on k) None (k_now k))).
    { unfold connection_lost. destruct (stop_keepalive_timers (up_conn false TGone s) T) as (A & B & C & D & E & F).
      destruct R as [R1 R2 R3]. cbn [up_conn p_now p_ka p_interval] in *.
      destruct (p_closed (up_tasks _ _)); cbn [fst]; [destruct (p_cb _)| |];
      constructor; cbn [up_log up_closed up_tasks p_now p_ka p_interval p_timers k_now k_on k_due]; try congruence;
      rewrite D, ?E; destruct (p_ka s); tauto. }
    unfold up. destruct (p_transport s); auto; eapply RelK_same; eauto.
  - destruct (p_lost_tasks s); eapply RelK_same; eauto; reflexivity.
  - unfold await_send_message.
    match goal with |- context [up_log [OutRequest ?f ?i ?c ?d] ?x] => set (s1 := up_log [OutRequest f i c d] x) end.
    assert (R1 : RelK s1 k) by (eapply RelK_same; [exact R|reflexivity..]).
    assert (E1 : p_closing s1 = p_closing s) by reflexivity.
    assert (E2 : send_ok s1 (p_next s) code data = send_ok s (p_next s) code data) by reflexivity.
    rewrite E1. destruct (p_closing s); cbn [negb andb].
    + eapply RelK_same; [exact R1|reflexivity..].
    + rewrite <- E2. pose proof (send_rel s1 k (p_next s) code data R1) as G.
      destruct (send_message (p_next s) code data s1) as [s2 [|]]; exact G.
  - apply send_rel. exact R.
  - eapply RelK_same; [exact R|reflexivity..].
  - unfold close_start, all_done_start. destruct (p_transport s); destruct force; eapply RelK_same; eauto; reflexivity.
  - unfold close_resume, close_transport; destruct (nth i (p_closers s) CDone);
      try (destruct (gather_done fs (p_futs s)); [destruct (p_transport s)|]); try (destruct (p_closed s)); eapply RelK_same; eauto; reflexivity.
  - unfold close_cancel; destruct (nth i (p_closers s) CDone); try (destruct (p_closed s)); eapply RelK_same; eauto; reflexivity.
  - eapply RelK_same; eauto; reflexivity.
  - eapply RelK_same; eauto; reflexivity.
  - eapply RelK_same; eauto; reflexivity.
  - apply (set_keepalive_rel (up_ka (Some a) interval s) k); cbn; [discriminate|exact T|apply R].
  - destruct (stop_keepalive_timers (up_ka None (p_interval s) s) T) as (A & B & C & D & E & F).
    constructor; cbn [k_now k_on k_due]; [rewrite C; apply R | rewrite D; cbn; auto | exact A].
  - destruct R as [A B C]. destruct (0 <=? dt); constructor; cbn; auto; rewrite A; reflexivity.
  - destruct R as [A B C]. destruct (k_due k) as [d|] eqn:Kd.
    + destruct C as (n & C & D). rewrite C. rewrite A. destruct (d <=? k_now k) eqn:E.
      * assert (Kn : p_ka s <> None). { destruct (p_ka s); [discriminate|]. destruct B; discriminate. }
        cbn [up_timers p_ka]. destruct (p_ka s) as [a|] eqn:K; [|congruence].
        constructor; cbn [up_log up_timers p_now p_ka p_interval p_timers k_now k_on k_due]; auto. rewrite K. exact B.
      * constructor; cbn [k_now k_on k_due]; auto. eauto.
    + rewrite C. constructor; cbn [k_now k_on k_due]; auto.
Qed.

Lemma RelK_run es : forall s k, RelK s k -> RelK (prun s es) (krun s k es).
Proof. induction es as [|e es IH]; intros s k R; [exact R|]. rewrite prun_cons. cbn [krun]. apply IH. apply RelK_step. exact R. Qed.

Lemma keepalive_refines cb es :
  map snd (p_timers (prun (p_init cb) es)) = match k_due (krun (p_init cb) k_init es) with Some d => [d] | None => [] end
  /\ p_now (prun (p_init cb) es) = k_now (krun (p_init cb) k_init es).
Proof.
  assert (R : RelK (prun (p_init cb) es) (krun (p_init cb) k_init es)).
  { apply RelK_run. constructor; cbn; auto. }
  destruct R as [A B C]. split; [|exact A]. destruct (k_due _); [destruct C as (n & -> & _); reflexivity | rewrite C; reflexivity].
Qed.
