(** Theorems about every history of one connection (used by Prop_Protocol.v). *)
From Verif Require Import Py F64 Struct Utf Utility Spec P_Base P_Util Protocol P_Proto1 P_Proto2.

Definition history (es : list pevent) : Prop := Forall wf_event es.

Definition up (s : pstate) : bool := match p_transport s with TUp | TClosing => true | _ => false end.

(** the bytes that arrived while the connection was up and not being closed *)
Fixpoint accepted (s : pstate) (es : list pevent) : bytes :=
  match es with
  | [] => []
  | e :: es' =>
      (match e with EvData b => if up s && negb (p_closing s) then b else [] | _ => [] end)
      ++ accepted (pstep s e) es'
  end.

Lemma prun_app s a b : prun s (a ++ b) = prun (prun s a) b.
Proof. apply fold_left_app. Qed.
Lemma prun_cons s e es : prun s (e :: es) = prun (pstep s e) es.
Proof. reflexivity. Qed.

Ltac frame_of lem := let A := fresh in pose proof lem as A; decompose [and] A; clear A.

(** the buffer and the log under one event *)
Lemma step_stream s e : invF s -> wf_bytes (p_buff s) -> wf_event e ->
  wf_bytes (p_buff (pstep s e)) /\
  exists os, p_log (pstep s e) = p_log s ++ os /\ Forall wf_msg (messages_of os) /\
  frames (messages_of os) ++ p_buff (pstep s e)
    = p_buff s ++ (match e with EvData b => if up s && negb (p_closing s) then b else [] | _ => [] end)
  /\ (incomplete (p_buff s) -> incomplete (p_buff (pstep s e))).
Proof.
  intros H Wb We.
  assert (Same : forall s', p_buff s' = p_buff s -> (exists os, p_log s' = p_log s ++ os /\ messages_of os = []) ->
    wf_bytes (p_buff s') /\ exists os, p_log s' = p_log s ++ os /\ Forall wf_msg (messages_of os) /\
      frames (messages_of os) ++ p_buff s' = p_buff s ++ [] /\ (incomplete (p_buff s) -> incomplete (p_buff s'))).
  { intros s' Eb (os & El & Em). rewrite Eb. split; [exact Wb|]. exists os. rewrite Em. cbn. rewrite app_nil_r. auto. }
  assert (Nil : forall s', p_log s' = p_log s -> exists os, p_log s' = p_log s ++ os /\ messages_of os = []).
  { intros s' E. exists []. rewrite app_nil_r. auto. }
  destruct e; cbn [pstep].
  - apply Same; destruct (p_transport s); auto.
  - assert (G : wf_bytes (p_buff (data_received b s)) /\
      exists os, p_log (data_received b s) = p_log s ++ os /\ Forall wf_msg (messages_of os) /\
      frames (messages_of os) ++ p_buff (data_received b s)
        = p_buff s ++ (if negb (p_closing s) then b else [])
      /\ (incomplete (p_buff s) -> incomplete (p_buff (data_received b s)))).
    { destruct (data_received_spec s b H Wb We) as (_ & _ & Wd & os & L & _ & Ct & Cf).
      split; [exact Wd|]. exists os. split; [exact L|]. destruct (p_closing s).
      - destruct (Ct eq_refl) as (-> & ->). cbn [negb]. rewrite app_nil_r. repeat split; auto. constructor.
      - destruct (Cf eq_refl) as (E & Wm & I). cbn [negb]. auto. }
    unfold up. destruct (p_transport s); cbn [andb]; auto.
  - apply Same; unfold connection_lost; destruct (p_transport s); auto;
      destruct (stop_keepalive_frame (up_conn false TGone s)) as (_ & _ & _ & D & _ & F & _);
      cbn [up_conn p_log p_buff] in D, F;
      destruct (p_closed (up_tasks _ _)); cbn [fst]; cbn [up_tasks p_buff p_log]; auto;
      destruct (p_cb _); cbn [up_log up_closed up_tasks p_buff p_log]; rewrite ?F, ?D; auto;
      exists [OutLost]; split; reflexivity.
  - apply Same; destruct (p_lost_tasks s); auto.
  - unfold await_send_message.
    match goal with |- context [up_log [OutRequest ?f ?i ?c ?d] ?x] => set (s1 := up_log [OutRequest f i c d] x) end.
    apply Same.
    + destruct (p_closing s1); [reflexivity|].
      destruct (send_message_frame (p_next s) code data s1) as (_ & _ & _ & _ & E & _).
      destruct (send_message (p_next s) code data s1) as [s2 [|]]; exact E.
    + destruct (p_closing s1); [exists [OutRequest (List.length (p_futs s)) (p_next s) code data]; split; reflexivity|].
      destruct (send_message_frame (p_next s) code data s1) as (_ & _ & _ & _ & _ & _ & _ & L).
      destruct (send_message (p_next s) code data s1) as [s2 [|]]; cbn [fst] in *;
        (destruct L as [->|(_ & b & _ & ->)]; [exists [OutRequest (List.length (p_futs s)) (p_next s) code data]; split; reflexivity
        | exists [OutRequest (List.length (p_futs s)) (p_next s) code data; OutWrite b]; split; [|reflexivity];
          cbn [s1 up_log p_log]; unfold s1; cbn [up_log p_log]; rewrite <- app_assoc; reflexivity]).
  - destruct (send_message_frame id code data s) as (_ & _ & _ & _ & E & _ & _ & L).
    apply Same; [exact E|]. destruct L as [->|(_ & b & _ & ->)]; [exists []; rewrite app_nil_r; auto | exists [OutWrite b]; auto].
  - apply Same; auto.
  - apply Same; destruct (p_transport s); auto; unfold close_start, all_done_start; destruct force; auto.
  - apply Same; unfold close_resume, close_transport; destruct (nth i (p_closers s) CDone); auto;
      try (destruct (gather_done fs (p_futs s)); auto; destruct (p_transport s); auto; exists [OutClosedTransport]; auto);
      destruct (p_closed s); auto.
  - apply Same; unfold close_cancel; destruct (nth i (p_closers s) CDone); auto; destruct (p_closed s); auto.
  - apply Same; auto.
  - apply Same; auto.
  - apply Same; auto.
  - destruct (set_keepalive_frame (up_ka (Some a) interval s)) as (_ & _ & _ & D & _ & F & _). apply Same; auto.
  - destruct (stop_keepalive_frame (up_ka None (p_interval s) s)) as (_ & _ & _ & D & _ & F & _). apply Same; auto.
  - apply Same; destruct (0 <=? dt); auto.
  - apply Same; destruct (p_timers s) as [|[n due] ts]; auto; destruct (due <=? p_now s); auto;
      cbn [up_timers p_ka]; destruct (p_ka s); auto. exists [OutKeepalive n0]. auto.
Qed.

Lemma invF_init cb : invF (p_init cb).
Proof.
  assert (E : forall f, fget f [] = FCancelled) by (intros [|f]; reflexivity).
  unfold invF. cbn [p_init p_coll p_futs p_next p_log]. constructor.
  - reflexivity.
  - reflexivity.
  - constructor.
  - intros i f H; discriminate H.
  - intros f m. rewrite E. cbn. split; [discriminate|tauto].
  - constructor.
  - intros f m [].
  - intros f. rewrite E. discriminate.
Qed.

Lemma run_stream es : forall s, invF s -> wf_bytes (p_buff s) -> history es ->
  invF (prun s es) /\ wf_bytes (p_buff (prun s es)) /\
  exists os, p_log (prun s es) = p_log s ++ os /\ Forall wf_msg (messages_of os) /\
  frames (messages_of os) ++ p_buff (prun s es) = p_buff s ++ accepted s es
  /\ (incomplete (p_buff s) -> incomplete (p_buff (prun s es))).
Proof.
  induction es as [|e es IH]; intros s H Wb Hs.
  - split; [exact H|]. split; [exact Wb|]. exists []. cbn [accepted prun fold_left messages_of flat_map frames map List.concat app].
    rewrite !app_nil_r. repeat split; auto.
  - inversion Hs as [|? ? We Hes]; subst. rewrite prun_cons.
    destruct (step_stream s e H Wb We) as (W1 & os1 & L1 & F1 & E1 & I1).
    destruct (IH (pstep s e) (invF_step s e H Wb We) W1 Hes) as (H2 & W2 & os2 & L2 & F2 & E2 & I2).
    split; [exact H2|]. split; [exact W2|]. exists (os1 ++ os2).
    rewrite L2, L1, <- app_assoc. split; [reflexivity|]. rewrite messages_app, frames_app.
    split; [apply Forall_app; auto|]. split; [|auto].
    cbn [accepted]. rewrite <- app_assoc, E2, app_assoc, E1, <- app_assoc. reflexivity.
Qed.

Lemma incomplete_nil : incomplete [].
Proof. apply incomplete_short. cbn. lia. Qed.

Definition reachable (s : pstate) : Prop := exists cb es, history es /\ s = prun (p_init cb) es.

Lemma reach_inv s : reachable s -> invF s /\ wf_bytes (p_buff s) /\ incomplete (p_buff s).
Proof.
  intros (cb & es & Hs & ->). destruct (run_stream es (p_init cb) (invF_init cb) (Forall_nil _) Hs) as (A & B & os & _ & _ & _ & C).
  split; [exact A|]. split; [exact B|]. apply C. apply incomplete_nil.
Qed.
Lemma reach_run s es : reachable s -> history es -> reachable (prun s es).
Proof. intros (cb & es0 & H0 & ->) H. exists cb, (es0 ++ es). rewrite prun_app. split; [apply Forall_app; auto|reflexivity]. Qed.

(** C05 *)
Lemma stream_all cb es ms rest : history es ->
  accepted (p_init cb) es = frames ms ++ rest -> Forall wf_msg ms -> incomplete rest ->
  messages_of (p_log (prun (p_init cb) es)) = ms /\ p_buff (prun (p_init cb) es) = rest.
Proof.
  intros Hs E Wm I. destruct (run_stream es (p_init cb) (invF_init cb) (Forall_nil _) Hs) as (_ & _ & os & L & F & Ef & C).
  cbn [p_init p_log p_buff app] in *. rewrite L. apply frames_unique; auto.
  - apply C, incomplete_nil.
  - rewrite Ef. exact E.
Qed.

(** C17 *)
Lemma ids_nth s k f id : reachable s -> nth_error (requests_of (p_log s)) k = Some (f, id) ->
  f = k /\ id = Z.of_nat k mod 32767.
Proof.
  intros R. destruct (reach_inv s R) as ([Rq _ _ _ _ _ _ _] & _). rewrite Rq.
  rewrite nth_error_map. destruct (nth_error (seq 0 _) k) as [n|] eqn:E; [|discriminate].
  cbn. intros H. injection H as <- <-.
  assert (n = k). { assert (k < List.length (seq 0 (List.length (p_futs s))))%nat by (apply nth_error_Some; congruence).
    rewrite seq_length in H. apply nth_error_nth with (d := O) in E. rewrite seq_nth in E by lia. lia. }
  subst. auto.
Qed.

Lemma ids_ok s : reachable s ->
  (forall k f id, nth_error (requests_of (p_log s)) k = Some (f, id) -> 0 <= id <= 32766) /\
  (forall j k f g id1 id2, (j < k)%nat -> Z.of_nat k < Z.of_nat j + 32767 ->
     nth_error (requests_of (p_log s)) j = Some (f, id1) ->
     nth_error (requests_of (p_log s)) k = Some (g, id2) -> id1 <> id2).
Proof.
  intros R. split.
  - intros k f id H. apply ids_nth in H; [|exact R]. destruct H as (_ & ->). lia.
  - intros j k f g id1 id2 L L2 H1 H2. apply ids_nth in H1; [|exact R]. apply ids_nth in H2; [|exact R].
    destruct H1 as (_ & ->), H2 as (_ & ->). lia.
Qed.

(** C18: stability *)
Lemma fcancel_stable f g l : fget f l <> FPending -> fget f (fcancel g l) = fget f l.
Proof. intros N. rewrite fget_fcancel. destruct (Nat.eqb f g); [|reflexivity]. destruct (fget f l); [congruence|reflexivity..]. Qed.
Lemma fcancel_all_stable f gs l : fget f l <> FPending -> fget f (fcancel_all gs l) = fget f l.
Proof. intros N. rewrite fget_fcancel_all. destruct (existsb _ gs); [|reflexivity]. destruct (fget f l); [congruence|reflexivity..]. Qed.

Lemma deliver_stable s m f : invF s -> fget f (p_futs s) <> FPending ->
  fget f (p_futs (deliver s m)) = fget f (p_futs s).
Proof.
  intros H N. unfold deliver. destruct (InvF_mark_done s m H) as (s' & b & E & I & C & T & F). rewrite E.
  destruct b.
  - unfold mark_done in E. destruct (zget (msg_id m) (p_coll s)) as [g|] eqn:Z; [|congruence].
    cbn [up_futs p_futs p_coll] in E.
    destruct (fget g (p_futs s)) eqn:G; try discriminate. injection E as <-.
    cbn [up_log up_futs p_futs]. destruct H as [_ _ _ Cl _ _ _ _]. destruct (Cl _ _ Z) as (Lg & _).
    rewrite fget_fset by exact Lg. destruct (Nat.eqb_spec f g) as [->|]; [congruence|reflexivity].
  - destruct (F eq_refl) as (_ & Fu & _). destruct (zget (msg_code m) (p_cbs s')); cbn [up_log p_futs]; rewrite Fu; reflexivity.
Qed.
Lemma delivers_stable ms : forall s f, invF s -> fget f (p_futs s) <> FPending ->
  fget f (p_futs (fold_left deliver ms s)) = fget f (p_futs s).
Proof.
  induction ms as [|m ms IH]; intros s f H N; cbn [fold_left]; [reflexivity|].
  rewrite IH, deliver_stable; auto. - apply deliver_spec. exact H. - rewrite deliver_stable; auto.
Qed.

Lemma deliver_len s m : List.length (p_futs (deliver s m)) = List.length (p_futs s).
Proof.
  unfold deliver, mark_done. destruct (zget (msg_id m) (p_coll s)) as [f|]; cbn [up_futs p_futs p_coll].
  - destruct (fget f (p_futs s)); cbn; try reflexivity; try apply fset_length; destruct (zget (msg_code m) (p_cbs s)); reflexivity.
  - destruct (zget (msg_code m) (p_cbs s)); reflexivity.
Qed.

(** how futures change under one event: the table only grows, resolved ones stay *)
Lemma step_futs s e : invF s -> wf_bytes (p_buff s) -> wf_event e ->
  (List.length (p_futs s) <= List.length (p_futs (pstep s e)))%nat /\
  forall f, (f < List.length (p_futs s))%nat -> fget f (p_futs s) <> FPending -> fget f (p_futs (pstep s e)) = fget f (p_futs s).
Proof.
  intros H Wb We.
  assert (Same : forall s', p_futs s' = p_futs s -> (List.length (p_futs s) <= List.length (p_futs s'))%nat /\
    forall f, (f < List.length (p_futs s))%nat -> fget f (p_futs s) <> FPending -> fget f (p_futs s') = fget f (p_futs s)).
  { intros s' ->. split; auto. }
  destruct e; cbn [pstep].
  - apply Same; destruct (p_transport s); auto.
  - assert (G : (List.length (p_futs s) <= List.length (p_futs (data_received b s)))%nat /\
      forall f, (f < List.length (p_futs s))%nat -> fget f (p_futs s) <> FPending -> fget f (p_futs (data_received b s)) = fget f (p_futs s)).
    { destruct (p_closing s) eqn:C; [unfold data_received; rewrite C; auto|].
      assert (Wa : wf_bytes (p_buff s ++ b)) by (apply wf_app; auto).
      destruct (cm_spec _ Wa) as (ms & r & _ & E & Wm & I & Wr).
      rewrite (data_received_frames s b ms r C Wa E Wm I). cbn [up_buff p_futs]. split.
      - rewrite (delivers_proj (fun s => List.length (p_futs s)) deliver_len). lia.
      - intros f _ N. apply delivers_stable; auto. }
    destruct (p_transport s); auto.
  - apply Same; unfold connection_lost; destruct (p_transport s); auto;
      destruct (stop_keepalive_frame (up_conn false TGone s)) as (_ & B & _);
      destruct (p_closed (up_tasks _ _)); cbn [fst]; auto; destruct (p_cb _); auto.
  - destruct (p_lost_tasks s); [auto|]. unfold all_done_start. cbn [fst up_tasks up_futs p_futs]. split; [rewrite fcancel_all_length; lia|].
    intros f _ N. apply fcancel_all_stable; exact N.
  - unfold await_send_message.
    match goal with |- context [up_log [OutRequest ?f ?i ?c ?d] ?x] => set (s1 := up_log [OutRequest f i c d] x) end.
    assert (G : p_futs s1 = p_futs s ++ [FPending]) by reflexivity.
    assert (Ga : forall f, (f < List.length (p_futs s))%nat -> fget f (p_futs s ++ [FPending]) = fget f (p_futs s)).
    { intros f L. unfold fget. apply app_nth1. exact L. }
    destruct (p_closing s1).
    + cbn [fst up_futs p_futs]. rewrite fcancel_length, G, app_length. split; [lia|]. intros f L N.
      rewrite fcancel_stable; rewrite ?Ga; auto.
    + destruct (send_message_frame (p_next s) code data s1) as (_ & B & _).
      destruct (send_message (p_next s) code data s1) as [s2 [|]]; cbn [fst] in *; rewrite B, G, app_length; (split; [lia|]; intros; rewrite Ga; auto).
  - destruct (send_message_frame id code data s) as (_ & B & _). apply Same; exact B.
  - cbn [up_futs p_futs]. split; [rewrite fcancel_length; lia|]. intros g _ N. apply fcancel_stable; exact N.
  - assert (G : (List.length (p_futs s) <= List.length (p_futs (close_start force s)))%nat /\
      forall f, (f < List.length (p_futs s))%nat -> fget f (p_futs s) <> FPending -> fget f (p_futs (close_start force s)) = fget f (p_futs s)).
    { unfold close_start, all_done_start. destruct force; cbn; [|auto]. split; [rewrite fcancel_all_length; lia|].
      intros f _ N. apply fcancel_all_stable; exact N. }
    destruct (p_transport s); auto.
  - apply Same; unfold close_resume, close_transport; destruct (nth i (p_closers s) CDone); auto;
      try (destruct (gather_done fs (p_futs s)); auto; destruct (p_transport s); auto);
      destruct (p_closed s); auto.
  - unfold close_cancel; destruct (nth i (p_closers s) CDone); auto; [|destruct (p_closed s); auto].
    cbn [up_futs p_futs]. split; [rewrite fcancel_all_length; lia|]. intros f _ N. apply fcancel_all_stable; exact N.
  - apply Same; auto.
  - apply Same; auto.
  - apply Same; auto.
  - destruct (set_keepalive_frame (up_ka (Some a) interval s)) as (_ & B & _). apply Same; auto.
  - destruct (stop_keepalive_frame (up_ka None (p_interval s) s)) as (_ & B & _). apply Same; auto.
  - apply Same; destruct (0 <=? dt); auto.
  - apply Same; destruct (p_timers s) as [|[n due] ts]; auto; destruct (due <=? p_now s); auto;
      cbn [up_timers p_ka]; destruct (p_ka s); auto.
Qed.

Lemma run_futs es : forall s, invF s -> wf_bytes (p_buff s) -> history es ->
  (List.length (p_futs s) <= List.length (p_futs (prun s es)))%nat /\
  forall f, (f < List.length (p_futs s))%nat -> fget f (p_futs s) <> FPending -> fget f (p_futs (prun s es)) = fget f (p_futs s).
Proof.
  induction es as [|e es IH]; intros s H Wb Hs; [auto|].
  inversion Hs as [|? ? We Hes]; subst. rewrite prun_cons.
  destruct (step_futs s e H Wb We) as (A & B).
  destruct (IH (pstep s e) (invF_step s e H Wb We) (proj1 (step_stream s e H Wb We)) Hes) as (C & D).
  split; [lia|]. intros f L N. rewrite D, B; auto; [lia|]. rewrite B; auto.
Qed.

Lemma resolved_stable s es f : reachable s -> history es -> (f < List.length (p_futs s))%nat ->
  fget f (p_futs s) <> FPending -> fget f (p_futs (prun s es)) = fget f (p_futs s).
Proof. intros R Hs L N. destruct (reach_inv s R) as (A & B & _). apply run_futs; auto. Qed.

(** the request behind a future, and its replacement by a later request with the same id *)
Definition current (s : pstate) (f : nat) : Prop :=
  forall g, (f < g < List.length (p_futs s))%nat -> Z.of_nat g mod 32767 <> Z.of_nat f mod 32767.

Lemma pending_in_coll s f : invF s -> fget f (p_futs s) = FPending -> current s f ->
  zget (kth_id f) (p_coll s) = Some f.
Proof.
  intros [_ _ _ _ _ _ _ Pe] P C. destruct (Pe f P) as [G|(g & L & E)]; [exact G|]. exfalso. exact (C g L E).
Qed.

(** one message arriving on an empty buffer *)
Lemma one_message s m : reachable s -> up s = true -> p_closing s = false -> p_buff s = [] -> wf_msg m ->
  pstep s (EvData (frame m)) = up_buff [] (deliver s m).
Proof.
  intros R U C B Wm. cbn [pstep]. unfold up in U.
  assert (G : data_received (frame m) s = up_buff [] (deliver s m)).
  { rewrite (data_received_frames s (frame m) [m] []); auto.
    - rewrite B. destruct m as [[i c] p]. destruct Wm as (Hi & Hc & Wp & Lp). unfold frame. cbn [app].
      unfold is_u16 in *. pose proof (zlen_nonneg p).
      rewrite !wf_app. repeat split; try assumption;
        unfold u16le, u32le; repeat constructor; unfold is_byte; lia.
    - rewrite B. unfold frames. cbn. rewrite !app_nil_r. reflexivity.
    - apply incomplete_nil. }
  destruct (p_transport s); try discriminate; exact G.
Qed.

Lemma reply_completes s f m : reachable s -> up s = true -> p_closing s = false -> p_buff s = [] -> wf_msg m ->
  fget f (p_futs s) = FPending -> current s f -> msg_id m = Z.of_nat f mod 32767 ->
  let s' := pstep s (EvData (frame m)) in
  fget f (p_futs s') = FDone m /\ p_log s' = p_log s ++ [OutCompleted f m].
Proof.
  intros R U C B Wm P Cu E. cbv zeta. rewrite one_message by assumption. cbn [up_buff p_futs p_log].
  destruct (reach_inv s R) as (I & _ & _). destruct (deliver_spec s m I) as (I2 & _ & o & L & D).
  pose proof (pending_in_coll s f I P Cu) as G. unfold kth_id in G. rewrite <- E in G.
  assert (o = OutCompleted f m) as ->.
  { inversion D as [g Zg Pg|h Nc K|Nc K]; subst.
    - rewrite G in Zg. injection Zg as <-. reflexivity.
    - specialize (Nc f G). congruence.
    - specialize (Nc f G). congruence. }
  split; [|exact L]. destruct I2 as [_ _ _ _ Dn _ _ _]. apply Dn. rewrite L, completions_app. apply in_or_app. right. left. reflexivity.
Qed.

(** C19 *)
Lemma unsolicited s m : reachable s -> up s = true -> p_closing s = false -> p_buff s = [] -> wf_msg m ->
  32767 <= msg_id m ->
  let s' := pstep s (EvData (frame m)) in
  p_futs s' = p_futs s /\
  p_log s' = p_log s ++ [match zget (msg_code m) (p_cbs s) with Some h => OutHandler h m | None => OutDropped m end].
Proof.
  intros R U C B Wm G. cbv zeta. rewrite one_message by assumption. cbn [up_buff p_futs p_log].
  destruct (reach_inv s R) as (I & _ & _).
  assert (N : zget (msg_id m) (p_coll s) = None).
  { destruct (zget (msg_id m) (p_coll s)) as [f|] eqn:E; [|reflexivity]. destruct I as [_ _ _ Cl _ _ _ _].
    destruct (Cl _ _ E) as (_ & K & _). unfold kth_id in K. lia. }
  unfold deliver, mark_done. rewrite N. destruct (zget (msg_code m) (p_cbs s)); split; reflexivity.
Qed.

Lemma completed_ids s f m : reachable s -> In (OutCompleted f m) (p_log s) ->
  0 <= msg_id m <= 32766 /\ In (f, msg_id m) (requests_of (p_log s)) /\ fget f (p_futs s) = FDone m.
Proof.
  intros R Hin. destruct (reach_inv s R) as ([Rq _ _ _ Dn _ Id _] & _).
  assert (G : In (f, m) (completions_of (p_log s))).
  { unfold completions_of. apply in_flat_map. exists (OutCompleted f m). split; [exact Hin|]. left. reflexivity. }
  destruct (Id _ _ G) as (E & L). split; [unfold kth_id in E; lia|]. split; [|apply Dn; exact G].
  rewrite Rq, E. apply in_map_iff. exists f. split; [reflexivity|]. apply in_seq. lia.
Qed.

Lemma done_completed s f m : reachable s -> fget f (p_futs s) = FDone m -> In (OutCompleted f m) (p_log s).
Proof.
  intros R E. destruct (reach_inv s R) as ([_ _ _ _ Dn _ _ _] & _). apply Dn in E.
  unfold completions_of in E. apply in_flat_map in E. destruct E as (o & Ho & Hx).
  destruct o; cbn in Hx; try tauto. destruct Hx as [Hx|[]]. injection Hx as <- <-. exact Ho.
Qed.

Lemma completed_once s : reachable s -> NoDup (map fst (completions_of (p_log s))).
Proof. intros R. destruct (reach_inv s R) as ([_ _ _ _ _ Oc _ _] & _). exact Oc. Qed.

(** C20 *)
Lemma dispatch s b : reachable s -> wf_bytes b -> up s = true -> p_closing s = false ->
  exists os, p_log (pstep s (EvData b)) = p_log s ++ os /\
  frames (messages_of os) ++ p_buff (pstep s (EvData b)) = p_buff s ++ b /\
  Forall (fun o => exists m,
      (exists f, o = OutCompleted f m)
      \/ (exists h, zget (msg_code m) (p_cbs s) = Some h /\ o = OutHandler h m)
      \/ (zget (msg_code m) (p_cbs s) = None /\ o = OutDropped m)) os.
Proof.
  intros R Wb U C. destruct (reach_inv s R) as (I & Wp & _).
  assert (G : pstep s (EvData b) = data_received b s) by (cbn [pstep]; unfold up in U; destruct (p_transport s); congruence).
  rewrite G. assert (Wa : wf_bytes (p_buff s ++ b)) by (apply wf_app; auto).
  destruct (cm_spec _ Wa) as (ms & r & _ & E & Wm & In0 & Wr).
  rewrite (data_received_frames s b ms r C Wa E Wm In0). cbn [up_buff p_log p_buff].
  assert (K : forall ms s, invF s -> exists os, p_log (fold_left deliver ms s) = p_log s ++ os /\ messages_of os = ms /\
     Forall (fun o => exists m,
      (exists f, o = OutCompleted f m)
      \/ (exists h, zget (msg_code m) (p_cbs s) = Some h /\ o = OutHandler h m)
      \/ (zget (msg_code m) (p_cbs s) = None /\ o = OutDropped m)) os).
  { clear. induction ms as [|m ms IH]; intros s H; cbn [fold_left].
    - exists []. rewrite app_nil_r. auto.
    - destruct (deliver_spec s m H) as (I & Cb & o & L & D). destruct (IH _ I) as (os & L2 & M & Fa).
      exists (o :: os). rewrite L2, L, <- app_assoc. split; [reflexivity|].
      split; [change (o :: os) with ([o] ++ os); rewrite messages_app, M, (delivered_msg _ _ _ D); reflexivity|].
      constructor; [|rewrite Cb in Fa; exact Fa]. exists m. inversion D; subst; eauto. }
  destruct (K ms s I) as (os & L & M & Fa). exists os. rewrite M. auto.
Qed.

(** C26 *)
Definition registered (es : list pevent) (code : Z) : option nat :=
  fold_left (fun r e =>
    match e with
    | EvRegister c h => if c =? code then Some h else r
    | EvRemove c => if c =? code then None else r
    | EvRemoveAll => None
    | _ => r
    end) es None.

Lemma step_cbs_other s e : (match e with EvRegister _ _ | EvRemove _ | EvRemoveAll => False | _ => True end) ->
  p_cbs (pstep s e) = p_cbs s.
Proof.
  assert (Dl : forall m s, p_cbs (deliver s m) = p_cbs s).
  { intros m s0. unfold deliver, mark_done. destruct (zget (msg_id m) (p_coll s0)) as [f|]; cbn [up_futs p_futs p_coll].
    - destruct (fget f (p_futs s0)); cbn; try reflexivity; destruct (zget (msg_code m) (p_cbs s0)); reflexivity.
    - destruct (zget (msg_code m) (p_cbs s0)); reflexivity. }
  assert (Dr : forall b s, p_cbs (data_received b s) = p_cbs s).
  { intros b s0. unfold data_received. destruct (p_closing s0); [reflexivity|]. destruct (complete_messages _ _) as [ms r].
    assert (G : forall l s1, p_cbs (fold_left deliver_res l s1) = p_cbs s1).
    { induction l as [|[m|e0] l IH]; intros s1; cbn [fold_left deliver_res]; [reflexivity| |apply IH]. rewrite IH. apply Dl. }
    rewrite G. reflexivity. }
  destruct e; intros K; try destruct K; cbn [pstep].
  - destruct (p_transport s); reflexivity.
  - destruct (p_transport s); auto.
  - unfold connection_lost. destruct (stop_keepalive_frame (up_conn false TGone s)) as (_ & _ & _ & _ & Ec & _).
    destruct (p_transport s); auto; destruct (p_closed (up_tasks _ _)); cbn [fst]; auto; destruct (p_cb _); auto.
  - destruct (p_lost_tasks s); reflexivity.
  - unfold await_send_message.
    match goal with |- context [up_log [OutRequest ?f ?i ?c ?d] ?x] => set (s1 := up_log [OutRequest f i c d] x) end.
    destruct (p_closing s1); [reflexivity|]. destruct (send_message_frame (p_next s) code data s1) as (_ & _ & _ & A & _).
    destruct (send_message (p_next s) code data s1) as [s2 [|]]; exact A.
  - apply send_message_frame.
  - reflexivity.
  - destruct (p_transport s); auto; unfold close_start, all_done_start; destruct force; reflexivity.
  - unfold close_resume, close_transport; destruct (nth i (p_closers s) CDone); auto;
      try (destruct (gather_done fs (p_futs s)); auto; destruct (p_transport s); auto);
      destruct (p_closed s); auto.
  - unfold close_cancel; destruct (nth i (p_closers s) CDone); auto; destruct (p_closed s); auto.
  - destruct (set_keepalive_frame (up_ka (Some a) interval s)) as (_ & _ & _ & _ & A & _). exact A.
  - destruct (stop_keepalive_frame (up_ka None (p_interval s) s)) as (_ & _ & _ & _ & A & _). exact A.
  - destruct (0 <=? dt); reflexivity.
  - destruct (p_timers s) as [|[n due] ts]; auto; destruct (due <=? p_now s); auto; cbn [up_timers p_ka]; destruct (p_ka s); auto.
Qed.

Lemma zset_in_keys {A} k (v : A) d : NoDup (map fst d) -> NoDup (map fst (zset k v d)).
Proof. apply zset_keys. Qed.

Lemma cbs_spec cb es : NoDup (map fst (p_cbs (prun (p_init cb) es))) /\
  forall code, zget code (p_cbs (prun (p_init cb) es)) = registered es code.
Proof.
  induction es as [|e es (N & IH)] using rev_ind.
  - split; [constructor|reflexivity].
  - assert (Rg : forall code, registered (es ++ [e]) code = match e with
      | EvRegister c h => if c =? code then Some h else registered es code
      | EvRemove c => if c =? code then None else registered es code
      | EvRemoveAll => None
      | _ => registered es code end).
    { intros code. unfold registered. rewrite fold_left_app. reflexivity. }
    rewrite prun_app. change (prun (prun (p_init cb) es) [e]) with (pstep (prun (p_init cb) es) e).
    set (s := prun (p_init cb) es) in *.
    assert (O : (match e with EvRegister _ _ | EvRemove _ | EvRemoveAll => False | _ => True end) \/
       (exists c h, e = EvRegister c h) \/ (exists c, e = EvRemove c) \/ e = EvRemoveAll) by (destruct e; eauto 6).
    destruct O as [O|[(c & h & ->)|[(c & ->)| ->]]].
    + rewrite (step_cbs_other s e O). split; [exact N|]. intros code. rewrite Rg, IH. destruct e; try destruct O; reflexivity.
    + cbn [pstep up_cbs p_cbs]. split; [apply zset_keys; exact N|]. intros code. rewrite Rg, zget_zset, Z.eqb_sym, IH. reflexivity.
    + cbn [pstep up_cbs p_cbs]. split; [apply zpop_keys; exact N|]. intros code. rewrite Rg. destruct (c =? code) eqn:E.
      * assert (c = code) as -> by lia. apply zget_zpop_same. exact N.
      * rewrite zget_zpop_other by lia. apply IH.
    + cbn [pstep up_cbs p_cbs]. split; [constructor|]. intros code. rewrite Rg. reflexivity.
Qed.
