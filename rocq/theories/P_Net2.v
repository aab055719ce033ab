(** One protocol object under Net.v: its log, its bytes, its state. *)
From Verif Require Import Py F64 Struct Utf Utility Const Spec World Api Pool SpecPool Net SpecNet P_Base P_Util.
From Verif Require Import Protocol P_Proto1 P_Proto2 P_Proto3.
From Verif Require Prop_Protocol P_Proto4.

Lemma apis_app a b : apis (a ++ b) = apis a ++ apis b. Proof. apply flat_map_app. Qed.
Lemma came_app c a b : came c (a ++ b) = came c a ++ came c b. Proof. apply flat_map_app. Qed.
Lemma wires_app c a b : wires c (a ++ b) = wires c a ++ wires c b. Proof. apply flat_map_app. Qed.
Lemma taken_app c a b : taken c (a ++ b) = taken c a ++ taken c b. Proof. unfold taken. rewrite wires_app. apply flat_map_app. Qed.
Lemma written_app c a b : written c (a ++ b) = written c a ++ written c b. Proof. unfold written. rewrite wires_app. apply flat_map_app. Qed.
Lemma sent_app c a b : sent c (a ++ b) = sent c a ++ sent c b. Proof. unfold sent. rewrite apis_app. apply flat_map_app. Qed.
Lemma apis_wire c os : apis (map (Wire c) os) = []. Proof. induction os; auto. Qed.
Lemma came_wire c c' os : came c (map (Wire c') os) = []. Proof. induction os; auto. Qed.
Lemma wires_wire c os : wires c (map (Wire c) os) = os.
Proof. unfold wires. induction os as [|o os IH]; [reflexivity|]. cbn [map flat_map]. rewrite Nat.eqb_refl. cbn [app]. f_equal. exact IH. Qed.
Lemma wires_other c c' os : c' <> c -> wires c (map (Wire c') os) = [].
Proof. intros N. unfold wires. induction os as [|o os IH]; [reflexivity|]. cbn [map flat_map]. apply Nat.eqb_neq in N. rewrite N. exact IH. Qed.

Definition linked (c : nat) (s : pstate) (g : list line) : Prop :=
  exists pes, history pes /\ s = prun (p_init true) pes /\ accepted (p_init true) pes = came c g /\ p_log s = wires c g.
Lemma linked_reach c s g : linked c s g -> reachable s.
Proof. intros (pes & H & -> & _). exists true, pes. auto. Qed.
Lemma accepted_snoc e : forall es s, accepted s (es ++ [e]) =
  accepted s es ++ match e with EvData b => if up (prun s es) && negb (p_closing (prun s es)) then b else [] | _ => [] end.
Proof.
  induction es as [|x es IH]; intros s; cbn [app accepted].
  - cbn [prun fold_left]. rewrite app_nil_r. reflexivity.
  - rewrite IH, app_assoc. reflexivity.
Qed.
Definition new_of (s : pstate) (e : pevent) : list pout := skipn (List.length (p_log s)) (p_log (pstep s e)).
Lemma log_grows s e : reachable s -> wf_event e -> p_log (pstep s e) = p_log s ++ new_of s e.
Proof.
  intros R W. destruct (reach_inv s R) as (I & Wb & _). destruct (step_stream s e I Wb W) as (_ & os & L & _).
  unfold new_of. rewrite L, skipn_app, skipn_all, Nat.sub_diag. reflexivity.
Qed.
Lemma linked_step c s g e extra : linked c s g -> wf_event e ->
  wires c extra = [] ->
  came c extra = (match e with EvData b => if up s && negb (p_closing s) then b else [] | _ => [] end) ->
  linked c (pstep s e) ((g ++ extra) ++ map (Wire c) (new_of s e)).
Proof.
  intros L W E1 E2. pose proof (log_grows s e (linked_reach _ _ _ L) W) as G. destruct L as (pes & H & -> & A & P).
  exists (pes ++ [e]). split; [apply Forall_app; auto|]. split; [rewrite prun_app; reflexivity|]. split.
  - rewrite accepted_snoc, A, !came_app, came_wire, app_nil_r, E2. reflexivity.
  - rewrite G, P, !wires_app, E1, wires_wire, app_nil_r. reflexivity.
Qed.
Lemma linked_other c s g extra : linked c s g -> wires c extra = [] -> came c extra = [] -> linked c s (g ++ extra).
Proof. intros (pes & H & E & A & P) E1 E2. exists pes. rewrite came_app, wires_app, E1, E2, !app_nil_r. auto. Qed.
Lemma linked_new c g : wires c g = [] -> came c g = [] -> linked c new_link g.
Proof. intros E1 E2. exists [EvMade]. split; [repeat constructor|]. split; [reflexivity|]. rewrite E1, E2. auto. Qed.

(** the messages taken are those the bytes spell *)
Lemma taken_messages c g : map snd (taken c g) = messages_of (wires c g).
Proof.
  unfold taken, messages_of. induction (wires c g) as [|o os IH]; [reflexivity|]. cbn [flat_map]. rewrite map_app, IH. destruct o; reflexivity.
Qed.
Lemma linked_frames c s g : linked c s g ->
  came c g = frames (map snd (taken c g)) ++ p_buff s /\ Forall wf_msg (map snd (taken c g)) /\ incomplete (p_buff s).
Proof.
  intros L. pose proof (linked_reach _ _ _ L) as R. destruct L as (pes & H & E & A & P). rewrite taken_messages, <- P.
  assert (Wa : forall es s0, wf_bytes (p_buff s0) -> history es -> wf_bytes (accepted s0 es)).
  { induction es as [|e es IH]; intros s0 W0 H0; [constructor|]. inversion H0 as [|? ? We Hes]; subst. cbn [accepted]. apply wf_app.
    - split; [destruct e; try constructor; destruct (_ && _); [exact We|constructor]|]. clear - IH Hes. generalize (pstep s0 e) as s1. intros s1.
      revert s1. clear IH. induction es as [|e' es' IH']; intros s1; [constructor|]. inversion Hes as [|? ? We' Hes']; subst. cbn [accepted]. apply wf_app. split; [destruct e'; try constructor; destruct (_ && _); [exact We'|constructor]|apply IH'; exact Hes']. }
  destruct (Prop_Protocol.C05_decomposition (accepted (p_init true) pes)) as (ms & rest & D & F & I & _).
  { apply Wa; [constructor|exact H]. }
  destruct (Prop_Protocol.C05_reassembly true pes ms rest H D F I) as (M1 & M2). rewrite <- E in M1, M2. rewrite M1, M2, <- A. auto.
Qed.

(** ** the state of the transport *)
Definition sound_state (s : pstate) : Prop :=
  p_transport s <> TNone /\ (p_closing s = false -> p_closers s = [] /\ p_transport s <> TClosing).
Definition tells (e : pevent) : bool := match e with EvData _ | EvLost | EvLostTask | EvRequest _ _ | EvCancel _ | EvClose _ | EvCloseResume _ | EvCloseCancel _ => true | _ => false end.
Lemma data_received_closers b s : p_closers (data_received b s) = p_closers s /\ p_closing (data_received b s) = p_closing s.
Proof.
  unfold data_received. destruct (p_closing s) eqn:C; [auto|]. destruct (complete_messages _ _) as [ms rest].
  assert (K : forall ms s0, p_closers (fold_left deliver_res ms s0) = p_closers s0 /\ p_closing (fold_left deliver_res ms s0) = p_closing s0).
  { clear. induction ms as [|m ms IH]; intros s0; [auto|]. cbn [fold_left]. destruct (IH (deliver_res s0 m)) as (-> & ->). destruct m as [m|]; cbn [deliver_res]; [|auto].
    unfold deliver, mark_done. destruct (zget _ _) as [f|]; [|destruct (zget _ _); auto].
    cbn [up_futs p_futs p_coll]. destruct (fget f (p_futs s0)); auto; destruct (zget _ _); auto. }
  destruct (K ms (up_buff rest s)) as (-> & ->). auto.
Qed.
Lemma keep_state s s' : p_closing s' = p_closing s -> p_closers s' = p_closers s -> p_transport s' = p_transport s -> sound_state s ->
  sound_state s' /\ (p_closing s' = true -> p_closing s = true \/ False) /\ (p_transport s' = TGone -> p_transport s = TGone \/ False).
Proof. unfold sound_state. intros -> -> -> S. auto. Qed.
Lemma send_message_state id code data s : let s' := fst (send_message id code data s) in
  p_closing s' = p_closing s /\ p_closers s' = p_closers s /\ p_transport s' = p_transport s.
Proof.
  assert (K : forall x, p_closing (set_keepalive x) = p_closing x /\ p_closers (set_keepalive x) = p_closers x /\ p_transport (set_keepalive x) = p_transport x).
  { intros x. unfold set_keepalive, stop_keepalive. destruct (p_stop x); auto. }
  unfold send_message. destruct (p_transport s) eqn:T; cbn [fst]; [rewrite T; auto| | |].
  - destruct (makeMessage id code data); cbn [fst]; [|rewrite T; auto].
    match goal with |- context [up_last ?a ?x] => set (s1 := up_last a x) end. destruct (p_ka s1); [destruct (K s1) as (-> & -> & ->)|]; cbn; rewrite T; auto.
  - match goal with |- context [up_last ?a ?x] => set (s1 := up_last a x) end. destruct (p_ka s1); [destruct (K s1) as (-> & -> & ->)|]; cbn; rewrite T; auto.
  - match goal with |- context [up_last ?a ?x] => set (s1 := up_last a x) end. destruct (p_ka s1); [destruct (K s1) as (-> & -> & ->)|]; cbn; rewrite T; auto.
Qed.
Lemma step_state s e : tells e = true -> sound_state s ->
  sound_state (pstep s e) /\
  (p_closing (pstep s e) = true -> p_closing s = true \/ exists f, e = EvClose f) /\
  (p_transport (pstep s e) = TGone -> p_transport s = TGone \/ e = EvLost).
Proof.
  intros T S. pose proof S as (S1 & S2).
  assert (Keep : forall s', p_closing s' = p_closing s -> p_closers s' = p_closers s -> p_transport s' = p_transport s ->
    sound_state s' /\ (p_closing s' = true -> p_closing s = true \/ exists f, e = EvClose f) /\ (p_transport s' = TGone -> p_transport s = TGone \/ e = EvLost)).
  { intros s' E1 E2 E3. unfold sound_state. rewrite E1, E2, E3. auto. }
  destruct e; try discriminate T; cbn [pstep].
  - destruct (p_transport s) eqn:TS; try (apply Keep; auto; fail); destruct (data_received_closers b s) as (A & B); (apply Keep; [exact B|exact A|]); rewrite data_received_transport; exact TS.
  - assert (G : sound_state (fst (connection_lost s)) /\ (p_closing (fst (connection_lost s)) = true -> p_closing s = true \/ exists f, EvLost = EvClose f) /\
       (p_transport (fst (connection_lost s)) = TGone -> p_transport s = TGone \/ EvLost = EvLost)).
    { assert (E : p_closing (fst (connection_lost s)) = p_closing s /\ p_closers (fst (connection_lost s)) = p_closers s /\ p_transport (fst (connection_lost s)) = TGone).
      { unfold connection_lost, stop_keepalive. destruct (p_stop _); cbn [up_tasks p_closed up_timers up_conn]; destruct (p_closed s); cbn [fst]; auto; cbn [up_closed up_timers up_conn up_tasks p_cb]; destruct (p_cb s); auto. }
      destruct E as (E1 & E2 & E3). unfold sound_state. rewrite E1, E2, E3. split; [|auto]. split; [discriminate|]. intros C. destruct (S2 C). split; [assumption|discriminate]. }
    destruct (p_transport s) eqn:TS; [apply Keep; auto|exact G|exact G|apply Keep; auto].
  - destruct (p_lost_tasks s); apply Keep; reflexivity.
  - unfold await_send_message. match goal with |- context [up_log [OutRequest ?f ?i ?c ?d] ?x] => set (s1 := up_log [OutRequest f i c d] x) end.
    destruct (p_closing s1); [apply Keep; reflexivity|]. pose proof (send_message_state (p_next s) code data s1) as (A & B & C).
    destruct (send_message (p_next s) code data s1) as [s2 [|]]; cbn [fst] in *; apply Keep; [rewrite A|rewrite B|rewrite C|rewrite A|rewrite B|rewrite C]; reflexivity.
  - apply Keep; reflexivity.
  - destruct (p_transport s) eqn:TS; [congruence| | |];
      (split; [split; [unfold close_start, all_done_start; destruct force; cbn; rewrite TS; discriminate|intros C; unfold close_start, all_done_start in C; destruct force; discriminate C]|];
       split; [intros _; right; eauto|]; unfold close_start, all_done_start; destruct force; cbn; rewrite TS; auto).
  - assert (E : p_closing (close_resume i s) = p_closing s).
    { unfold close_resume, close_transport. destruct (nth i (p_closers s) CDone); auto; [destruct (gather_done fs (p_futs s)); auto; destruct (p_transport s); auto|destruct (p_closed s); auto]. }
    assert (E2 : p_closing s = false -> close_resume i s = s).
    { intros C. destruct (S2 C) as (N & _). unfold close_resume. rewrite N. destruct i; reflexivity. }
    assert (E3 : p_transport (close_resume i s) = p_transport s \/ p_transport (close_resume i s) = TClosing).
    { unfold close_resume, close_transport. destruct (nth i (p_closers s) CDone); auto; [destruct (gather_done fs (p_futs s)); auto; destruct (p_transport s) eqn:TS; cbn; auto|destruct (p_closed s); auto]. }
    split; [split|split].
    + destruct E3 as [-> | ->]; [exact S1|discriminate].
    + rewrite E. intros C. rewrite (E2 C). apply S2, C.
    + rewrite E. auto.
    + destruct E3 as [-> | ->]; [auto|discriminate].
  - assert (E : p_closing (close_cancel i s) = p_closing s /\ p_transport (close_cancel i s) = p_transport s).
    { unfold close_cancel. destruct (nth i (p_closers s) CDone); auto. destruct (p_closed s); auto. }
    destruct E as (E & E3).
    assert (E2 : p_closing s = false -> close_cancel i s = s).
    { intros C. destruct (S2 C) as (N & _). unfold close_cancel. rewrite N. destruct i; reflexivity. }
    unfold sound_state. rewrite E3, E. split; [|auto]. split; [exact S1|]. intros C. rewrite (E2 C). apply S2, C.
Qed.

(** ** what one event adds to the log *)
Definition unwritten (o : pout) : Prop := match o with OutWrite _ | OutRequest _ _ _ _ => False | _ => True end.
Lemma messages_le : forall l : list pout, (List.length (messages_of l) <= List.length l)%nat.
Proof. unfold messages_of. induction l as [|x l IHl]; [auto|]. cbn [flat_map]. rewrite app_length. destruct x; cbn [List.length]; lia. Qed.
Lemma one_each : forall os : list pout, List.length (messages_of os) = List.length os -> Forall unwritten os.
Proof.
  induction os as [|o os IH]; intros N; [constructor|]. pose proof (messages_le os) as M. unfold messages_of in *. cbn [flat_map List.length] in N. rewrite app_length in N.
  destruct o; cbn [List.length] in N; try (exfalso; lia); (constructor; [exact Logic.I|apply IH; lia]).
Qed.
Lemma new_unwritten s e : reachable s -> wf_event e -> tells e = true -> (forall X p, e <> EvRequest X p) ->
  Forall unwritten (new_of s e) /\ List.length (p_futs (pstep s e)) = List.length (p_futs s).
Proof.
  intros R W T NR. pose proof (log_grows s e R W) as G. destruct (reach_inv s R) as (I & Wb & _).
  assert (Same : forall s' os, pstep s e = s' -> p_log s' = p_log s ++ os -> Forall unwritten os -> List.length (p_futs s') = List.length (p_futs s) ->
    Forall unwritten (new_of s e) /\ List.length (p_futs (pstep s e)) = List.length (p_futs s)).
  { intros s' os E L F H. rewrite E in *. split; [|exact H]. replace (new_of s e) with os; [exact F|]. apply (app_inv_head (p_log s)). rewrite <- L. exact G. }
  assert (NL : p_log s = p_log s ++ []) by (rewrite app_nil_r; reflexivity).
  destruct e; try discriminate T.
  - destruct (p_transport s) eqn:TS; try (apply (Same s []); cbn [pstep]; rewrite ?TS; auto; fail).
    1,2: destruct (Prop_Protocol.C18_one_effect s b R W) as (os & L & N); cbn [pstep] in L; rewrite TS in L;
      (apply (Same (data_received b s) os); [cbn [pstep]; rewrite TS; reflexivity|exact L| |]).
    1,3: exact (one_each os N).
    all: destruct (p_closing s) eqn:C; [unfold data_received; rewrite C; reflexivity|]; assert (Wa : wf_bytes (p_buff s ++ b)) by (apply wf_app; auto);
      destruct (cm_spec _ Wa) as (ms & r & _ & E & Wm & Ic & Wr); rewrite (data_received_frames s b ms r C Wa E Wm Ic); cbn [up_buff p_futs];
      rewrite (delivers_proj (fun s => List.length (p_futs s)) deliver_len); reflexivity.
  - assert (E : exists os, p_log (fst (connection_lost s)) = p_log s ++ os /\ Forall unwritten os /\ p_futs (fst (connection_lost s)) = p_futs s).
    { unfold connection_lost, stop_keepalive. destruct (p_stop _); cbn [up_tasks p_closed up_timers up_conn]; destruct (p_closed s); cbn [fst]; try (exists []; rewrite app_nil_r; auto; fail);
        cbn [up_closed up_timers up_conn up_tasks p_cb]; destruct (p_cb s); try (exists []; rewrite app_nil_r; auto; fail); exists [OutLost]; cbn; auto. }
    destruct E as (os & E1 & E2 & E3).
    destruct (p_transport s) eqn:TS; try (apply (Same s []); cbn [pstep]; rewrite ?TS; auto; fail);
      (apply (Same (fst (connection_lost s)) os); [cbn [pstep]; rewrite TS; reflexivity|exact E1|exact E2|rewrite E3; reflexivity]).
  - apply (Same _ [] eq_refl); [|constructor|]; cbn [pstep]; destruct (p_lost_tasks s) eqn:LT; auto; unfold all_done_start; cbn; auto. apply fcancel_all_length.
  - destruct (NR code data eq_refl).
  - apply (Same _ [] eq_refl); [cbn; auto|constructor|]. cbn. apply fcancel_length.
  - apply (Same _ [] eq_refl); [|constructor|]; cbn [pstep]; destruct (p_transport s) eqn:TS; auto; unfold close_start, all_done_start; destruct force; cbn; auto; apply fcancel_all_length.
  - assert (E : exists os, p_log (close_resume i s) = p_log s ++ os /\ Forall unwritten os /\ p_futs (close_resume i s) = p_futs s).
    { unfold close_resume, close_transport. destruct (nth i (p_closers s) CDone); try (exists []; rewrite app_nil_r; auto; fail); [|destruct (p_closed s); (exists []; rewrite app_nil_r; auto)].
      destruct (gather_done fs (p_futs s)); [|exists []; rewrite app_nil_r; auto]. destruct (p_transport s); try (exists []; rewrite app_nil_r; auto; fail). exists [OutClosedTransport]. cbn. auto. }
    destruct E as (os & E1 & E2 & E3). apply (Same (close_resume i s) os); [reflexivity|exact E1|exact E2|rewrite E3; reflexivity].
  - apply (Same (close_cancel i s) []); [reflexivity| |constructor|]; unfold close_cancel; destruct (nth i (p_closers s) CDone); auto; try (destruct (p_closed s); auto; fail). cbn. apply fcancel_all_length.
Qed.
Lemma new_request s X p : reachable s -> p_transport s = TUp -> p_closing s = false -> is_u16 X -> zlen p < 4294967296 ->
  let f := List.length (p_futs s) in
  new_of s (EvRequest X p) = [OutRequest f (Z.of_nat f mod 32767) X p; OutWrite (frame (Z.of_nat f mod 32767, X, p))] /\
  List.length (p_futs (pstep s (EvRequest X p))) = S f /\ fget f (p_futs (pstep s (EvRequest X p))) = FPending.
Proof.
  intros R T C HX Hp f. pose proof (log_grows s (EvRequest X p) R Logic.I) as G. pose proof (Prop_Protocol.C17_id_on_wire s X p R T C HX Hp) as K. cbn zeta in K. split.
  - apply (app_inv_head (p_log s)). rewrite <- G. exact K.
  - cbn [pstep]. unfold await_send_message. match goal with |- context [up_log [OutRequest ?f ?i ?c ?d] ?x] => set (s1 := up_log [OutRequest f i c d] x) end.
    assert (E : p_futs s1 = p_futs s ++ [FPending]) by reflexivity. change (p_closing s1) with (p_closing s). rewrite C.
    destruct (send_message_frame (p_next s) X p s1) as (_ & B & _).
    destruct (send_message (p_next s) X p s1) as [s2 [|]]; cbn [fst] in *; rewrite B, E, app_length; cbn [List.length]; (split; [unfold f; lia|unfold fget, f; rewrite app_nth2 by lia; rewrite Nat.sub_diag; reflexivity]).
Qed.

(** ** after the loss *)
Definition rest_state (s : pstate) : Prop :=
  (up s = true -> p_lost_tasks s = 0%nat) /\
  (p_transport s = TGone -> (p_lost_tasks s <= 1)%nat /\
     (p_lost_tasks s = 0%nat -> forall f, (f < List.length (p_futs s))%nat -> fget f (p_futs s) = FPending -> ~ current s f)).
Lemma gone_stays s e : tells e = true -> p_transport s = TGone -> p_transport (pstep s e) = TGone.
Proof.
  intros T G. destruct e; try discriminate T; cbn [pstep]; rewrite ?G; auto.
  - destruct (p_lost_tasks s); auto.
  - unfold await_send_message. match goal with |- context [up_log [OutRequest ?f ?i ?c ?d] ?x] => set (s1 := up_log [OutRequest f i c d] x) end.
    destruct (p_closing s1); [exact G|]. pose proof (send_message_state (p_next s) code data s1) as (_ & _ & C).
    destruct (send_message (p_next s) code data s1) as [s2 [|]]; cbn [fst] in *; rewrite C; exact G.
  - unfold close_start, all_done_start. destruct force; exact G.
  - unfold close_resume, close_transport. destruct (nth i (p_closers s) CDone); auto; [destruct (gather_done fs (p_futs s)); auto; rewrite G; auto|destruct (p_closed s); auto].
  - unfold close_cancel. destruct (nth i (p_closers s) CDone); auto. destruct (p_closed s); auto.
Qed.
Lemma lost_goes s : sound_state s -> p_transport (pstep s EvLost) = TGone.
Proof.
  intros (S1 & _). cbn [pstep]. destruct (p_transport s) eqn:T; auto; [congruence|..];
    unfold connection_lost, stop_keepalive; destruct (p_stop _); cbn [up_tasks p_closed up_timers up_conn]; destruct (p_closed s); cbn [fst]; auto; cbn [up_closed up_timers up_conn up_tasks p_cb]; destruct (p_cb s); auto.
Qed.
Lemma tasks_step s e : tells e = true ->
  p_lost_tasks (pstep s e) = match e with EvLostTask => Nat.pred (p_lost_tasks s) | EvLost => if up s then S (p_lost_tasks s) else p_lost_tasks s | _ => p_lost_tasks s end.
Proof.
  intros T. destruct e; try discriminate T; cbn [pstep].
  - assert (K : p_lost_tasks (data_received b s) = p_lost_tasks s).
    { unfold data_received. destruct (p_closing s) eqn:C; [auto|]. destruct (complete_messages _ _) as [ms rest].
      assert (K : forall ms s0, p_lost_tasks (fold_left deliver_res ms s0) = p_lost_tasks s0).
      { clear. induction ms as [|m ms IH]; intros s0; [auto|]. cbn [fold_left]. rewrite IH. destruct m as [m|]; cbn [deliver_res]; [|auto].
        unfold deliver, mark_done. destruct (zget _ _) as [f|]; [|destruct (zget _ _); auto].
        cbn [up_futs p_futs p_coll]. destruct (fget f (p_futs s0)); auto; destruct (zget _ _); auto. }
      rewrite K. reflexivity. }
    destruct (p_transport s); auto.
  - unfold up. destruct (p_transport s) eqn:TS; auto;
    unfold connection_lost, stop_keepalive; destruct (p_stop _); cbn [up_tasks p_closed up_timers up_conn]; destruct (p_closed s); cbn [fst]; auto; cbn [up_closed up_timers up_conn up_tasks p_cb]; destruct (p_cb s); auto.
  - destruct (p_lost_tasks s) eqn:L; [exact L|]. reflexivity.
  - unfold await_send_message. match goal with |- context [up_log [OutRequest ?f ?i ?c ?d] ?x] => set (s1 := up_log [OutRequest f i c d] x) end.
    destruct (p_closing s1); [reflexivity|].
    assert (C : p_lost_tasks (fst (send_message (p_next s) code data s1)) = p_lost_tasks s).
    { unfold send_message, set_keepalive, stop_keepalive. destruct (p_transport s1); cbn [fst]; auto; try destruct (makeMessage _ _ _); cbn [fst]; auto; destruct (p_ka _); auto; destruct (p_stop _); auto. }
    destruct (send_message (p_next s) code data s1) as [s2 [|]]; cbn [fst] in *; exact C.
  - reflexivity.
  - unfold close_start, all_done_start. destruct (p_transport s); destruct force; auto.
  - unfold close_resume, close_transport. destruct (nth i (p_closers s) CDone); auto; [destruct (gather_done fs (p_futs s)); auto; destruct (p_transport s); auto|destruct (p_closed s); auto].
  - unfold close_cancel. destruct (nth i (p_closers s) CDone); auto. destruct (p_closed s); auto.
Qed.
Lemma step_rest s e : reachable s -> wf_event e -> tells e = true -> sound_state s -> (forall X p, e = EvRequest X p -> p_transport s = TUp) ->
  rest_state s -> rest_state (pstep s e).
Proof.
  intros R W T S NR (A & B). destruct (step_state s e T S) as (S' & _ & Gn). destruct (reach_inv s R) as (I & Wb & _). pose proof (tasks_step s e T) as K. split.
  - intros U. assert (U0 : up s = true).
    { unfold up in *. destruct (p_transport s) eqn:Ts; auto; [destruct S; congruence|]. rewrite (gone_stays s e T Ts) in U. exact U. }
    rewrite K. destruct e; rewrite ?(A U0); auto. exfalso. unfold up in U. rewrite (lost_goes s S) in U. discriminate U.
  - intros G. destruct (Gn G) as [G0|EL].
    + destruct (B G0) as (B1 & B2).
      assert (NRq : forall X p, e <> EvRequest X p) by (intros X p E; rewrite (NR X p E) in G0; discriminate G0).
      destruct (new_unwritten s e R W T NRq) as (_ & Len).
      assert (Lk : (p_lost_tasks (pstep s e) <= p_lost_tasks s)%nat).
      { rewrite K. destruct e; auto; [unfold up; rewrite G0; auto|lia]. }
      split; [lia|]. intros Z f Lf Pf. rewrite Len in Lf.
      assert (Pf0 : fget f (p_futs s) = FPending).
      { destruct (fget f (p_futs s)) eqn:F; auto; exfalso; pose proof (resolved_stable s [e] f R (Forall_cons _ W (Forall_nil _)) Lf) as St; cbn [prun fold_left] in St; rewrite F in St; rewrite St in Pf by discriminate; discriminate Pf. }
      assert (Cu : current (pstep s e) f -> current s f) by (unfold current; rewrite Len; auto).
      intros C. apply Cu in C. destruct (p_lost_tasks s) eqn:Lt.
      * exact (B2 eq_refl f Lf Pf0 C).
      * destruct e; try (rewrite K in Z; try discriminate Z; unfold up in Z; rewrite G0 in Z; discriminate Z).
        rewrite (P_Proto4.lost_task_cancels s f R) in Pf; [discriminate Pf|lia|exact Pf0|exact C].
    + subst e. destruct (up s) eqn:U; rewrite K.
      * rewrite (A eq_refl). split; [lia|]. discriminate.
      * assert (G0 : p_transport s = TGone) by (unfold up in U; destruct (p_transport s) eqn:Ts; try discriminate U; [destruct S; congruence|reflexivity]).
        cbn [pstep]. rewrite G0. exact (B G0).
Qed.
