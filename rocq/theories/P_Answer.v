(** A request waits until the first message with its id comes: one connection. *)
From Verif Require Import Py F64 Struct Utf Utility Const Spec World Api Pool SpecPool Net SpecNet P_Base P_Util.
From Verif Require Import Protocol P_Proto1 P_Proto2 P_Proto3 P_Net2 P_Net8.
From Verif Require P_Proto4.

(** what the protocol object did after it created request [f] *)
Fixpoint since (f : nat) (l : list pout) : list pout :=
  match l with
  | [] => []
  | OutRequest g _ _ _ :: l' => if Nat.eqb g f then l' else since f l'
  | _ :: l' => since f l'
  end.
(** the first message since with its id *)
Definition reply_to (f : nat) (l : list pout) : option message := find (fun m => msg_id m =? kth_id f) (messages_of (since f l)).
(** no message is taken from the connection any more *)
Definition deaf (s : pstate) : Prop := p_closing s = true \/ p_transport s = TGone.
Definition fit (s : pstate) : Prop := alive s /\ (p_lost_tasks s <> 0%nat -> p_transport s = TGone).
Definition waits (s : pstate) (f : nat) : Prop :=
  (f < List.length (p_futs s))%nat /\
  (current s f ->
   match fget f (p_futs s) with
   | FPending => reply_to f (p_log s) = None
   | FDone m => reply_to f (p_log s) = Some m
   | FCancelled => reply_to f (p_log s) = None /\ deaf s
   end).

Lemma since_app f a b : In f (map fst (requests_of a)) -> since f (a ++ b) = since f a ++ b.
Proof.
  induction a as [|o a IH]; [intros []|]. intros J. destruct o; cbn [since app requests_of flat_map map] in *; auto.
  destruct (Nat.eqb_spec f0 f) as [->|NE]; [reflexivity|]. destruct J as [J|J]; [cbn in J; congruence|]. apply IH, J.
Qed.
Lemma known_request s f : invF s -> (f < List.length (p_futs s))%nat -> In f (map fst (requests_of (p_log s))).
Proof. intros [R _ _ _ _ _ _ _] L. rewrite R, map_map. apply in_map_iff. exists f. split; [reflexivity|]. apply in_seq. lia. Qed.
Lemma reply_app s f os : invF s -> (f < List.length (p_futs s))%nat ->
  reply_to f (p_log s ++ os) = match reply_to f (p_log s) with Some m => Some m | None => find (fun m => msg_id m =? kth_id f) (messages_of os) end.
Proof.
  intros I L. unfold reply_to. rewrite (since_app _ _ _ (known_request s f I L)), messages_app.
  induction (messages_of (since f (p_log s))) as [|m l IH]; [reflexivity|]. cbn [find app]. destruct (msg_id m =? kth_id f); [reflexivity|exact IH].
Qed.

(** one message *)
Lemma waits_deliver s m f : invF s -> (f < List.length (p_futs s))%nat -> current s f -> ~ deaf s ->
  (match fget f (p_futs s) with FPending => reply_to f (p_log s) = None | FDone m0 => reply_to f (p_log s) = Some m0 | FCancelled => False end) ->
  match fget f (p_futs (deliver s m)) with FPending => reply_to f (p_log (deliver s m)) = None | FDone m0 => reply_to f (p_log (deliver s m)) = Some m0 | FCancelled => False end.
Proof.
  intros I L C ND W. destruct (deliver_spec s m I) as (_ & _ & o & Lo & D). rewrite Lo, (reply_app s f [o] I L), (delivered_msg _ _ _ D). cbn [find].
  destruct (fget f (p_futs s)) as [|m0|] eqn:F.
  - pose proof (pending_in_coll s f I F C) as G. rewrite W. destruct (Z.eqb_spec (msg_id m) (kth_id f)) as [E|NE].
    + assert (X : fget f (p_futs (deliver s m)) = FDone m).
      { unfold deliver, mark_done. rewrite E, G. cbn [up_futs p_futs p_coll]. rewrite F. cbn [up_log up_futs p_futs]. rewrite fget_fset, Nat.eqb_refl by exact L. reflexivity. }
      rewrite X. reflexivity.
    + assert (X : fget f (p_futs (deliver s m)) = FPending).
      { unfold deliver, mark_done. destruct (zget (msg_id m) (p_coll s)) as [g|] eqn:Z; cbn [up_futs p_futs p_coll].
        - assert (NG : g <> f) by (intros ->; destruct I as [_ _ _ Cl _ _ _ _]; destruct (Cl _ _ Z) as (_ & K & _); congruence).
          destruct (fget g (p_futs s)) eqn:Fg; cbn [up_log up_futs p_futs].
          + rewrite fget_fset by (destruct I as [_ _ _ Cl _ _ _ _]; apply (Cl _ _ Z)). destruct (Nat.eqb_spec f g); [congruence|exact F].
          + exact F.
          + destruct (zget (msg_code m) _); exact F.
        - destruct (zget (msg_code m) _); exact F. }
      rewrite X. reflexivity.
  - rewrite (deliver_stable s m f I) by congruence. rewrite F, W. reflexivity.
  - destruct W.
Qed.
Lemma waits_delivers ms : forall s f, invF s -> (f < List.length (p_futs s))%nat -> current s f -> ~ deaf s ->
  (match fget f (p_futs s) with FPending => reply_to f (p_log s) = None | FDone m0 => reply_to f (p_log s) = Some m0 | FCancelled => False end) ->
  match fget f (p_futs (fold_left deliver ms s)) with FPending => reply_to f (p_log (fold_left deliver ms s)) = None | FDone m0 => reply_to f (p_log (fold_left deliver ms s)) = Some m0 | FCancelled => False end.
Proof.
  induction ms as [|m ms IH]; intros s f I L C ND W; [exact W|]. cbn [fold_left]. destruct (deliver_spec s m I) as (I' & _).
  assert (Fr : p_closing (deliver s m) = p_closing s /\ p_transport (deliver s m) = p_transport s).
  { unfold deliver, mark_done. destruct (zget _ _) as [g|]; cbn [up_futs p_futs p_coll]; [destruct (fget g _)|]; try destruct (zget _ _); auto. }
  destruct Fr as (F1 & F2). apply IH; auto.
  - rewrite deliver_len. exact L.
  - intros g Lg. rewrite deliver_len in Lg. apply C, Lg.
  - unfold deaf. rewrite F1, F2. exact ND.
  - apply waits_deliver; assumption.
Qed.

Lemma no_message s e : reachable s -> wf_event e -> (forall b, e <> EvData b) -> exists os, p_log (pstep s e) = p_log s ++ os /\ messages_of os = [].
Proof.
  intros R W ND. destruct (reach_inv s R) as (I & Wb & Ic). destruct (step_stream s e I Wb W) as (_ & os & L & Wm & E & Ic'). exists os. split; [exact L|].
  assert (E' : frames (messages_of os) ++ p_buff (pstep s e) = frames [] ++ p_buff s).
  { rewrite E. destruct e; try (rewrite app_nil_r; reflexivity). destruct (ND b eq_refl). }
  exact (proj1 (frames_unique (messages_of os) [] _ _ Wm (Forall_nil _) (Ic' Ic) Ic E')).
Qed.
Lemma fit_step s e : wf_event e -> tells e = true -> fit s -> fit (pstep s e).
Proof.
  intros W T (A & B). split; [apply alive_step; assumption|]. intros N. rewrite (tasks_step s e T) in N. pose proof (gone_stays s e T) as G. destruct A as (_ & So).
  destruct e; try (apply G, B; exact N).
  - apply lost_goes, So.
  - apply G, B. lia.
Qed.
Lemma fit_new : fit new_link. Proof. split; [apply alive_new|]. intros H. destruct (H eq_refl). Qed.
Lemma deaf_step s e : tells e = true -> deaf s -> deaf (pstep s e).
Proof.
  intros T [C|G]; [left|right; apply gone_stays; assumption].
  destruct (P_Proto4.step_closing s e C) as (C' & _); [destruct e; try reflexivity; discriminate T|]. exact C'.
Qed.
Lemma current_back s e f : reachable s -> wf_event e -> current (pstep s e) f -> current s f.
Proof. intros R W C g Lg. destruct (reach_inv s R) as (I & Wb & _). destruct (step_futs s e I Wb W) as (Le & _). apply C. lia. Qed.
Lemma cancelled_or gs l f : fget f (fcancel_all gs l) = fget f l \/ fget f (fcancel_all gs l) = FCancelled.
Proof. rewrite fget_fcancel_all. destruct (fget f l); auto; match goal with |- context [if ?b then _ else _] => destruct b; auto end. Qed.
Lemma waits_step s e f : fit s -> wf_event e -> tells e = true -> e <> EvCancel f -> waits s f -> waits (pstep s e) f.
Proof.
  intros ((R & So) & Lt) W T NC (L & K). destruct (reach_inv s R) as (I & Wb & _). destruct (step_futs s e I Wb W) as (Le & St). split; [lia|]. intros C'.
  pose proof (current_back s e f R W C') as C. specialize (K C). specialize (St f L).
  assert (Quiet : (forall b, e <> EvData b) -> (fget f (p_futs (pstep s e)) = fget f (p_futs s) \/ deaf (pstep s e) /\ fget f (p_futs (pstep s e)) = FCancelled) ->
    match fget f (p_futs (pstep s e)) with FPending => reply_to f (p_log (pstep s e)) = None | FDone m => reply_to f (p_log (pstep s e)) = Some m | FCancelled => reply_to f (p_log (pstep s e)) = None /\ deaf (pstep s e) end).
  { intros ND Fu. destruct (no_message s e R W ND) as (os & Lo & Mo). rewrite Lo, (reply_app s f os I L), Mo. cbn [find]. destruct (fget f (p_futs s)) as [|m|] eqn:F.
    - rewrite K. destruct Fu as [->|(Df & ->)]; auto.
    - rewrite (St ltac:(discriminate)), K. reflexivity.
    - rewrite (St ltac:(discriminate)), (proj1 K). split; [reflexivity|]. apply deaf_step; tauto. }
  destruct e; try discriminate T.
  - (* bytes *)
    destruct (p_closing s) eqn:Cl; [|destruct (p_transport s) eqn:Tr].
    + assert (E : pstep s (EvData b) = s) by (cbn [pstep]; destruct (p_transport s); auto; unfold data_received; rewrite Cl; reflexivity). rewrite E. exact K.
    + cbn [pstep]. rewrite Tr. exact K.
    + assert (E : pstep s (EvData b) = data_received b s) by (cbn [pstep]; rewrite Tr; reflexivity). rewrite E.
      assert (Wa : wf_bytes (p_buff s ++ b)) by (apply wf_app; auto). destruct (cm_spec _ Wa) as (ms & r & _ & Ef & Wm & Ic & _). rewrite (data_received_frames s b ms r Cl Wa Ef Wm Ic). cbn [up_buff p_futs p_log].
      assert (ND : ~ deaf s) by (intros [D|D]; congruence).
      pose proof (waits_delivers ms s f I L C ND) as G. destruct (fget f (p_futs s)) eqn:F; [specialize (G K)|specialize (G K)|destruct (ND (proj2 K))].
      * destruct (fget f (p_futs (fold_left deliver ms s))); [exact G|exact G|destruct G].
      * destruct (fget f (p_futs (fold_left deliver ms s))); [exact G|exact G|destruct G].
    + destruct So as (_ & So). destruct (So Cl) as (_ & N). congruence.
    + cbn [pstep]. rewrite Tr. exact K.
  - apply Quiet; [discriminate|]. left. assert (E : p_futs (fst (connection_lost s)) = p_futs s).
    { unfold connection_lost, stop_keepalive. destruct (p_stop _); cbn [up_tasks p_closed up_timers up_conn]; destruct (p_closed s); cbn [fst]; auto;
        cbn [up_closed up_timers up_conn up_tasks p_cb]; destruct (p_cb s); auto. }
    cbn [pstep]. destruct (p_transport s); rewrite ?E; reflexivity.
  - apply Quiet; [discriminate|]. destruct (p_lost_tasks s) eqn:Lk; [left; cbn [pstep]; rewrite Lk; reflexivity|].
    assert (E : p_futs (pstep s EvLostTask) = fcancel_all (map snd (p_coll s)) (p_futs s)) by (cbn [pstep]; rewrite Lk; reflexivity). rewrite E.
    destruct (cancelled_or (map snd (p_coll s)) (p_futs s) f) as [-> | ->]; [left; reflexivity|right]. split; [right|reflexivity]. apply gone_stays; [reflexivity|]. apply Lt. discriminate.
  - apply Quiet; [discriminate|]. left. cbn [pstep]. unfold await_send_message.
    match goal with |- context [up_log [OutRequest ?f ?i ?c ?d] ?x] => set (s1 := up_log [OutRequest f i c d] x) end.
    assert (G : p_futs s1 = p_futs s ++ [FPending]) by reflexivity.
    assert (Ga : fget f (p_futs s ++ [FPending]) = fget f (p_futs s)) by (unfold fget; apply app_nth1; exact L).
    destruct (p_closing s1).
    + cbn [fst up_futs p_futs]. rewrite fget_fcancel, G. destruct (Nat.eqb_spec f (List.length (p_futs s))); [lia|]. exact Ga.
    + destruct (send_message_frame (p_next s) code data s1) as (_ & B & _).
      destruct (send_message (p_next s) code data s1) as [s2 [|]]; cbn [fst] in *; rewrite B, G; exact Ga.
  - apply Quiet; [discriminate|]. left. cbn [pstep up_futs p_futs]. rewrite fget_fcancel. destruct (Nat.eqb_spec f f0); [congruence|reflexivity].
  - apply Quiet; [discriminate|]. assert (E : p_futs (pstep s (EvClose force)) = p_futs s \/ exists gs, p_futs (pstep s (EvClose force)) = fcancel_all gs (p_futs s)).
    { cbn [pstep]. unfold close_start, all_done_start. destruct (p_transport s), force; cbn; eauto. }
    destruct E as [->|(gs & ->)]; [left; reflexivity|]. destruct (cancelled_or gs (p_futs s) f) as [-> | ->]; [left; reflexivity|right].
    split; [|reflexivity]. left. apply (P_Proto4.close_closing s force (proj1 So)).
  - apply Quiet; [discriminate|]. left. cbn [pstep]. unfold close_resume, close_transport; destruct (nth i (p_closers s) CDone); auto;
      try (destruct (gather_done fs (p_futs s)); auto; destruct (p_transport s); auto);
      destruct (p_closed s); auto.
  - apply Quiet; [discriminate|]. destruct (p_closing s) eqn:Cl.
    + assert (E : p_futs (pstep s (EvCloseCancel i)) = p_futs s \/ exists gs, p_futs (pstep s (EvCloseCancel i)) = fcancel_all gs (p_futs s)).
      { cbn [pstep]. unfold close_cancel. destruct (nth i (p_closers s) CDone); cbn; eauto. destruct (p_closed s); auto. }
      destruct E as [->|(gs & ->)]; [left; reflexivity|]. destruct (cancelled_or gs (p_futs s) f) as [-> | ->]; [left; reflexivity|right].
      split; [|reflexivity]. apply deaf_step; [reflexivity|left; exact Cl].
    + left. cbn [pstep]. destruct So as (_ & So). destruct (So Cl) as (N & _). unfold close_cancel. rewrite N. destruct i; reflexivity.
Qed.
Lemma waits_new s X p : fit s -> waits (pstep s (EvRequest X p)) (List.length (p_futs s)).
Proof.
  intros ((R & So) & _). destruct (reach_inv s R) as (I & Wb & _).
  assert (E : exists os, p_log (pstep s (EvRequest X p)) = p_log s ++ OutRequest (List.length (p_futs s)) (p_next s) X p :: os /\ messages_of os = []).
  { destruct (no_message s (EvRequest X p) R Logic.I ltac:(discriminate)) as (os & Lo & Mo).
    assert (K : exists os', p_log (pstep s (EvRequest X p)) = p_log s ++ OutRequest (List.length (p_futs s)) (p_next s) X p :: os').
    { cbn [pstep]. unfold await_send_message. match goal with |- context [up_log [OutRequest ?f ?i ?c ?d] ?x] => set (s1 := up_log [OutRequest f i c d] x) end.
      assert (G : p_log s1 = p_log s ++ [OutRequest (List.length (p_futs s)) (p_next s) X p]) by reflexivity.
      destruct (p_closing s1); [exists []; exact G|]. pose proof (send_message_frame (p_next s) X p s1) as SF.
      destruct (send_message (p_next s) X p s1) as [s2 o] eqn:SM. cbn [fst] in SF. 
      assert (Lg : exists os', p_log s2 = p_log s1 ++ os') by (decompose [and ex or] SF; clear SF; eauto; eexists; try eassumption; rewrite app_nil_r; eassumption).
      destruct Lg as (os' & Lg). exists os'. rewrite G, <- app_assoc in Lg. destruct o; exact Lg. }
    destruct K as (os' & K). exists os'. split; [exact K|]. rewrite K in Lo. apply app_inv_head in Lo. subst os. exact Mo. }
  destruct E as (os & Lo & Mo).
  assert (F : fget (List.length (p_futs s)) (p_futs (pstep s (EvRequest X p))) = if p_closing s then FCancelled else FPending).
  { cbn [pstep]. unfold await_send_message. match goal with |- context [up_log [OutRequest ?f ?i ?c ?d] ?x] => set (s1 := up_log [OutRequest f i c d] x) end.
    assert (G : p_futs s1 = p_futs s ++ [FPending]) by reflexivity. change (p_closing s1) with (p_closing s).
    assert (Ga : fget (List.length (p_futs s)) (p_futs s ++ [FPending]) = FPending) by (unfold fget; rewrite app_nth2, Nat.sub_diag by lia; reflexivity).
    destruct (p_closing s).
    - cbn [fst up_futs p_futs]. rewrite fget_fcancel, G, Nat.eqb_refl, Ga. reflexivity.
    - destruct (send_message_frame (p_next s) X p s1) as (_ & B & _). destruct (send_message (p_next s) X p s1) as [s2 [|]]; cbn [fst] in *; rewrite B, G; exact Ga. }
  assert (Len : (List.length (p_futs s) < List.length (p_futs (pstep s (EvRequest X p))))%nat).
  { cbn [pstep]. unfold await_send_message. match goal with |- context [up_log [OutRequest ?f ?i ?c ?d] ?x] => set (s1 := up_log [OutRequest f i c d] x) end.
    assert (G : p_futs s1 = p_futs s ++ [FPending]) by reflexivity.
    destruct (p_closing s1).
    - cbn [fst up_futs p_futs]. rewrite fcancel_length, G, app_length. cbn. lia.
    - destruct (send_message_frame (p_next s) X p s1) as (_ & B & _). destruct (send_message (p_next s) X p s1) as [s2 [|]]; cbn [fst] in *; rewrite B, G, app_length; cbn; lia. }
  assert (Rp : reply_to (List.length (p_futs s)) (p_log (pstep s (EvRequest X p))) = None).
  { rewrite Lo. unfold reply_to. assert (N : ~ In (List.length (p_futs s)) (map fst (requests_of (p_log s)))).
    { destruct I as [Rq _ _ _ _ _ _ _]. rewrite Rq, map_map. intros J. apply in_map_iff in J. destruct J as (k & <- & J). apply in_seq in J. cbn in J. lia. }
    assert (Sn : since (List.length (p_futs s)) (p_log s ++ OutRequest (List.length (p_futs s)) (p_next s) X p :: os) = os).
    { revert N. generalize (List.length (p_futs s)) as k. generalize (p_log s) as l. induction l as [|o l IH]; intros k N; cbn [since app]; [rewrite Nat.eqb_refl; reflexivity|].
      destruct o; auto. destruct (Nat.eqb_spec f k) as [->|NE]; [destruct N; left; reflexivity|]. apply IH. intros J. apply N. right. exact J. }
    rewrite Sn, Mo. reflexivity. }
  split; [exact Len|]. intros _. rewrite F, Rp. destruct (p_closing s) eqn:Cl; [|reflexivity]. split; [reflexivity|]. apply deaf_step; [reflexivity|left; exact Cl].
Qed.
