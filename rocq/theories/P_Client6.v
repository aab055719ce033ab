(** Proof machinery for Client.v: a subscribed listener is served in orderly histories (C71). *)
From Verif Require Import Py F64 Struct Utf Utility Const Decode World Client P_Client P_Client2 P_Client3 P_Client4 P_Client5.
From Coq Require Import Lia Permutation.

Definition idle (s : cstate) : Prop := forall t, In t (x_tasks s) -> k_frames t = [].
(** no registration is being given up *)
Definition staying (s : cstate) : Prop := forall t, In t (x_tasks s) -> k_kind t = KUnsub -> k_frames t = [].

Definition orderly (s : cstate) (e : event) : Prop :=
  match e with
  | ESubscribe _ _ => staying s
  | EAttach None _ => idle s
  | EAttach (Some _) _ | EDisconnect _ | EAddFailed _ | ECancel _ => False
  | ERegister _ code _ | EUnregister _ code => tget code (x_table s) = None
  | _ => True
  end.

(** ---- tops *)
Lemma top_push i f s j : (i < List.length (x_tasks s))%nat -> top j (push_frame i f s) = if Nat.eqb j i then Some f else top j s.
Proof.
  intros H. unfold top, push_frame, get_task. cbn [x_tasks sx_tasks]. rewrite xnth_lset by auto. destruct (Nat.eqb j i); auto.
Qed.
Lemma top_pop i s j : j <> i -> top j (pop_frame i s) = top j s.
Proof.
  intros H. unfold top, pop_frame, get_task. cbn [x_tasks sx_tasks]. destruct (Nat.lt_ge_cases i (List.length (x_tasks s))) as [L|L].
  - rewrite xnth_lset by auto. destruct (Nat.eqb_spec j i); [contradiction|auto].
  - rewrite xlset_out; auto.
Qed.
Lemma top_returned i s j : top j (returned i s) = top j s.
Proof. unfold returned. destruct (get_task i s) as [[? ? ?| |] [|? ?]]; auto. Qed.
Lemma top_new k s j : top j (new_task k s) = top j s.
Proof.
  unfold top, new_task, get_task. cbn [x_tasks sx_tasks]. destruct (Nat.lt_ge_cases j (List.length (x_tasks s))) as [L|L].
  - rewrite app_nth1; auto.
  - rewrite app_nth2 by auto. rewrite (nth_overflow (x_tasks s)) by auto. destruct (j - List.length (x_tasks s))%nat as [|[|?]]; auto.
Qed.
Lemma top_eq s s' j : x_tasks s = x_tasks s' -> top j s = top j s'.
Proof. unfold top, get_task. intros ->. auto. Qed.
Lemma get_task_in i s f : top i s = Some f -> In (get_task i s) (x_tasks s) /\ In f (k_frames (get_task i s)).
Proof.
  intros H. pose proof (top_lt _ _ _ H) as L. split; [apply nth_In; auto|]. unfold top in H. destruct (k_frames (get_task i s)); [discriminate|].
  injection H as ->. left; auto.
Qed.

Definition pend (s : cstate) : Prop := exists i f, top i s = Some f /\ (f = FWaitSub \/ f = FAdding).
Definition unsub_frame (f : frame) : bool := match f with FCreated | FWaitUnsub | FRemoving => true | _ => false end.
Record tasks_ok (s : cstate) : Prop := mkTO {
  to_table : forall t, In t (x_tasks s) -> k_kind t = KUnsub -> k_frames t <> [] -> x_table s = [];
  to_kind : forall t f, In t (x_tasks s) -> In f (k_frames t) -> unsub_frame f = true -> k_kind t = KUnsub }.
Record conn_ok (s : cstate) : Prop := mkCO {
  co_cur : forall p, x_cur s = Some p -> (p < List.length (x_protos s))%nat;
  co_hand : forall p, x_cur s = Some p -> q_up (get_proto p s) = true ->
    forall code st, In (code, st) (x_table s) -> tget code (q_handlers (get_proto p s)) = Some (HClient code) }.
Record served (s : cstate) : Prop := mkSV {
  sv_tasks : tasks_ok s;
  sv_conn : conn_ok s;
  sv_sub : x_table s <> [] -> x_attached s = true -> x_client s = true \/ pend s }.

(** ---- connections *)
Lemma conn_same s s' : x_protos s' = x_protos s -> x_cur s' = x_cur s -> x_table s' = x_table s -> conn_ok s -> conn_ok s'.
Proof. intros A B C [H1 H2]. constructor; unfold get_proto in *; rewrite ?A, ?B, ?C; auto. Qed.
Definition sconn (s s' : cstate) : Prop := x_protos s' = x_protos s /\ x_cur s' = x_cur s /\ x_table s' = x_table s.
Lemma sconn_refl s : sconn s s. Proof. split; auto. Qed.
Lemma sconn_trans a b c : sconn a b -> sconn b c -> sconn a c.
Proof. intros (?&?&?) (?&?&?). split; [|split]; congruence. Qed.
Lemma sconn_conn s s' : sconn s s' -> conn_ok s -> conn_ok s'. Proof. intros (?&?&?). apply conn_same; auto. Qed.
Lemma sconn_att s s' : sconn s s' -> x_attached s' = x_attached s.
Proof. intros (A&B&_). unfold x_attached, get_proto. rewrite A, B. auto. Qed.
Lemma sconn_returned i s : sconn s (returned i s).
Proof. unfold returned. destruct (get_task i s) as [[? ? ?| |] [|? ?]]; split; auto. Qed.
Lemma sconn_push i f s : sconn s (push_frame i f s). Proof. split; auto. Qed.
Lemma sconn_pop i s : sconn s (pop_frame i s). Proof. split; auto. Qed.
Lemma sconn_begin_sub i s : sconn s (begin_sub i s).
Proof.
  unfold begin_sub, enter_sub, wait_lock. destruct (x_attached s); [|apply sconn_returned]. destruct (lock_free s); [|split; auto].
  destruct (x_is_client _); [eapply sconn_trans; [|apply sconn_returned]|]; split; auto.
Qed.
Lemma sconn_enter_sub i s : sconn s (enter_sub i s).
Proof. unfold enter_sub. destruct (x_is_client _); [eapply sconn_trans; [|apply sconn_returned]|]; split; auto. Qed.

(** ---- tasks *)
Lemma tasks_same s s' : x_tasks s' = x_tasks s -> x_table s' = x_table s -> tasks_ok s -> tasks_ok s'.
Proof. intros A B [H1 H2]. constructor; rewrite ?A, ?B; auto. Qed.
Lemma tasks_returned i s : tasks_ok s -> tasks_ok (returned i s).
Proof. apply tasks_same; unfold returned; destruct (get_task i s) as [[? ? ?| |] [|? ?]]; auto. Qed.
Lemma in_lset {A} (t : A) i x l : In t (lset i x l) -> t = x \/ In t l.
Proof. revert i; induction l as [|y l IH]; intros [|i]; cbn; auto; intros [H|H]; auto. destruct (IH _ H); auto. Qed.
Lemma tasks_push i f s : (i < List.length (x_tasks s))%nat ->
  (k_kind (get_task i s) = KUnsub -> x_table s = []) -> (unsub_frame f = true -> k_kind (get_task i s) = KUnsub) ->
  tasks_ok s -> tasks_ok (push_frame i f s).
Proof.
  intros L K1 K2 [H1 H2]. unfold push_frame. constructor; cbn [x_tasks x_table sx_tasks]; intros t.
  - intros T. apply in_lset in T. destruct T as [->|T]; eauto.
  - intros g T. apply in_lset in T. destruct T as [->|T]; eauto. cbn. intros [<-|G] U; auto. eapply H2; eauto. apply nth_In. auto.
Qed.
Lemma tasks_pop i s : tasks_ok s -> tasks_ok (pop_frame i s).
Proof.
  intros H. destruct (Nat.lt_ge_cases i (List.length (x_tasks s))) as [L|L].
  2:{ unfold pop_frame. rewrite xlset_out by auto. apply (tasks_same s); auto. }
  pose proof H as [H1 H2].
  assert (I : In (get_task i s) (x_tasks s)) by (apply nth_In; auto).
  unfold pop_frame. constructor; cbn [x_tasks x_table sx_tasks]; intros t.
  - intros T. apply in_lset in T. destruct T as [->|T]; [|eauto]. cbn. intros K F. apply (H1 _ I K). intros Q. rewrite Q in F. apply F. reflexivity.
  - intros g T. apply in_lset in T. destruct T as [->|T]; [|eauto]. cbn. intros G. apply (H2 _ g I).
    destruct (k_frames (get_task i s)); [destruct G|right; auto].
Qed.
Lemma tasks_new k s : tasks_ok s -> tasks_ok (new_task k s).
Proof.
  intros [H1 H2]. unfold new_task. constructor; cbn [x_tasks x_table sx_tasks]; intros t.
  - intros T. apply in_app_iff in T. destruct T as [T|[<-|[]]]; eauto. cbn. congruence.
  - intros g T. apply in_app_iff in T. destruct T as [T|[<-|[]]]; eauto. intros [].
Qed.
Lemma kind_push i f s j : k_kind (get_task j (push_frame i f s)) = k_kind (get_task j s).
Proof.
  unfold push_frame, get_task. cbn [x_tasks sx_tasks]. destruct (Nat.lt_ge_cases i (List.length (x_tasks s))) as [L|L].
  - rewrite xnth_lset by auto. destruct (Nat.eqb_spec j i); subst; auto.
  - rewrite xlset_out; auto.
Qed.
Lemma kind_pop i s j : k_kind (get_task j (pop_frame i s)) = k_kind (get_task j s).
Proof.
  unfold pop_frame, get_task. cbn [x_tasks sx_tasks]. destruct (Nat.lt_ge_cases i (List.length (x_tasks s))) as [L|L].
  - rewrite xnth_lset by auto. destruct (Nat.eqb_spec j i); subst; auto.
  - rewrite xlset_out; auto.
Qed.

Lemma tasks_begin_sub i s : (i < List.length (x_tasks s))%nat -> k_kind (get_task i s) <> KUnsub -> tasks_ok s -> tasks_ok (begin_sub i s).
Proof.
  intros L K H. unfold begin_sub, enter_sub, wait_lock. destruct (x_attached s); [|apply tasks_returned; auto]. destruct (lock_free s).
  - destruct (x_is_client _); [apply tasks_returned; apply (tasks_same s); auto|]. apply tasks_push; [exact L|intros Q; contradiction|discriminate|apply (tasks_same s); auto].
  - apply tasks_push; [exact L|intros Q; contradiction|discriminate|apply (tasks_same s); auto].
Qed.
Lemma pend_begin_sub i s : (i < List.length (x_tasks s))%nat -> x_attached s = true -> x_client s = false -> pend (begin_sub i s).
Proof.
  intros L A C. unfold begin_sub, enter_sub, wait_lock. rewrite A. destruct (lock_free s).
  - unfold x_is_client. cbn [x_client sx_locked]. rewrite C. cbn [andb]. exists i, FAdding. rewrite top_push by auto. rewrite Nat.eqb_refl. auto.
  - exists i, FWaitSub. rewrite top_push by auto. rewrite Nat.eqb_refl. auto.
Qed.
Lemma client_returned i s : x_client (returned i s) = x_client s.
Proof. unfold returned. destruct (get_task i s) as [[? ? ?| |] [|? ?]]; auto. Qed.

(** ---- protocols *)
Lemma get_upd p f s q : (p < List.length (x_protos s))%nat -> get_proto q (upd_proto p f s) = if Nat.eqb q p then f (get_proto p s) else get_proto q s.
Proof. intros L. unfold get_proto at 1, upd_proto. cbn [x_protos sx_protos]. rewrite xnth_lset by auto. reflexivity. Qed.

(** ---- each event *)
Lemma served_init : served client_init.
Proof. constructor; [constructor; cbn; tauto|constructor; cbn; discriminate|cbn; congruence]. Qed.

Lemma served_remove c s : served s -> served (remove_listener c s).
Proof.
  intros H. unfold remove_listener. destruct c as [i0 cb code st]. destruct (mem cb (get_set st s)); auto. cbv zeta.
  set (l := filter _ _).
  set (s1 := sx_sets _ s).
  assert (H1 : served s1) by (destruct H as [[A B] [C D] E]; constructor; [constructor; auto|constructor; auto|auto]).
  destruct l; auto. clearbody s1. clear H s. rename s1 into s, H1 into H.
  destruct (tget code (x_table s)) as [st0|] eqn:G; auto.
  assert (S1 : served (sx_table (tdel code (x_table s)) s)).
  { destruct H as [[A B] [C D] E]. constructor.
    - constructor; cbn [x_tasks x_table sx_table]; auto. intros t T K F. rewrite (A t T K F). reflexivity.
    - constructor; auto. cbn [x_cur x_table sx_table]. intros p P U c2 st2 I. apply in_tdel in I. eapply D; eauto. apply I.
    - cbn [x_table sx_table]. intros N At. apply E; auto. intros Q. rewrite Q in N. apply N. reflexivity. }
  set (s1 := sx_table _ s) in *.
  assert (T1 : forall c2 st2, In (c2, st2) (x_table s1) -> c2 <> code) by (intros c2 st2 I; apply in_tdel in I; apply I).
  clearbody s1. destruct (x_attached s1) eqn:At; auto.
  assert (S2 : served (on_cur (fun p => p_unregister p code) s1)).
  { destruct S1 as [[A B] [C D] E]. unfold on_cur. destruct (x_cur s1) as [p|] eqn:P; [|constructor; [constructor|constructor|]; rewrite ?P; auto].
    specialize (C p eq_refl). constructor.
    - constructor; auto.
    - constructor.
      + cbn [x_cur]. intros p' Q. unfold p_unregister, upd_proto. cbn [x_protos sx_protos]. rewrite xlset_length.
        change (x_cur s1 = Some p') in Q. rewrite P in Q. injection Q as <-. auto.
      + intros p' Q. change (x_cur s1 = Some p') in Q. assert (p' = p) by congruence. subst p'.
        unfold p_unregister. rewrite get_upd, Nat.eqb_refl by auto. cbn [q_up q_handlers]. intros U c2 st2 I.
        change (In (c2, st2) (x_table s1)) in I. rewrite tget_tdel. destruct (Z.eqb_spec c2 code) as [->|]; [exfalso; eapply T1; eauto|]. eapply D; eauto.
    - intros N _. apply E; auto. }
  set (s2 := on_cur _ s1) in *. clearbody s2. destruct (x_table s2) eqn:T2; auto.
  destruct S2 as [[A B] [C D] E]. constructor.
  - constructor; cbn [x_tasks x_table sx_tasks]; auto.
    intros t f T. apply in_app_iff in T. destruct T as [T|[<-|[]]]; eauto.
  - constructor; auto.
  - cbn [x_table sx_tasks]. congruence.
Qed.
Lemma served_call r s : served s -> served (call_closure r s).
Proof. intros H. unfold call_closure. destruct (nth_error _ _); auto. apply served_remove; auto. Qed.

Lemma served_subscribe cb code s : staying s -> served s -> served (subscribe cb code s).
Proof.
  intros St H. unfold subscribe. destruct (x_attached s) eqn:At; auto.
  destruct (match tget code (x_table s) with Some st => (st, s) | None => _ end) as [st s1] eqn:E1.
  assert (P1 : (forall c i, In (c, i) (x_table s1) -> c = code \/ In (c, i) (x_table s)) /\
               x_protos s1 = x_protos s /\ x_cur s1 = x_cur s /\ x_tasks s1 = x_tasks s /\ x_client s1 = x_client s /\ x_table s1 <> []).
  { destruct (tget code (x_table s)) eqn:G; injection E1 as <- <-; split; auto.
    - repeat split; auto. intros Q. rewrite Q in G. discriminate.
    - cbn [x_table sx_table]. rewrite (tset_new _ _ _ G). intros c i I. apply in_app_iff in I. destruct I as [I|[I|[]]]; [auto|injection I as <- _; auto].
    - repeat split; auto. cbn [x_table sx_table]. rewrite (tset_new _ _ _ G). intros Q. apply app_eq_nil in Q. destruct Q; discriminate. }
  clear E1.
  set (s2 := if mem cb (get_set st s1) then s1 else _).
  assert (P2 : (forall c i, In (c, i) (x_table s2) -> c = code \/ In (c, i) (x_table s)) /\
               x_protos s2 = x_protos s /\ x_cur s2 = x_cur s /\ x_tasks s2 = x_tasks s /\ x_client s2 = x_client s /\ x_table s2 <> []).
  { unfold s2. destruct (mem _ _); exact P1. }
  clearbody s2. clear P1 s1. destruct P2 as (T1 & Pp & Pc & Pt & Pcl & Pn).
  destruct H as [[A B] [C D] E].
  unfold on_cur. unfold x_attached in At. destruct (x_cur s) as [p|] eqn:P; [|discriminate]. rewrite Pc.
  specialize (C p eq_refl).
  set (s3 := p_register p code (HClient code) s2).
  assert (L : (p < List.length (x_protos s2))%nat) by (rewrite Pp; auto).
  assert (G3 : get_proto p s3 = mkP (q_up (get_proto p s)) (tset code (HClient code) (q_handlers (get_proto p s))) (q_ka (get_proto p s))).
  { unfold s3, p_register. rewrite get_upd, Nat.eqb_refl by auto. unfold get_proto. rewrite Pp. reflexivity. }
  assert (T3 : tasks_ok s3).
  { constructor; unfold s3; cbn [x_tasks x_table p_register upd_proto sx_protos]; rewrite Pt; auto.
    intros t T K F. exfalso. apply F. apply St; auto. }
  assert (C3 : conn_ok s3).
  { constructor.
    - intros p' Q. unfold s3, p_register, upd_proto. cbn [x_protos sx_protos]. rewrite xlset_length. change (x_cur s2 = Some p') in Q. assert (p' = p) by congruence. subst; auto.
    - intros p' Q. change (x_cur s2 = Some p') in Q. assert (p' = p) by congruence. subst p'. rewrite G3. cbn [q_up q_handlers].
      intros U c i I. change (In (c, i) (x_table s2)) in I. rewrite tget_tset. destruct (Z.eqb_spec c code); [subst; auto|].
      destruct (T1 _ _ I) as [|I']; [contradiction|]. eapply D; eauto. }
  assert (Cl3 : x_client s3 = x_client s) by exact Pcl.
  assert (Tb3 : x_table s3 <> []) by exact Pn.
  assert (A3 : x_attached s3 = true). { unfold x_attached. change (x_cur s3) with (x_cur s2). rewrite Pc, G3. exact At. }
  clearbody s3. cbv zeta.
  set (s4 := new_task _ s3). set (i := List.length (x_tasks s3)).
  assert (Li : (i < List.length (x_tasks s4))%nat) by (unfold s4; rewrite new_task_len; unfold i; lia).
  assert (Ki : k_kind (get_task i s4) <> KUnsub).
  { unfold s4, new_task, get_task, i. cbn [x_tasks sx_tasks]. rewrite app_nth2 by lia. rewrite Nat.sub_diag. cbn. discriminate. }
  assert (T4 : tasks_ok s4) by (apply tasks_new; auto).
  assert (C4 : conn_ok s4) by (eapply conn_same; [| | |exact C3]; reflexivity).
  unfold x_needed. change (x_table s4) with (x_table s3). change (x_client s4) with (x_client s3).
  destruct (x_table s3) as [|e3 l3] eqn:Tq; [congruence|]. destruct (x_client s3) eqn:Cq; cbn [negb].
  - constructor; [apply tasks_returned; auto|eapply sconn_conn; [apply sconn_returned|auto]|]. intros _ _. left. rewrite client_returned. exact Cq.
  - constructor; [apply tasks_begin_sub; auto|eapply sconn_conn; [apply sconn_begin_sub|auto]|]. intros _ _. right.
    apply pend_begin_sub; auto.
Qed.

Lemma handlers_fold p codes : forall s, (p < List.length (x_protos s))%nat ->
  let s' := fold_left (fun s code => p_register p code (HClient code) s) codes s in
  x_tasks s' = x_tasks s /\ x_table s' = x_table s /\ x_cur s' = x_cur s /\ x_client s' = x_client s /\
  List.length (x_protos s') = List.length (x_protos s) /\ q_up (get_proto p s') = q_up (get_proto p s) /\
  (forall c, In c codes \/ tget c (q_handlers (get_proto p s)) = Some (HClient c) -> tget c (q_handlers (get_proto p s')) = Some (HClient c)).
Proof.
  induction codes as [|c0 codes IH]; intros s L; cbn [fold_left]; cbv zeta.
  - repeat split; auto. intros c [[]|H]; auto.
  - destruct (IH (p_register p c0 (HClient c0) s)) as (A1 & A2 & A3 & A4 & A5 & A6 & A7).
    { unfold p_register, upd_proto. cbn [x_protos sx_protos]. rewrite xlset_length. auto. }
    rewrite A1, A2, A3, A4, A5, A6. unfold p_register at 1 2 3 4 5 6. rewrite get_upd, Nat.eqb_refl by auto.
    repeat split; auto.
    + unfold upd_proto. cbn [x_protos sx_protos]. apply xlset_length.
    + intros c H. apply A7. unfold p_register. rewrite get_upd, Nat.eqb_refl by auto. cbn [q_handlers]. rewrite tget_tset.
      destruct (Z.eqb_spec c c0); [subst; auto|]. destruct H as [[H|H]|H]; auto. congruence.
Qed.
Lemma served_attach i p s : (i < List.length (x_tasks s))%nat -> k_kind (get_task i s) <> KUnsub -> (p < List.length (x_protos s))%nat ->
  served s -> served (attach_to i p s).
Proof.
  intros Li Ki L H. destruct H as [T C _]. unfold attach_to. cbv zeta.
  set (s1 := sx_client false (sx_cur (Some p) s)).
  assert (T1 : tasks_ok s1) by (eapply tasks_same; [| |exact T]; reflexivity).
  unfold x_needed. change (x_client s1) with false. cbn [negb].
  destruct (x_table s1) as [|e l] eqn:Tb.
  - assert (N : x_table s = []) by exact Tb. constructor.
    + apply tasks_returned; auto.
    + eapply sconn_conn; [apply sconn_returned|]. constructor.
      * intros p' Q. change (Some p = Some p') in Q. injection Q as <-. exact L.
      * intros p' _ _ c st I. rewrite Tb in I. destruct I.
    + destruct (sconn_returned i s1) as (_ & _ & ->). rewrite Tb. congruence.
  - set (s2 := p_clear p s1).
    assert (L2 : (p < List.length (x_protos s2))%nat) by (unfold s2, p_clear, upd_proto; cbn [x_protos sx_protos]; rewrite xlset_length; exact L).
    destruct (handlers_fold p (map fst (x_table s2)) s2 L2) as (A1 & A2 & A3 & A4 & A5 & A6 & A7).
    set (s3 := fold_left _ _ s2) in *.
    assert (T3 : tasks_ok s3) by (eapply tasks_same; [exact A1|exact A2|]; eapply tasks_same; [| |exact T]; reflexivity).
    assert (C3 : conn_ok s3).
    { constructor.
      - intros p' Q. rewrite A3 in Q. change (Some p = Some p') in Q. injection Q as <-. rewrite A5. exact L2.
      - intros p' Q. rewrite A3 in Q. change (Some p = Some p') in Q. injection Q as <-. intros U c st I. apply A7. left.
        rewrite A2 in I. apply (in_map fst) in I. exact I. }
    constructor.
    + apply tasks_begin_sub; auto; [rewrite A1; exact Li|]. unfold get_task. rewrite A1. exact Ki.
    + eapply sconn_conn; [apply sconn_begin_sub|auto].
    + intros _ At. right. apply pend_begin_sub; [rewrite A1; exact Li| |rewrite A4; reflexivity].
      rewrite <- (sconn_att _ _ (sconn_begin_sub i s3)). exact At.
Qed.

Lemma served_same s s' : x_protos s' = x_protos s -> x_cur s' = x_cur s -> x_table s' = x_table s -> x_client s' = x_client s -> x_tasks s' = x_tasks s ->
  served s -> served s'.
Proof.
  intros A B C D E [T Cn S]. constructor; [eapply tasks_same; eauto|eapply conn_same; eauto|].
  rewrite C, D. intros N At. assert (At' : x_attached s = true) by (unfold x_attached, get_proto in *; rewrite A, B in At; exact At).
  destruct (S N At') as [|(i & f & P & Q)]; [auto|]. right. exists i, f. split; auto. rewrite (top_eq s' s); auto.
Qed.
Lemma served_empty s : tasks_ok s -> (forall p, x_cur s = Some p -> (p < List.length (x_protos s))%nat) -> x_table s = [] -> served s.
Proof. intros T C E. constructor; [exact T|constructor; [exact C|]|intros N; contradiction]. intros p _ _ c st I. rewrite E in I. destruct I. Qed.
Lemma tasks_enter_unsub i s : (i < List.length (x_tasks s))%nat -> k_kind (get_task i s) = KUnsub -> x_table s = [] -> tasks_ok s -> tasks_ok (enter_unsub i s).
Proof.
  intros L K E T. unfold enter_unsub. destruct (x_client s).
  - set (s1 := on_cur p_clear _).
    assert (Q : x_tasks s1 = x_tasks s /\ x_table s1 = x_table s).
    { unfold s1, on_cur. cbn [x_cur sx_client]. destruct (x_cur s) as [p0|] eqn:P0; cbn; rewrite P0; cbn; auto. }
    destruct Q as [Q1 Q2]. apply tasks_push; rewrite ?Q1, ?Q2; auto; [unfold get_task; rewrite Q1; auto|]. eapply tasks_same; eauto.
  - apply tasks_returned. eapply tasks_same; [| |exact T]; reflexivity.
Qed.
Lemma conn_enter_unsub i s : let s' := enter_unsub i s in x_cur s' = x_cur s /\ List.length (x_protos s') = List.length (x_protos s) /\ x_table s' = x_table s.
Proof.
  unfold enter_unsub. destruct (x_client s).
  - cbv zeta. unfold push_frame, on_cur. cbn [x_cur sx_tasks sx_client]. destruct (x_cur s) as [p|] eqn:P.
    + cbn. rewrite P. cbn. rewrite !xlset_length. auto.
    + cbn. rewrite P. cbn. auto.
  - destruct (sconn_returned i (sx_locked false s)) as (A & B & C). cbv zeta. rewrite A, B, C. auto.
Qed.
Lemma served_enter_unsub i s : (i < List.length (x_tasks s))%nat -> k_kind (get_task i s) = KUnsub -> x_table s = [] -> served s -> served (enter_unsub i s).
Proof.
  intros L K E [T C _]. destruct (conn_enter_unsub i s) as (A1 & A2 & A3). apply served_empty.
  - apply tasks_enter_unsub; auto.
  - intros p P. rewrite A1 in P. rewrite A2. apply C; auto.
  - rewrite A3; auto.
Qed.
Lemma served_begin_unsub i s : (i < List.length (x_tasks s))%nat -> k_kind (get_task i s) = KUnsub -> x_table s = [] -> served s -> served (begin_unsub i s).
Proof.
  intros L K E S. unfold begin_unsub, wait_lock. destruct (x_attached s).
  - destruct (lock_free s).
    + apply served_enter_unsub; auto. eapply served_same; [| | | | |exact S]; reflexivity.
    + destruct S as [T C _]. apply served_empty; [|apply C|exact E].
      apply tasks_push; [exact L|intros _; exact E|intros _; exact K|]. apply (tasks_same s); auto.
  - destruct S as [T C _]. destruct (sconn_returned i s) as (A1 & A2 & A3). apply served_empty; [apply tasks_returned; auto| |congruence].
    rewrite A1, A2. apply C.
Qed.
Lemma pop_lost i s : served s -> (forall f, top i s = Some f -> f <> FWaitSub /\ f <> FAdding) -> served (pop_frame i s).
Proof.
  intros [T C S] N. constructor; [apply tasks_pop; auto|eapply sconn_conn; [apply sconn_pop|auto]|].
  intros E At. destruct (S E At) as [|(j & f & P & Q)]; [auto|]. right. exists j, f. split; auto. rewrite top_pop; auto.
  intros ->. destruct (N _ P). destruct Q; auto.
Qed.

Lemma served_step s e s' : orderly s e -> served s -> xstep s e = Some s' -> served s'.
Proof.
  intros O H. destruct e as [cb code|r|who| |who p|p|i|i|i|i|i|i|p code h|p code|p code m|order react]; cbn [xstep orderly] in *; try contradiction.
  - intros E; injection E as <-. apply served_subscribe; auto.
  - destruct (Nat.ltb _ _); [|discriminate]. intros E; injection E as <-. apply served_call; auto.
  - intros E; injection E as <-. destruct H as [T [C1 C2] S].
    assert (G : forall p, x_cur s = Some p -> get_proto p (sx_protos (x_protos s ++ [mkP true [] false]) s) = get_proto p s).
    { intros p P. unfold get_proto. cbn [x_protos sx_protos]. apply app_nth1. auto. }
    constructor; [apply (tasks_same s); auto| |].
    + constructor; cbn [x_cur x_protos x_table sx_protos].
      * intros p P. rewrite app_length. pose proof (C1 p P). lia.
      * intros p P. rewrite G by auto. eauto.
    + intros N At. apply S; auto. unfold x_attached in *. cbn [x_cur sx_protos] in At. destruct (x_cur s) eqn:P; [|discriminate].
      rewrite G in At; auto.
  - destruct who as [?|]; [contradiction|]. destruct (Nat.ltb p _) eqn:Lp; [|discriminate]. apply Nat.ltb_lt in Lp. unfold by_task. intros E; injection E as <-.
    apply served_attach; [rewrite new_task_len; lia| |exact Lp|].
    + unfold new_task, get_task. cbn [x_tasks sx_tasks]. rewrite app_nth2 by lia. rewrite Nat.sub_diag. cbn. discriminate.
    + destruct H as [T C S]. constructor; [apply tasks_new; auto|eapply conn_same; [| | |exact C]; reflexivity|].
      intros N At. destruct (S N At) as [|(j & f & P & Q)]; [auto|]. right. exists j, f. split; auto. rewrite top_new; auto.
  - destruct (q_up (get_proto p s)) eqn:U; [|discriminate]. intros E; injection E as <-.
    assert (Lp : (p < List.length (x_protos s))%nat).
    { destruct (Nat.lt_ge_cases p (List.length (x_protos s))); auto. unfold get_proto in U. rewrite nth_overflow in U by auto. discriminate. }
    destruct H as [T [C1 C2] S].
    constructor; [apply (tasks_same s); auto| |].
    + constructor.
      * intros p' P. unfold upd_proto. cbn [x_protos sx_protos]. rewrite xlset_length. apply C1. exact P.
      * intros p' P. rewrite get_upd by auto. destruct (Nat.eqb_spec p' p); [cbn; discriminate|]. apply C2. exact P.
    + intros N At. apply S; auto. unfold x_attached in *. change (x_cur (upd_proto p _ s)) with (x_cur s) in At.
      destruct (x_cur s) as [p'|]; auto. rewrite get_upd in At by auto. destruct (Nat.eqb_spec p' p); [subst; auto|auto].
  - destruct (top i s) as [[| | | |]|] eqn:Tp; try discriminate. intros E; injection E as <-.
    destruct (get_task_in _ _ _ Tp) as [I1 I2]. pose proof (to_kind _ (sv_tasks _ H) _ _ I1 I2 eq_refl) as K.
    assert (Tb : x_table s = []). { apply (to_table _ (sv_tasks _ H) _ I1 K). intros Q. rewrite Q in I2. destruct I2. }
    apply served_begin_unsub; [rewrite pop_len; eapply top_lt; eauto|rewrite kind_pop; auto|exact Tb|].
    apply pop_lost; auto. intros f F. rewrite Tp in F. injection F as <-. split; discriminate.
  - destruct (x_locked s); [discriminate|]. destruct (x_queue s) as [|j q]; [discriminate|].
    destruct (Nat.eqb i j); [|discriminate].
    set (s1 := sx_locked true (pop_frame i (sx_queue q s))).
    destruct (top i s) as [[| | | |]|] eqn:Tp; try discriminate; intros E; injection E as <-; pose proof (top_lt _ _ _ Tp) as Li;
      destruct (get_task_in _ _ _ Tp) as [I1 I2].
    + assert (L1 : (i < List.length (x_tasks s1))%nat) by (unfold s1; cbn [x_tasks sx_locked]; rewrite pop_len; exact Li).
      assert (T1 : tasks_ok s1).
      { eapply (tasks_same (pop_frame i (sx_queue q s))); [reflexivity|reflexivity|]. apply tasks_pop. eapply tasks_same; [| |apply H]; reflexivity. }
      constructor.
      * unfold enter_sub. destruct (x_is_client s1); [apply tasks_returned; eapply tasks_same; [| |exact T1]; reflexivity|].
        apply tasks_push; auto; try discriminate. intros K. apply (to_table _ (sv_tasks _ H) _ I1).
        -- unfold s1 in K. change (k_kind (get_task i (pop_frame i (sx_queue q s))) = KUnsub) in K. rewrite kind_pop in K. exact K.
        -- intros Q. rewrite Q in I2. destruct I2.
      * eapply sconn_conn; [apply sconn_enter_sub|]. eapply conn_same; [| | |apply H]; reflexivity.
      * intros _ _. unfold enter_sub. destruct (x_is_client s1) eqn:Ic.
        -- left. rewrite client_returned. cbn [x_client sx_locked]. unfold x_is_client in Ic. apply andb_true_iff in Ic. apply Ic.
        -- right. exists i, FAdding. rewrite top_push by auto. rewrite Nat.eqb_refl. auto.
    + pose proof (to_kind _ (sv_tasks _ H) _ _ I1 I2 eq_refl) as K.
      assert (Tb : x_table s = []). { apply (to_table _ (sv_tasks _ H) _ I1 K). intros Q. rewrite Q in I2. destruct I2. }
      apply served_enter_unsub.
      * unfold s1; cbn [x_tasks sx_locked]; rewrite pop_len; exact Li.
      * change (k_kind (get_task i (pop_frame i (sx_queue q s))) = KUnsub). rewrite kind_pop. exact K.
      * exact Tb.
      * apply (served_same (pop_frame i (sx_queue q s))); try reflexivity. apply pop_lost.
        -- apply (served_same s); try reflexivity. auto.
        -- intros f F. change (top i s = Some f) in F. rewrite Tp in F. injection F as <-. split; discriminate.
  - destruct (top i s) as [[| | | |]|] eqn:Tp; try discriminate; intros E; injection E as <-.
    set (s1 := on_cur _ _).
    assert (Q : x_tasks s1 = x_tasks (pop_frame i s) /\ x_table s1 = x_table s /\ x_client s1 = true /\ conn_ok s1).
    { unfold s1, on_cur. change (x_cur (sx_client true (pop_frame i s))) with (x_cur s). destruct H as [T [C1 C2] S].
      destruct (x_cur s) as [p|] eqn:P.
      - split; [reflexivity|]. split; [reflexivity|]. split; [reflexivity|]. specialize (C1 p eq_refl).
        constructor; cbn [x_cur x_protos p_keepalive upd_proto sx_protos].
        + intros p' Q. change (x_cur s = Some p') in Q. rewrite xlset_length. assert (p' = p) by congruence. subst. exact C1.
        + intros p' Q. change (x_cur s = Some p') in Q. assert (p' = p) by congruence. subst p'.
          unfold p_keepalive. rewrite get_upd, Nat.eqb_refl by exact C1. cbn [q_up q_handlers].
          change (get_proto p (sx_client true (pop_frame i s))) with (get_proto p s). intros U c st I. eapply C2; eauto.
      - split; [reflexivity|]. split; [reflexivity|]. split; [reflexivity|]. constructor; cbn; congruence. }
    destruct Q as (Q1 & Q2 & Q3 & Q4). clearbody s1. constructor.
    + apply tasks_returned. eapply (tasks_same (pop_frame i s)); [exact Q1|exact Q2|]. apply tasks_pop. apply H.
    + eapply sconn_conn; [apply sconn_returned|]. eapply conn_same; [| | |exact Q4]; reflexivity.
    + intros _ _. left. rewrite client_returned. exact Q3.
  - destruct (top i s) as [[| | | |]|] eqn:Tp; try discriminate; intros E; injection E as <-.
    set (s1 := sx_locked false (pop_frame i s)).
    assert (S1 : served s1).
    { apply (served_same (pop_frame i s)); try reflexivity. apply pop_lost; auto. intros f F. rewrite Tp in F. injection F as <-. split; discriminate. }
    destruct (sconn_returned i s1) as (A1 & A2 & A3). apply (served_same s1); auto; [apply client_returned|].
    unfold returned. destruct (get_task i s1) as [[? ? ?| |] [|? ?]]; reflexivity.
  - intros E; injection E as <-. destruct H as [T [C1 C2] S].
    destruct (Nat.lt_ge_cases p (List.length (x_protos s))) as [Lp|Lp].
    2:{ unfold p_register, upd_proto. rewrite xlset_out by auto. eapply served_same; [| | | | |constructor; [exact T|constructor; eauto|exact S]]; reflexivity. }
    constructor; [apply (tasks_same s); auto| |].
    + constructor.
      * intros p' P. unfold p_register, upd_proto. cbn [x_protos sx_protos]. rewrite xlset_length. apply C1. exact P.
      * intros p' P. unfold p_register. rewrite get_upd by auto. destruct (Nat.eqb_spec p' p); [|apply C2; exact P]. subst. cbn [q_up q_handlers].
        intros U c st I. change (In (c, st) (x_table s)) in I. rewrite tget_tset. destruct (Z.eqb_spec c code); [subst; exfalso; eapply tget_none; eauto|]. eapply C2; eauto.
    + intros N At. apply S; auto. unfold x_attached in *. change (x_cur (p_register p code (HUser h) s)) with (x_cur s) in At.
      destruct (x_cur s) as [p'|]; auto. unfold p_register in At. rewrite get_upd in At by auto. destruct (Nat.eqb_spec p' p); [subst; auto|auto].
  - intros E; injection E as <-. destruct H as [T [C1 C2] S].
    destruct (Nat.lt_ge_cases p (List.length (x_protos s))) as [Lp|Lp].
    2:{ unfold p_unregister, upd_proto. rewrite xlset_out by auto. eapply served_same; [| | | | |constructor; [exact T|constructor; eauto|exact S]]; reflexivity. }
    constructor; [apply (tasks_same s); auto| |].
    + constructor.
      * intros p' P. unfold p_unregister, upd_proto. cbn [x_protos sx_protos]. rewrite xlset_length. apply C1. exact P.
      * intros p' P. unfold p_unregister. rewrite get_upd by auto. destruct (Nat.eqb_spec p' p); [|apply C2; exact P]. subst. cbn [q_up q_handlers].
        intros U c st I. change (In (c, st) (x_table s)) in I. rewrite tget_tdel. destruct (Z.eqb_spec c code); [subst; exfalso; eapply tget_none; eauto|]. eapply C2; eauto.
    + intros N At. apply S; auto. unfold x_attached in *. change (x_cur (p_unregister p code s)) with (x_cur s) in At.
      destruct (x_cur s) as [p'|]; auto. unfold p_unregister in At. rewrite get_upd in At by auto. destruct (Nat.eqb_spec p' p); [subst; auto|auto].
  - destruct (q_up _); [|discriminate]. destruct (tget code _); intros E; injection E as <-; auto. eapply served_same; [| | | | |exact H]; reflexivity.
  - assert (W : forall code0 m q, served (common_callback react order code0 m (sx_pushes q s))).
    { intros code0 m q. apply (common_inv served).
      - intros v s1 S1. eapply served_same; [| | | | |exact S1]; reflexivity.
      - intros v s1 S1. eapply served_same; [| | | | |exact S1]; reflexivity.
      - intros r s1 _ S1. apply served_call; auto.
      - eapply served_same; [| | | | |exact H]; reflexivity. }
    destruct (x_pushes s) as [|[[code0|n] m] q]; [discriminate| |intros E; injection E as <-; eapply served_same; [| | | | |exact H]; reflexivity].
    destruct (tget code0 (x_table s)) as [st0|]; [destruct (perm_b _ _); [|discriminate]|]; intros E; injection E as <-; apply W.
Qed.
Lemma served_run es : forall s s', served s -> xrun s es = Some s' ->
  (forall ea e eb sm, es = ea ++ e :: eb -> xrun s ea = Some sm -> orderly sm e) -> served s'.
Proof.
  induction es as [|e es IH]; intros s s' H; cbn [xrun].
  - intros E; injection E as <-. auto.
  - destruct (xstep s e) as [s1|] eqn:E; [|discriminate]. intros R N. apply (IH s1); auto.
    + eapply served_step; eauto. apply (N [] e es s); auto.
    + intros ea e' eb sm Q X. apply (N (e :: ea) e' eb sm); [rewrite Q; auto|]. cbn. rewrite E. auto.
Qed.
