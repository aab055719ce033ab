(** Proof machinery for Client.v: what each event does to the listener table. *)
From Verif Require Import Py F64 Struct Utf Utility Const Decode World Client P_Client P_Client2.
From Coq Require Import Lia Permutation.

Definition kinds (s : cstate) : list call_kind := map k_kind (x_tasks s).
Definition from_task (s : cstate) (c : closure) : Prop :=
  nth_error (kinds s) (c_task c) = Some (KSub (c_cb c) (c_code c) (c_set c)).
Definition no_sub (ks : list call_kind) : Prop := forall cb code st, ~ In (KSub cb code st) ks.

(** nothing happened to the listeners; functions may have been returned *)
Record grow (s s' : cstate) : Prop := mkGrow {
  g_table : x_table s' = x_table s;
  g_sets : x_sets s' = x_sets s;
  g_data : x_data s' = x_data s;
  g_log : x_log s' = x_log s;
  g_kinds : exists ks, kinds s' = kinds s ++ ks /\ no_sub ks;
  g_clos : exists ext, x_closures s' = x_closures s ++ ext /\ forall c, In c ext -> from_task s' c }.

Lemma no_sub_nil : no_sub []. Proof. intros ? ? ? []. Qed.
Lemma from_ext s s' ks c : kinds s' = kinds s ++ ks -> from_task s c -> from_task s' c.
Proof. unfold from_task. intros -> H. rewrite nth_error_app1; auto. apply nth_error_Some. congruence. Qed.
Lemma grow_trans a b c : grow a b -> grow b c -> grow a c.
Proof.
  intros [A1 A2 A3 A4 (k1 & A5 & A6) (e1 & A7 & A8)] [B1 B2 B3 B4 (k2 & B5 & B6) (e2 & B7 & B8)].
  constructor; try congruence.
  - exists (k1 ++ k2). rewrite B5, A5, app_assoc. split; auto. intros x y z H. apply in_app_iff in H. destruct H; [eapply A6|eapply B6]; eauto.
  - exists (e1 ++ e2). rewrite B7, A7, app_assoc. split; auto. intros x H. apply in_app_iff in H. destruct H; auto.
    eapply from_ext; eauto.
Qed.
Lemma grow_same s s' : x_table s' = x_table s -> x_sets s' = x_sets s -> x_data s' = x_data s -> x_log s' = x_log s ->
  kinds s' = kinds s -> x_closures s' = x_closures s -> grow s s'.
Proof.
  intros. constructor; auto.
  - exists []. rewrite app_nil_r. split; auto. apply no_sub_nil.
  - exists []. rewrite app_nil_r. split; auto. intros ? [].
Qed.
Lemma grow_refl s : grow s s. Proof. apply grow_same; auto. Qed.
Lemma grow_new k fs s : (forall cb code st, k <> KSub cb code st) -> grow s (sx_tasks (x_tasks s ++ [mkT k fs]) s).
Proof.
  intros H. constructor; auto.
  - exists [k]. unfold kinds. cbn [x_tasks sx_tasks]. rewrite map_app. split; auto. intros ? ? ? [E|[]]. eapply H; eauto.
  - exists []. rewrite app_nil_r. split; auto. intros ? [].
Qed.
Lemma kinds_upd i fs s : map k_kind (lset i (mkT (k_kind (get_task i s)) fs) (x_tasks s)) = kinds s.
Proof.
  unfold kinds, get_task. destruct (Nat.lt_ge_cases i (List.length (x_tasks s))) as [L|L].
  - destruct (xlset_split i (mkT (k_kind (nth i (x_tasks s) no_task)) fs) no_task _ L) as (a & b & E1 & E2 & _).
    rewrite E2. clear E2. remember (nth i (x_tasks s) no_task) as t eqn:Et. rewrite E1, !map_app. reflexivity.
  - rewrite xlset_out by auto. auto.
Qed.
Lemma grow_push i f s : grow s (push_frame i f s). Proof. apply grow_same; auto. unfold push_frame, kinds. cbn [x_tasks sx_tasks]. apply kinds_upd. Qed.
Lemma grow_pop i s : grow s (pop_frame i s). Proof. apply grow_same; auto. unfold pop_frame, kinds. cbn [x_tasks sx_tasks]. apply kinds_upd. Qed.
Lemma grow_returned i s : grow s (returned i s).
Proof.
  unfold returned. destruct (get_task i s) as [[cb code st| |] [|f fs]] eqn:E; try apply grow_refl.
  constructor; auto.
  - exists []. rewrite app_nil_r. split; auto. apply no_sub_nil.
  - exists [mkC i cb code st]. split; auto. intros c [<-|[]]. unfold from_task, kinds. cbn [x_tasks sx_closures c_task c_cb c_code c_set].
    unfold get_task in E. destruct (Nat.lt_ge_cases i (List.length (x_tasks s))) as [L|L]; [|rewrite nth_overflow in E by lia; discriminate].
    rewrite nth_error_map. rewrite (nth_error_nth' (x_tasks s) no_task L), E. reflexivity.
Qed.
Lemma grow_on_cur f s : (forall p s, grow s (f p s)) -> grow s (on_cur f s).
Proof. intros H. unfold on_cur. destruct (x_cur s); auto. apply grow_refl. Qed.
Lemma grow_proto p f s : grow s (upd_proto p f s). Proof. apply grow_same; auto. Qed.
Ltac gr := first [ apply grow_refl | apply grow_push | apply grow_pop | apply grow_returned | apply grow_proto
  | (apply grow_on_cur; intros; gr) | (apply grow_same; reflexivity) ].
Lemma grow_enter_sub i s : grow s (enter_sub i s).
Proof. unfold enter_sub. destruct (x_is_client s); [eapply grow_trans; [|apply grow_returned]|]; gr. Qed.
Lemma grow_enter_unsub i s : grow s (enter_unsub i s).
Proof.
  unfold enter_unsub. destruct (x_client s); [|eapply grow_trans; [|apply grow_returned]; gr].
  eapply grow_trans; [|apply grow_push]. eapply grow_trans; [|apply grow_on_cur; intros; apply grow_proto].
  eapply grow_trans; [|apply grow_on_cur; intros; apply grow_proto]. gr.
Qed.
Lemma grow_wait i f s : grow s (wait_lock i f s).
Proof. unfold wait_lock. eapply grow_trans; [|apply grow_push]. gr. Qed.
Lemma grow_begin_sub i s : grow s (begin_sub i s).
Proof.
  unfold begin_sub. destruct (x_attached s); [|gr]. destruct (lock_free s); [|apply grow_wait].
  eapply grow_trans; [|apply grow_enter_sub]. gr.
Qed.
Lemma grow_begin_unsub i s : grow s (begin_unsub i s).
Proof.
  unfold begin_unsub. destruct (x_attached s); [|gr]. destruct (lock_free s); [|apply grow_wait].
  eapply grow_trans; [|apply grow_enter_unsub]. gr.
Qed.
Lemma grow_fold_reg p codes s : grow s (fold_left (fun s code => p_register p code (HClient code) s) codes s).
Proof. revert s; induction codes as [|c l IH]; intros s; cbn; [gr|]. eapply grow_trans; [|apply IH]. apply grow_proto. Qed.
Lemma grow_attach i p s : grow s (attach_to i p s).
Proof.
  unfold attach_to. cbv zeta. destruct (x_needed _).
  - eapply grow_trans; [|apply grow_begin_sub]. eapply grow_trans; [|apply grow_fold_reg]. gr.
  - eapply grow_trans; [|apply grow_returned]. gr.
Qed.
Lemma grow_by_task who k f s s' : (forall i s, grow s (f i s)) -> (forall cb code st, k <> KSub cb code st) ->
  by_task who k f s = Some s' -> grow s s'.
Proof.
  intros F K. unfold by_task. destruct who as [i|].
  - destruct (top i s) as [[| | | |]|]; try discriminate. intros E; injection E as <-. auto.
  - intros E; injection E as <-. eapply grow_trans; [|apply F]. apply grow_new; auto.
Qed.

(** every event except subscribing, unsubscribing and handling a push *)
Lemma grow_step s e s' : xstep s e = Some s' ->
  match e with ESubscribe _ _ | EUnsubscribe _ | EHandle _ _ => True | _ => grow s s' end.
Proof.
  destruct e as [cb code|r|who| |who p|p|i|i|i|i|i|i|p code h|p code|p code m|order react]; cbn [xstep]; auto.
  - apply grow_by_task; [|discriminate]. intros i s1. destruct (x_is_client s1); [apply grow_begin_unsub|gr].
  - intros E; injection E as <-. gr.
  - destruct (Nat.ltb _ _); [|discriminate]. apply grow_by_task; [|discriminate]. intros; apply grow_attach.
  - destruct (q_up _); [|discriminate]. intros E; injection E as <-. gr.
  - destruct (top i s) as [[| | | |]|] eqn:T; try discriminate. intros E; injection E as <-.
    eapply grow_trans; [|apply grow_begin_unsub]. gr.
  - destruct (top i s) as [[| | | |]|] eqn:T; try discriminate; intros E; injection E as <-; [gr| |]; (eapply grow_trans; [|apply grow_pop]; gr).
  - destruct (x_locked s); [discriminate|]. destruct (x_queue s) as [|j q]; [discriminate|].
    destruct (Nat.eqb i j); [|discriminate].
    destruct (top i s) as [[| | | |]|]; try discriminate; intros E; injection E as <-.
    + eapply grow_trans; [|apply grow_enter_sub]. eapply (grow_trans _ (pop_frame i (sx_queue q s))); [|gr]. eapply grow_trans; [|apply grow_pop]. gr.
    + eapply grow_trans; [|apply grow_enter_unsub]. eapply (grow_trans _ (pop_frame i (sx_queue q s))); [|gr]. eapply grow_trans; [|apply grow_pop]. gr.
  - destruct (top i s) as [[| | | |]|]; try discriminate; intros E; injection E as <-.
    eapply grow_trans; [|apply grow_returned]. set (s1 := on_cur _ _). eapply (grow_trans _ s1); [|gr]. unfold s1.
    eapply grow_trans; [|apply grow_on_cur; intros; apply grow_proto]. eapply (grow_trans _ (pop_frame i s)); gr.
  - destruct (top i s) as [[| | | |]|]; try discriminate; intros E; injection E as <-. eapply (grow_trans _ (pop_frame i s)); gr.
  - destruct (top i s) as [[| | | |]|]; try discriminate; intros E; injection E as <-.
    eapply grow_trans; [|apply grow_returned]. eapply (grow_trans _ (pop_frame i s)); gr.
  - intros E; injection E as <-. gr.
  - intros E; injection E as <-. gr.
  - destruct (q_up _); [|discriminate]. destruct (tget code _); intros E; injection E as <-; gr.
Qed.

(** ---- unsubscribing *)
Record removed (c : closure) (s s' : cstate) : Prop := mkRemoved {
  r_table : x_table s' = rem_T (c_cb c) (c_code c) (c_set c) (x_table s) (x_sets s);
  r_sets : x_sets s' = rem_S (c_cb c) (c_set c) (x_sets s);
  r_data' : x_data s' = x_data s;
  r_log : x_log s' = x_log s;
  r_pushes : x_pushes s' = x_pushes s;
  r_kinds : exists ks, kinds s' = kinds s ++ ks /\ no_sub ks;
  r_clos : x_closures s' = x_closures s }.
Lemma tdel_none {A} k (T : list (Z * A)) : tget k T = None -> tdel k T = T.
Proof.
  unfold tdel. induction T as [|[k' v] T IH]; cbn; auto. destruct (Z.eqb_spec k k'); [discriminate|].
  intros H. destruct (Z.eqb_spec k' k); [lia|]. cbn. rewrite IH; auto.
Qed.
Lemma remove_spec c s : removed c s (remove_listener c s).
Proof.
  destruct c as [i cb code st]. unfold remove_listener, get_set.
  assert (N : exists ks, kinds s = kinds s ++ ks /\ no_sub ks) by (exists []; rewrite app_nil_r; split; [auto|apply no_sub_nil]).
  destruct (mem cb (nth st (x_sets s) [])) eqn:M.
  2:{ constructor; auto; unfold rem_T, rem_S; cbn [c_cb c_code c_set]; rewrite M; auto. }
  cbv zeta. cbn [x_table sx_sets].
  fold (rem_set cb st (x_sets s)).
  destruct (rem_set cb st (x_sets s)) as [|x l] eqn:R.
  2:{ constructor; auto; unfold rem_T, rem_S; cbn [c_cb c_code c_set x_table x_sets sx_sets]; rewrite M, R; auto. }
  destruct (tget code (x_table s)) eqn:G.
  2:{ constructor; auto; unfold rem_T, rem_S; cbn [c_cb c_code c_set x_table x_sets sx_sets]; rewrite M, R; auto. symmetry; apply tdel_none; auto. }
  set (s1 := sx_table _ _).
  assert (P : removed (mkC i cb code st) s s1).
  { unfold s1. constructor; auto; unfold rem_T, rem_S; cbn [c_cb c_code c_set x_table x_sets sx_sets sx_table]; rewrite M, R; auto. }
  clearbody s1. destruct (x_attached s1); auto.
  set (s2 := on_cur _ s1).
  assert (Q : removed (mkC i cb code st) s s2).
  { unfold s2, on_cur. destruct (x_cur s1); auto. destruct P. constructor; auto. }
  clearbody s2. destruct (x_table s2) eqn:T; auto.
  destruct Q as [Q1 Q2 Q3 Q4 Q5 (ks & Q6 & Q7) Q8]. constructor; auto.
  exists (ks ++ [KUnsub]). unfold kinds in *. cbn [x_tasks sx_tasks]. rewrite map_app, Q6, <- app_assoc. split; auto.
  intros x y z H. apply in_app_iff in H. destruct H as [H|[H|[]]]; [eapply Q7; eauto|discriminate].
Qed.

(** ---- subscribing *)
Record added (cb : nat) (code : Z) (s s' : cstate) : Prop := mkAdded {
  a_table : x_table s' = add_T code (x_table s) (x_sets s);
  a_sets : x_sets s' = add_S cb code (x_table s) (x_sets s);
  a_data : x_data s' = x_data s;
  a_log : x_log s' = x_log s;
  a_kinds : kinds s' = kinds s ++ [KSub cb code (add_id code (x_table s) (x_sets s))];
  a_clos : exists ext, x_closures s' = x_closures s ++ ext /\ forall c, In c ext -> from_task s' c }.
Lemma subscribe_spec cb code s : x_attached s = true -> added cb code s (subscribe cb code s).
Proof.
  intros A. unfold subscribe. rewrite A.
  destruct (match tget code (x_table s) with Some st => (st, s) | None => _ end) as [st s1] eqn:E1.
  assert (P1 : st = add_id code (x_table s) (x_sets s) /\ x_table s1 = add_T code (x_table s) (x_sets s) /\ x_sets s1 = add_S0 code (x_table s) (x_sets s) /\
               x_data s1 = x_data s /\ x_log s1 = x_log s /\ x_tasks s1 = x_tasks s /\ x_closures s1 = x_closures s).
  { unfold add_id, add_T, add_S0. destruct (tget code (x_table s)); injection E1 as <- <-; repeat split; auto. }
  destruct P1 as (-> & P1 & P2 & P3 & P4 & P5 & P6). clear E1.
  set (st := add_id code (x_table s) (x_sets s)) in *.
  set (s2 := if mem cb (get_set st s1) then s1 else _).
  assert (Q : x_table s2 = add_T code (x_table s) (x_sets s) /\ x_sets s2 = add_S cb code (x_table s) (x_sets s) /\
               x_data s2 = x_data s /\ x_log s2 = x_log s /\ x_tasks s2 = x_tasks s /\ x_closures s2 = x_closures s).
  { unfold s2, get_set, add_S. cbv zeta. rewrite P2. fold st. destruct (mem cb (nth st _ [])); cbn; repeat split; auto. }
  clearbody s2. clear P1 P2 P3 P4 P5 P6 s1. destruct Q as (Q1 & Q2 & Q3 & Q4 & Q5 & Q6).
  set (s3 := on_cur _ s2).
  assert (Q' : x_table s3 = add_T code (x_table s) (x_sets s) /\ x_sets s3 = add_S cb code (x_table s) (x_sets s) /\
               x_data s3 = x_data s /\ x_log s3 = x_log s /\ x_tasks s3 = x_tasks s /\ x_closures s3 = x_closures s).
  { unfold s3, on_cur. destruct (x_cur s2); cbn; repeat split; auto. }
  clearbody s3. clear Q1 Q2 Q3 Q4 Q5 Q6 s2. destruct Q' as (Q1 & Q2 & Q3 & Q4 & Q5 & Q6). cbv zeta.
  set (s4 := new_task _ s3).
  assert (G : added cb code s s4).
  { unfold s4, new_task. constructor; cbn [x_table x_sets x_data x_log x_closures sx_tasks]; auto.
    - unfold kinds. cbn [x_tasks sx_tasks]. rewrite map_app, Q5. reflexivity.
    - exists []. rewrite app_nil_r. split; auto. intros ? []. }
  assert (L : forall s5, grow s4 s5 -> kinds s5 = kinds s4 -> added cb code s s5).
  { intros s5 [H1 H2 H3 H4 H5 (e & H6 & H7)] HK. destruct G as [G1 G2 G3 G4 G5 (e0 & G6 & G7)]. constructor; try congruence.
    exists (e0 ++ e). rewrite H6, G6, app_assoc. split; auto. intros c H. apply in_app_iff in H. destruct H; auto.
    unfold from_task. rewrite HK. apply G7. auto. }
  assert (KR : forall i s, kinds (returned i s) = kinds s).
  { intros i s0. unfold returned. destruct (get_task i s0) as [[? ? ?| |] [|? ?]]; auto. }
  destruct (x_needed s4); apply L; try apply grow_begin_sub; try apply grow_returned; auto.
  unfold begin_sub, enter_sub, wait_lock. destruct (x_attached s4); auto. destruct (lock_free s4).
  - destruct (x_is_client _); [rewrite KR; reflexivity|]. unfold push_frame, kinds; cbn [x_tasks sx_tasks]. apply kinds_upd.
  - unfold push_frame, kinds; cbn [x_tasks sx_tasks]. apply kinds_upd.
Qed.

(** ---- the invariant *)
Record linv (s : cstate) : Prop := mkLinv {
  l_tok : tok (x_table s) (x_sets s);
  l_kind : forall cb code st, In (KSub cb code st) (kinds s) -> owns (x_table s) (x_sets s) code st;
  l_clos : forall c, In c (x_closures s) -> from_task s c }.
Lemma linv_init : linv client_init.
Proof.
  constructor; cbn; try tauto. constructor; cbn; try constructor; try tauto; destruct st; cbn; try congruence; constructor.
Qed.
Lemma from_kind s c : from_task s c -> In (KSub (c_cb c) (c_code c) (c_set c)) (kinds s).
Proof. unfold from_task. apply nth_error_In. Qed.
Lemma linv_grow s s' : linv s -> grow s s' -> linv s'.
Proof.
  intros [H1 H2 H3] [G1 G2 G3 G4 (ks & G5 & G6) (ext & G7 & G8)]. constructor; rewrite ?G1, ?G2; auto.
  - intros cb code st H. rewrite G5 in H. apply in_app_iff in H. destruct H as [H|H]; [eauto|exfalso; eapply G6; eauto].
  - intros c H. rewrite G7 in H. apply in_app_iff in H. destruct H as [H|H]; auto. eapply from_ext; eauto.
Qed.
Lemma linv_removed c s s' : linv s -> from_task s c -> removed c s s' -> linv s'.
Proof.
  intros [H1 H2 H3] F [G1 G2 G3 G4 G4' (ks & G5 & G6) G7].
  pose proof (H2 _ _ _ (from_kind _ _ F)) as O.
  constructor; rewrite ?G1, ?G2.
  - apply tok_rem; auto.
  - intros cb code st H. rewrite G5 in H. apply in_app_iff in H. destruct H as [H|H]; [|exfalso; eapply G6; eauto].
    apply owns_rem. eauto.
  - intros c' H. rewrite G7 in H. eapply from_ext; eauto.
Qed.
Lemma linv_added cb code s s' : linv s -> added cb code s s' -> linv s'.
Proof.
  intros [H1 H2 H3] [G1 G2 G3 G4 G5 (ext & G7 & G8)]. constructor; rewrite ?G1, ?G2.
  - apply tok_add; auto.
  - intros cb' code' st H. rewrite G5 in H. apply in_app_iff in H. destruct H as [H|[H|[]]].
    + apply owns_add; eauto.
    + injection H as <- <- <-. apply owns_added; auto.
  - intros c H. rewrite G7 in H. apply in_app_iff in H. destruct H as [H|H]; auto. eapply from_ext; eauto.
Qed.
Lemma linv_call r s : linv s -> linv (call_closure r s).
Proof.
  intros H. unfold call_closure. destruct (nth_error _ _) eqn:E; auto. apply nth_error_In in E.
  eapply linv_removed; [exact H|apply (l_clos _ H _ E)|apply remove_spec].
Qed.

(** ---- handling a push *)
Lemma linv_calls l s : linv s -> linv (fold_left (fun s r => call_closure r s) l s).
Proof. revert s; induction l as [|r l IH]; intros s H; cbn; auto. apply IH, linv_call, H. Qed.
Lemma linv_log v s : linv s -> linv (sx_log v s). Proof. intros [H1 H2 H3]. constructor; auto. Qed.
Lemma linv_data v s : linv s -> linv (sx_data v s). Proof. intros [H1 H2 H3]. constructor; auto. Qed.
Lemma linv_pushes v s : linv s -> linv (sx_pushes v s). Proof. intros [H1 H2 H3]. constructor; auto. Qed.
Lemma linv_notify react code st n order s : linv s -> linv (notify react code st n order s).
Proof.
  revert s; induction order as [|cb order IH]; intros s H; cbn [notify]; destruct (negb _); auto using linv_log.
  cbv zeta. set (s1 := fold_left _ _ _). assert (H1 : linv s1) by (apply linv_calls, linv_log, H).
  destruct (snd (react cb)); auto using linv_log.
Qed.
Lemma linv_common react order code m s : linv s -> linv (common_callback react order code m s).
Proof.
  intros H. unfold common_callback.
  destruct (match push_decoder code with Some dec => dec m (x_data s) | None => (x_data s, Ok tt) end) as [d r].
  cbv zeta. destruct r; [|auto using linv_log, linv_data]. destruct (tget code _); [|auto using linv_log, linv_data]. apply linv_notify. auto using linv_data.
Qed.
Lemma linv_step s e s' : linv s -> xstep s e = Some s' -> linv s'.
Proof.
  intros H E. pose proof (grow_step _ _ _ E) as G. destruct e; try (eapply linv_grow; eauto; fail); clear G; cbn [xstep] in E.
  - injection E as <-. destruct (x_attached s) eqn:A; [eapply linv_added; eauto using subscribe_spec|]. unfold subscribe. rewrite A. auto.
  - destruct (Nat.ltb _ _); [|discriminate]. injection E as <-. apply linv_call; auto.
  - destruct (x_pushes s) as [|[[code|n] m] q]; [discriminate| |injection E as <-; auto using linv_pushes].
    destruct (tget code (x_table s)) as [st|].
    + destruct (perm_b _ _); [|discriminate]. injection E as <-. apply linv_common. auto using linv_pushes.
    + injection E as <-. apply linv_common. auto using linv_pushes.
Qed.
Lemma linv_run es s : xrun client_init es = Some s -> linv s.
Proof. apply (run_inv linv); [intros; eapply linv_step; eauto|apply linv_init]. Qed.
