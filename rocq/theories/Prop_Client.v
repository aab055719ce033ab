(** Subscriptions and push messages under all schedules: C67, C69, C70, C71, C74, C89, C90, C110.
    A history is any list of events that Client.v allows from the state of a new
    ClientManager. *)
From Verif Require Import Py F64 Struct Utf Utility Const Decode World Client.
From Verif Require Import P_Client P_Client2 P_Client3 P_Client4 P_Client5 P_Client6 P_Client7 P_Client8 P_KeepAlive.
From Coq Require Import Lia.

(** ------------------------------------------------------------------ *)
(** Specification vocabulary *)

(** the state [s] is reached by some history *)
Definition reachable (s : cstate) : Prop := exists es, xrun client_init es = Some s.
(** [cb] is subscribed to [code]: it is in the set kept for that code *)
Definition listens (s : cstate) (code : Z) (cb : nat) : Prop :=
  exists st, tget code (x_table s) = Some st /\ In cb (get_set st s).
(** the add-client and remove-client exchanges that some task is in the middle of *)
Definition in_exchange (f : frame) : bool := match f with FAdding | FRemoving => true | _ => false end.
Definition open_exchanges (s : cstate) : list frame := filter in_exchange (List.concat (map k_frames (x_tasks s))).
(** no call is suspended anywhere *)
Definition nothing_in_progress (s : cstate) : Prop := forall t, In t (x_tasks s) -> k_frames t = [].
(** the gateway is registered as a client at the adapter: of all exchanges and connects of the
    history, the last one is an add-client exchange that succeeded *)
Definition registered (es : list event) : Prop :=
  exists es1 i es2, es = es1 ++ EAdded i :: es2 /\
    forall e, In e es2 -> match e with ERemoved _ | EAttach _ _ => False | _ => True end.
(** the unsubscribe functions that run during an event: called by the user, or by a callback
    while listeners are being notified *)
Definition runs_unsubscribe (e : event) (r : nat) : Prop :=
  match e with
  | EUnsubscribe r' => r' = r
  | EHandle order react => exists cb, In cb order /\ In r (fst (react cb))
  | _ => False
  end.
(** what the message means: the three codes with a decoder change the data, no other does *)
Definition decoded (code : Z) (m : bytes) (d : dict) (res : dict * res unit) : Prop :=
  (code = 12500 -> res = decode_pool_status m d) /\
  (code = 12505 -> res = decode_chemistry m d) /\
  (code = 12504 -> res = decode_color_update m d) /\
  (code <> 12500 -> code <> 12505 -> code <> 12504 -> res = (d, Ok tt)).

Lemma decoded_is code m d r : decoded code m d r -> r = match push_decoder code with Some dec => dec m d | None => (d, Ok tt) end.
Proof.
  intros (A & B & C & D). unfold push_decoder.
  destruct (Z.eqb_spec code 12500); [auto|]. destruct (Z.eqb_spec code 12505); [auto|]. destruct (Z.eqb_spec code 12504); auto.
Qed.
Lemma nodup_prefix (a b : list nat) : NoDup (a ++ b) -> NoDup a.
Proof.
  induction a as [|x a IH]; cbn; intros N; [constructor|]. apply NoDup_cons_iff in N. destruct N as [N1 N2]. constructor; auto.
  intros I. apply N1. apply in_app_iff. auto.
Qed.
Lemma reach_linv s : reachable s -> linv s. Proof. intros [es H]. eapply linv_run; eauto. Qed.
Lemma listens_lis s code cb : listens s code cb <-> lis (x_table s) (x_sets s) code cb. Proof. reflexivity. Qed.

(** a history used by the examples below: a connection, two listeners of code 12504 and one
    of code 12500 *)
Definition three_listeners : list event :=
  [EOpen; EAttach None 0; ESubscribe 1 12504; EAdded 1; ESubscribe 2 12504; ESubscribe 3 12500].

(** ------------------------------------------------------------------ *)
(** C67: at most one add-client or remove-client exchange is in progress *)
Theorem C67_one_exchange : forall es s, xrun client_init es = Some s ->
  (List.length (open_exchanges s) <= 1)%nat.
Proof.
  intros es s H. change (List.length (exchanges s) <= 1)%nat.
  assert (I : I67 s) by (eapply (run_inv I67); [intros; eapply I67_step; eauto|apply I67_init|exact H]).
  rewrite I. destruct (x_locked s); cbn; lia.
Qed.
Print Assumptions C67_one_exchange.
(** one exchange is open while two other tasks wait for their turn *)
Example C67_nonvacuous : exists s,
  xrun client_init [EOpen; EAttach None 0; ESubscribe 1 12504; ESubscribe 2 12504; ESubscribe 3 12500] = Some s /\
  open_exchanges s = [FAdding] /\ List.length (x_queue s) = 2%nat.
Proof. eexists. split; [vm_compute; reflexivity|]. split; reflexivity. Qed.

(** ------------------------------------------------------------------ *)
(** C69, first half: whatever the history, calling the r-th unsubscribe function changes the
    subscription of its own callback to its own code at most; data, registration,
    connections and the handlers of other codes stay as they are. *)
Theorem C69_nothing_else : forall es s r c s',
  xrun client_init es = Some s -> nth_error (x_closures s) r = Some c ->
  xstep s (EUnsubscribe r) = Some s' ->
  (forall code cb, (code, cb) <> (c_code c, c_cb c) -> (listens s' code cb <-> listens s code cb)) /\
  x_data s' = x_data s /\ x_log s' = x_log s /\ x_closures s' = x_closures s /\
  x_client s' = x_client s /\ x_cur s' = x_cur s /\
  forall p, q_up (get_proto p s') = q_up (get_proto p s) /\
    forall code, code <> c_code c -> tget code (q_handlers (get_proto p s')) = tget code (q_handlers (get_proto p s)).
Proof.
  intros es s r c s' H E St. pose proof (linv_run _ _ H) as L. cbn [xstep] in St. destruct (Nat.ltb _ _); [|discriminate]. injection St as <-.
  pose proof (call_leaves r c s E) as (V1 & V2 & _ & _ & V5). rewrite call_data, call_log, calls_clos, V1, V2.
  split; [|repeat split; auto; apply V5].
  intros code cb N. rewrite !listens_lis. unfold call_closure. rewrite E. pose proof (remove_spec c s) as R.
  rewrite (r_table _ _ _ R), (r_sets _ _ _ R).
  pose proof (l_kind _ L _ _ _ (from_kind _ _ (l_clos _ L _ (nth_error_In _ _ E)))) as O.
  rewrite lis_rem by (auto; apply L). split; [tauto|]. intros X. split; auto. intros (-> & -> & _). apply N. reflexivity.
Qed.
Print Assumptions C69_nothing_else.
Example C69_nothing_else_nonvacuous : exists s s',
  xrun client_init three_listeners = Some s /\ nth_error (x_closures s) 0 = Some (mkC 1 1 12504 0) /\
  xstep s (EUnsubscribe 0) = Some s' /\ listens s' 12504 2 /\ listens s' 12500 3 /\ ~ listens s' 12504 1.
Proof.
  do 2 eexists. split; [vm_compute; reflexivity|]. split; [reflexivity|]. split; [vm_compute; reflexivity|].
  split; [exists 0%nat; cbn; auto|]. split; [exists 1%nat; cbn; auto|]. intros (st & A & B). cbn in A. injection A as <-. cbn in B. intuition discriminate.
Qed.

(** C69, second half: the callback stays subscribed until a function for this callback and
    code is called, and calling the one that this subscription returned ends it. *)
Theorem C69_removes_it : forall es1 s0 cb code es2 s r c s',
  xrun client_init es1 = Some s0 -> x_attached s0 = true ->
  xrun s0 (ESubscribe cb code :: es2) = Some s ->
  (forall ea e eb sm r c, es2 = ea ++ e :: eb -> xrun s0 (ESubscribe cb code :: ea) = Some sm ->
     runs_unsubscribe e r -> nth_error (x_closures sm) r = Some c -> ~ (c_cb c = cb /\ c_code c = code)) ->
  (* the function that this very call of async_subscribe returned *)
  nth_error (x_closures s) r = Some c -> c_task c = List.length (x_tasks s0) ->
  xstep s (EUnsubscribe r) = Some s' ->
  listens s code cb /\ ~ listens s' code cb.
Proof.
  intros es1 s0 cb code es2 s r c s' H1 A H2 N E T St. pose proof (linv_run _ _ H1) as L0.
  cbn [xrun xstep] in H2. set (s1 := subscribe cb code s0) in *.
  pose proof (subscribe_spec cb code s0 A) as Ad. fold s1 in Ad.
  set (st := add_id code (x_table s0) (x_sets s0)) in *.
  assert (S1 : sits cb code st s1).
  { split; [eapply linv_added; eauto|]. unfold get_set. rewrite (a_table _ _ _ _ Ad), (a_sets _ _ _ _ Ad).
    split; [apply owns_added; apply L0|]. destruct (add_self cb code _ _ (l_tok _ L0)) as (st' & G & I).
    rewrite get_add_T, Z.eqb_refl in G. injection G as <-. exact I. }
  assert (S2 : sits cb code st s).
  { eapply sits_run; [exact S1|exact H2|]. intros ea e eb sm r0 c0 Q X. apply (N ea e eb sm r0 c0 Q). cbn [xrun xstep]. exact X. }
  pose proof (sits_tget _ _ _ _ S2) as G. split; [exists st; split; [exact G|apply S2]|].
  cbn [xstep] in St. destruct (Nat.ltb _ _); [|discriminate]. injection St as <-.
  assert (C : KSub (c_cb c) (c_code c) (c_set c) = KSub cb code st).
  { pose proof (l_clos _ (proj1 S2) _ (nth_error_In _ _ E)) as F. unfold from_task in F.
    destruct (kinds_run _ _ _ H2) as [ks K]. rewrite K, (a_kinds _ _ _ _ Ad), T in F.
    assert (LL : List.length (kinds s0) = List.length (x_tasks s0)) by apply map_length.
    rewrite <- app_assoc in F. rewrite nth_error_app2 in F by lia. rewrite LL, Nat.sub_diag in F. cbn in F. injection F as F1 F2 F3. unfold st. congruence. }
  injection C as C1 C2 C3.
  rewrite listens_lis. unfold call_closure. rewrite E. pose proof (remove_spec c s) as R.
  rewrite (r_table _ _ _ R), (r_sets _ _ _ R), C1, C2, C3. destruct S2 as (L2 & O2 & I2).
  rewrite lis_rem by (auto; apply L2). intros [_ X]. apply X. auto.
Qed.
Print Assumptions C69_removes_it.
(** with another listener subscribing and leaving in between, and a reconnect *)
Example C69_removes_it_nonvacuous : exists s0 s s',
  xrun client_init [EOpen; EAttach None 0] = Some s0 /\ x_attached s0 = true /\
  xrun s0 (ESubscribe 1 12504 :: [EAdded 1; ESubscribe 2 12504; EUnsubscribe 1; ELost 0; EOpen; EAttach None 1; EAdded 3]) = Some s /\
  nth_error (x_closures s) 0 = Some (mkC 1 1 12504 0) /\ List.length (x_tasks s0) = 1%nat /\
  nth_error (x_closures s) 1 = Some (mkC 2 2 12504 0) /\
  xstep s (EUnsubscribe 0) = Some s' /\ x_table s <> [] /\ x_table s' = [].
Proof.
  do 3 eexists. split; [vm_compute; reflexivity|]. split; [reflexivity|]. split; [vm_compute; reflexivity|].
  split; [reflexivity|]. split; [reflexivity|]. split; [reflexivity|]. split; [vm_compute; reflexivity|]. split; [discriminate|reflexivity].
Qed.

(** C69, third part: after the function has been called, and as long as the same callback is
    not subscribed to the same code again, calling it again changes nothing at all. *)
Theorem C69_idempotent : forall es s r s1 es' s2 s3 c,
  xrun client_init es = Some s -> nth_error (x_closures s) r = Some c ->
  xstep s (EUnsubscribe r) = Some s1 ->
  xrun s1 es' = Some s2 -> ~ In (ESubscribe (c_cb c) (c_code c)) es' ->
  xstep s2 (EUnsubscribe r) = Some s3 ->
  s3 = s2.
Proof.
  intros es s r s1 es' s2 s3 c H E S1 R N S3. pose proof (linv_run _ _ H) as L.
  cbn [xstep] in S1. destruct (Nat.ltb _ _); [|discriminate]. injection S1 as <-.
  assert (E1 : nth_error (x_closures (call_closure r s)) r = Some c) by (rewrite calls_clos; auto).
  destruct (clos_run _ _ _ R) as [ext X].
  assert (E2 : nth_error (x_closures s2) r = Some c).
  { rewrite X, nth_error_app1; auto. apply nth_error_Some. congruence. }
  cbn [xstep] in S3. destruct (Nat.ltb _ _); [|discriminate]. injection S3 as <-.
  apply (call_gone c); auto. eapply gone_run; [|exact R|exact N]. apply sits_call_self; auto.
Qed.
Print Assumptions C69_idempotent.
(** others subscribe to the same code in between *)
Example C69_idempotent_nonvacuous : exists s s1 s2,
  xrun client_init three_listeners = Some s /\ nth_error (x_closures s) 0 = Some (mkC 1 1 12504 0) /\
  xstep s (EUnsubscribe 0) = Some s1 /\
  xrun s1 [EUnsubscribe 1; ESubscribe 4 12504] = Some s2 /\ listens s2 12504 4 /\
  xstep s2 (EUnsubscribe 0) = Some s2.
Proof.
  do 3 eexists. split; [vm_compute; reflexivity|]. split; [reflexivity|]. split; [vm_compute; reflexivity|]. split; [vm_compute; reflexivity|].
  split; [exists 2%nat; cbn; auto|vm_compute; reflexivity].
Qed.

(** What the last hypothesis excludes: subscribing the same callback to the same code a
    second time shares the set entry, so the first function (even when its subscription was
    meant to have ended) removes the second subscription. *)
Theorem C69_same_callback_shares : exists es s s1 s2 s3,
  xrun client_init es = Some s /\ listens s 12504 2 /\
  xstep s (EUnsubscribe 0) = Some s1 /\ ~ listens s1 12504 1 /\
  xstep s1 (ESubscribe 1 12504) = Some s2 /\ listens s2 12504 1 /\
  xstep s2 (EUnsubscribe 0) = Some s3 /\ ~ listens s3 12504 1.
Proof.
  exists three_listeners. do 4 eexists. split; [vm_compute; reflexivity|]. split; [exists 0%nat; cbn; auto|].
  split; [vm_compute; reflexivity|]. split; [intros (st & A & B); cbn in A; injection A as <-; cbn in B; intuition discriminate|].
  split; [vm_compute; reflexivity|]. split; [exists 0%nat; cbn; auto|]. split; [vm_compute; reflexivity|].
  intros (st & A & B); cbn in A; injection A as <-; cbn in B; intuition discriminate.
Qed.
Print Assumptions C69_same_callback_shares.

(** ------------------------------------------------------------------ *)
(** C70: a message that arrives is queued for the listeners of its own code (or for a user
    handler), unless nobody handles its code *)
Theorem C70_routed : forall es s p code m s',
  xrun client_init es = Some s -> xstep s (EPush p code m) = Some s' ->
  x_pushes s' = x_pushes s \/ exists h, x_pushes s' = x_pushes s ++ [(h, m)] /\ forall code', h = HClient code' -> code' = code.
Proof.
  intros es s p code m s' H. cbn [xstep]. destruct (q_up (get_proto p s)) eqn:U; [|discriminate].
  destruct (tget code (q_handlers (get_proto p s))) as [h|] eqn:T; intros E; injection E as <-; [|auto].
  right. exists h. split; [reflexivity|]. eapply push_code; eauto. eapply handlers_run; eauto.
Qed.
Print Assumptions C70_routed.
Example C70_routed_nonvacuous : exists s s',
  xrun client_init three_listeners = Some s /\ xstep s (EPush 0 12504 [1; 2]) = Some s' /\ x_pushes s' = [(HClient 12504, [1; 2])].
Proof. do 2 eexists. split; [vm_compute; reflexivity|]. split; [vm_compute; reflexivity|reflexivity]. Qed.

(** C70: when the message decodes, and the callbacks return normally without unsubscribing
    anybody, the data is updated and then every listener of the code and nobody else is
    called exactly once, seeing the updated data. *)
Theorem C70_everyone_once : forall es s code m q d' order react s',
  xrun client_init es = Some s -> x_pushes s = (HClient code, m) :: q ->
  decoded code m (x_data s) (d', Ok tt) -> (exists cb, listens s code cb) ->
  (forall cb, react cb = ([], false)) ->
  xstep s (EHandle order react) = Some s' ->
  x_data s' = d' /\ x_log s' = x_log s ++ map (fun cb => Called cb code d') order /\ x_pushes s' = q /\
  NoDup order /\ (forall cb, In cb order <-> listens s code cb).
Proof.
  intros es s code m q d' order react s' H P D [cb0 (st & G & I0)] Rc E. pose proof (linv_run _ _ H) as L.
  destruct (handle_unfold _ _ _ _ _ _ _ P E) as [-> B]. specialize (B st G).
  destruct (perm_b_spec _ _ (tk_nodup _ _ (l_tok _ L) st) B) as [ND IN].
  unfold common_callback. cbn [x_data sx_pushes]. rewrite <- (decoded_is _ _ _ _ D). cbv zeta.
  change (x_table (sx_data d' (sx_pushes q s))) with (x_table s). rewrite G.
  destruct (notify_log react code st (List.length (get_set st (sx_data d' (sx_pushes q s)))) order (sx_data d' (sx_pushes q s))) as (X1 & X2 & _).
  split; [exact X1|]. split; [|split; [exact X2|]].
  - rewrite notify_all; [reflexivity|auto using linv_data, linv_pushes|exact G|intros; rewrite Rc; reflexivity|].
    intros r c (cb & _ & Ir). rewrite Rc in Ir. destruct Ir.
  - split; [exact ND|]. intros cb. rewrite IN. split; [intros Q; exists st; auto|]. intros (st' & G' & I'). rewrite G in G'. injection G' as <-. auto.
Qed.
Print Assumptions C70_everyone_once.
(** a colour update reaches both its listeners, not the third one *)
Definition color_message : bytes := [1;0;0;0; 2;0;0;0; 3;0;0;0; 2;0;0;0; 72;105;0;0].
Example C70_everyone_once_nonvacuous : exists s s',
  xrun client_init (three_listeners ++ [EPush 0 12504 color_message]) = Some s /\
  x_pushes s = [(HClient 12504, color_message)] /\
  decoded 12504 color_message (x_data s) (fst (decode_color_update color_message []), Ok tt) /\
  xstep s (EHandle [2%nat; 1%nat] (fun _ => ([], false))) = Some s' /\
  x_log s' = [Called 2 12504 (x_data s'); Called 1 12504 (x_data s')] /\ x_data s' <> [].
Proof.
  do 2 eexists. split; [vm_compute; reflexivity|]. split; [reflexivity|].
  split; [split; [lia|split; [lia|split; [intros _; vm_compute; reflexivity|lia]]]|].
  split; [vm_compute; reflexivity|]. split; [reflexivity|]. vm_compute. discriminate.
Qed.

(** C70, whatever the callbacks do: nobody is called before the data is updated, nobody but a
    listener of the code is called, and nobody twice; nobody is called when the message does
    not decode. *)
Theorem C70_never_otherwise : forall es s code m q d' out order react s',
  xrun client_init es = Some s -> x_pushes s = (HClient code, m) :: q ->
  decoded code m (x_data s) (d', out) ->
  xstep s (EHandle order react) = Some s' ->
  x_data s' = d' /\
  exists called last, x_log s' = x_log s ++ map (fun cb => Called cb code d') called ++ last /\
    (last = [] \/ exists e, last = [Failed e]) /\
    NoDup called /\ (forall cb, In cb called -> listens s code cb) /\ (out <> Ok tt -> called = []).
Proof.
  intros es s code m q d' out order react s' H P D E. pose proof (linv_run _ _ H) as L.
  destruct (handle_unfold _ _ _ _ _ _ _ P E) as [-> B].
  unfold common_callback. cbn [x_data sx_pushes]. rewrite <- (decoded_is _ _ _ _ D). cbv zeta.
  destruct out as [[]|e].
  2:{ split; [reflexivity|]. exists [], [Failed e]. repeat split; eauto; try constructor; intros ? []. }
  change (x_table (sx_data d' (sx_pushes q s))) with (x_table s).
  destruct (tget code (x_table s)) as [st|] eqn:G.
  2:{ split; [reflexivity|]. exists [], [Failed EType]. repeat split; eauto; try constructor; intros ? []. }
  specialize (B st eq_refl). destruct (perm_b_spec _ _ (tk_nodup _ _ (l_tok _ L) st) B) as [ND IN].
  destruct (notify_log react code st (List.length (get_set st (sx_data d' (sx_pushes q s)))) order (sx_data d' (sx_pushes q s))) as (X1 & _ & called & rest & O & X).
  split; [exact X1|].
  assert (NC : NoDup called) by (rewrite O in ND; apply (nodup_prefix _ _ ND)).
  assert (IC : forall cb, In cb called -> listens s code cb).
  { intros cb I. exists st. split; [exact G|]. apply IN. rewrite O. apply in_app_iff; auto. }
  destruct X as [[_ X]|[e X]].
  - exists called, []. rewrite app_nil_r. repeat split; auto. congruence.
  - exists called, [Failed e]. repeat split; eauto. congruence.
Qed.
Print Assumptions C70_never_otherwise.
Example C70_never_otherwise_nonvacuous : exists s s',
  xrun client_init (three_listeners ++ [EPush 0 12504 [1;0;0]]) = Some s /\
  decoded 12504 [1;0;0] (x_data s) (fst (decode_color_update [1;0;0] []), Err EStruct) /\
  xstep s (EHandle [2%nat; 1%nat] (fun _ => ([], false))) = Some s' /\ x_log s' = [Failed EStruct].
Proof.
  do 2 eexists. split; [vm_compute; reflexivity|].
  split; [split; [lia|split; [lia|split; [intros _; vm_compute; reflexivity|lia]]]|]. split; [vm_compute; reflexivity|reflexivity].
Qed.

(** ------------------------------------------------------------------ *)
(** C71 does not hold: without any failure, a listener ends up subscribed on a live
    connection with nothing in progress, and neither is the gateway registered nor is the
    push handler there.  Somebody subscribes between the last unsubscribe and the start of
    the task that gives up the registration. *)
Theorem C71_served_refuted :
  ~ (forall es s code cb, xrun client_init es = Some s -> nothing_in_progress s -> x_attached s = true -> listens s code cb ->
       registered es /\
       exists p, x_cur s = Some p /\ tget code (q_handlers (get_proto p s)) = Some (HClient code)).
Proof.
  intros H.
  eassert (R : xrun client_init [EOpen; EAttach None 0; ESubscribe 1 12500; EAdded 1; EUnsubscribe 0; ESubscribe 2 12500; EStart 2; ERemoved 2] = Some _)
    by (vm_compute; reflexivity).
  destruct (H _ _ 12500 2%nat R) as [X _].
  - intros t T. cbn in T. repeat (destruct T as [<-|T]; [reflexivity|]). destruct T.
  - reflexivity.
  - exists 1%nat. cbn. auto.
  - destruct X as (a & i & b & Q & N). apply (N (ERemoved 2)). clear -Q.
    repeat (destruct a as [|? a]; [try discriminate Q; injection Q as _ <-; cbn; auto 10|cbn [app] in Q; injection Q as _ Q]).
    destruct a; discriminate Q.
Qed.
Print Assumptions C71_served_refuted.

(** In every history: when the gateway says it is a client (is_client), it is registered, and no
    remove-client exchange is under way. *)
Theorem C71_registered : forall es s, xrun client_init es = Some s -> x_is_client s = true ->
  registered es /\ ~ In FRemoving (open_exchanges s).
Proof.
  intros es s R C. unfold x_is_client in C. apply andb_true_iff in C. destruct C as [C _].
  destruct (flag_run _ _ R C) as [(a & i & b & Q & F) N]. split.
  - exists a, i, b. split; [exact Q|]. intros e I. rewrite forallb_forall in F. apply F in I. destruct e; try exact Logic.I; discriminate.
  - intros X. unfold open_exchanges in X. apply filter_In in X. destruct X as [X _]. apply in_concat in X. destruct X as (l & L & X).
    apply in_map_iff in L. destruct L as (t & <- & T). exact (N t T X).
Qed.
Print Assumptions C71_registered.

(** What holds of the whole claim: in a history in which nobody subscribes while a registration is being given
    up, connects only happen while nothing else is in progress, no exchange with the adapter
    fails, no task is cancelled, the gateway is not disconnected by its user, and user
    handlers stay away from codes that have listeners. *)
Definition tidy (s : cstate) (e : event) : Prop :=
  match e with
  | ESubscribe _ _ => forall t, In t (x_tasks s) -> k_kind t = KUnsub -> k_frames t = []
  | EAttach None _ => nothing_in_progress s
  | EAttach (Some _) _ | EDisconnect _ | EAddFailed _ | ECancel _ => False
  | ERegister _ code _ | EUnregister _ code => forall cb, ~ listens s code cb
  | EUnsubscribe _ | EOpen | ELost _ | EStart _ | EResume _ | EAdded _ | ERemoved _ | EPush _ _ _ | EHandle _ _ => True
  end.
Theorem C71_served_partial : forall es s code cb,
  xrun client_init es = Some s ->
  (forall before e after sm, es = before ++ e :: after -> xrun client_init before = Some sm -> tidy sm e) ->
  nothing_in_progress s -> x_attached s = true -> listens s code cb ->
  registered es /\ x_is_client s = true /\
  exists p, x_cur s = Some p /\ tget code (q_handlers (get_proto p s)) = Some (HClient code).
Proof.
  intros es s code cb R O N At (st & G & I).
  assert (Sv : served s).
  { eapply (served_run es client_init s served_init R). intros ea e eb sm Q X. specialize (O ea e eb sm Q X).
    assert (Z : forall c, (forall cb, ~ listens sm c cb) -> tget c (x_table sm) = None).
    { intros c Nc. destruct (tget c (x_table sm)) as [st0|] eqn:Gc; auto. exfalso. pose proof (linv_run _ _ X) as L.
      destruct (tk_live _ _ (l_tok _ L) _ _ (tget_in _ _ _ Gc)) as [_ Ne]. destruct (nth st0 (x_sets sm) []) as [|x l] eqn:Es; [congruence|].
      apply (Nc x). exists st0. split; auto. unfold get_set. rewrite Es. left; auto. }
    destruct e as [| | | |[?|] ?| | | | | | | | | | |]; cbn in *; auto. }
  destruct Sv as [_ [C1 C2] S].
  assert (Ne : x_table s <> []) by (intros Q; rewrite Q in G; discriminate).
  enough (K : x_is_client s = true /\ exists p, x_cur s = Some p /\ tget code (q_handlers (get_proto p s)) = Some (HClient code)).
  { destruct K as [K1 K2]. split; [exact (proj1 (C71_registered _ _ R K1))|auto]. }
  split.
  - unfold x_is_client. destruct (S Ne At) as [->|(i & f & T & _)]; [exact At|]. exfalso.
    destruct (get_task_in _ _ _ T) as [A B]. rewrite (N _ A) in B. destruct B.
  - unfold x_attached in At. destruct (x_cur s) as [p|] eqn:P; [|discriminate]. exists p. split; auto. eapply C2; eauto. apply tget_in. exact G.
Qed.
Print Assumptions C71_served_partial.
(** subscribe, reconnect, unsubscribe everybody, subscribe again *)
Definition tidy_history : list event :=
  three_listeners ++ [ELost 0; EOpen; EAttach None 1; EAdded 4; EUnsubscribe 0; EUnsubscribe 1; EUnsubscribe 2; EStart 5; ERemoved 5;
                      ESubscribe 7 12505; EAdded 6].
Fixpoint tidy_along (s : cstate) (es : list event) : Prop :=
  match es with [] => True | e :: es' => tidy s e /\ match xstep s e with Some s' => tidy_along s' es' | None => True end end.
Lemma tidy_along_spec es : forall s, tidy_along s es ->
  forall before e after sm, es = before ++ e :: after -> xrun s before = Some sm -> tidy sm e.
Proof.
  induction es as [|e0 es IH]; intros s T before e after sm Q R; [destruct before; discriminate|].
  destruct T as [T1 T2]. destruct before as [|b before].
  - injection Q as <- _. injection R as <-. exact T1.
  - injection Q as <- Q. cbn [xrun] in R. destruct (xstep s e0); [|discriminate]. eapply IH; eauto.
Qed.
Example C71_nonvacuous : exists s,
  xrun client_init tidy_history = Some s /\
  (forall before e after sm, tidy_history = before ++ e :: after -> xrun client_init before = Some sm -> tidy sm e) /\
  nothing_in_progress s /\ x_attached s = true /\ listens s 12505 7.
Proof.
  eexists. split; [vm_compute; reflexivity|]. split.
  - apply tidy_along_spec.
    repeat (cbn [tidy_history three_listeners app tidy_along];
            split; [cbn; try exact Logic.I; intros t T; cbn in T; repeat (destruct T as [<-|T]; [try reflexivity; try discriminate|]); destruct T|];
            match goal with |- match ?x with Some _ => _ | None => _ end => let y := eval vm_compute in x in change x with y end; cbv iota).
    exact Logic.I.
  - split; [intros t T; cbn in T; repeat (destruct T as [<-|T]; [reflexivity|]); destruct T|]. split; [reflexivity|]. exists 2%nat. cbn. auto.
Qed.

(** ------------------------------------------------------------------ *)
(** C74 does not hold: when a callback calls its own unsubscribe function, the notification
    ends with RuntimeError (the set changed size during iteration) and the listeners whose
    turn had not come are not called. *)
Theorem C74_self_unsubscribe_refuted :
  ~ (forall es s code m q d' order react s' cb r cb',
       xrun client_init es = Some s -> x_pushes s = (HClient code, m) :: q -> decoded code m (x_data s) (d', Ok tt) ->
       (* [cb] calls its own function, nobody else does anything, nobody raises *)
       (exists c, nth_error (x_closures s) r = Some c /\ c_cb c = cb /\ c_code c = code) ->
       react cb = ([r], false) -> (forall x, x <> cb -> react x = ([], false)) ->
       xstep s (EHandle order react) = Some s' ->
       cb' <> cb -> listens s code cb' -> In (Called cb' code d') (x_log s')).
Proof.
  intros H.
  eassert (R : xrun client_init (three_listeners ++ [EPush 0 12504 color_message]) = Some _) by (vm_compute; reflexivity).
  match type of R with _ = Some ?s0 =>
    eassert (X : xstep s0 (EHandle [1%nat; 2%nat] (fun x => if Nat.eqb x 1 then ([0%nat], false) else ([], false))) = Some _)
      by (vm_compute; reflexivity) end.
  assert (D : decoded 12504 color_message [] (fst (decode_color_update color_message []), Ok tt))
    by (split; [lia|split; [lia|split; [intros _; vm_compute; reflexivity|lia]]]).
  assert (K := H _ _ 12504 color_message [] _ [1%nat; 2%nat] (fun x => if Nat.eqb x 1 then ([0%nat], false) else ([], false)) _ 1%nat 0%nat 2%nat R eq_refl D
                 (ex_intro _ (mkC 1 1 12504 0) (conj eq_refl (conj eq_refl eq_refl))) eq_refl
                 (ltac:(intros x Nx; destruct x as [|[|x]]; [reflexivity|contradiction|reflexivity])) X
                 (ltac:(discriminate)) (ltac:(exists 0%nat; cbn; auto))).
  vm_compute in K. repeat (destruct K as [K|K]; [discriminate|]). destruct K.
Qed.
Print Assumptions C74_self_unsubscribe_refuted.

(** What holds: callbacks may unsubscribe anybody from other codes; everyone is called. *)
Theorem C74_other_codes_partial : forall es s code m q d' order react s',
  xrun client_init es = Some s -> x_pushes s = (HClient code, m) :: q -> decoded code m (x_data s) (d', Ok tt) ->
  (exists cb, listens s code cb) ->
  (forall cb, snd (react cb) = false) ->
  (forall cb r c, In r (fst (react cb)) -> nth_error (x_closures s) r = Some c -> c_code c <> code) ->
  xstep s (EHandle order react) = Some s' ->
  x_log s' = x_log s ++ map (fun cb => Called cb code d') order /\
  NoDup order /\ (forall cb, In cb order <-> listens s code cb).
Proof.
  intros es s code m q d' order react s' H P D [cb0 (st & G & I0)] R1 R2 E. pose proof (linv_run _ _ H) as L.
  destruct (handle_unfold _ _ _ _ _ _ _ P E) as [-> B]. specialize (B st G).
  destruct (perm_b_spec _ _ (tk_nodup _ _ (l_tok _ L) st) B) as [ND IN].
  unfold common_callback. cbn [x_data sx_pushes]. rewrite <- (decoded_is _ _ _ _ D). cbv zeta.
  change (x_table (sx_data d' (sx_pushes q s))) with (x_table s). rewrite G.
  split; [|split; [exact ND|]].
  - rewrite notify_all; [reflexivity|auto using linv_data, linv_pushes|exact G|intros; apply R1|].
    intros r c (cb & _ & Ir). apply (R2 cb r c Ir).
  - intros cb. rewrite IN. split; [intros Q; exists st; auto|]. intros (st' & G' & I'). rewrite G in G'. injection G' as <-. auto.
Qed.
Print Assumptions C74_other_codes_partial.
Example C74_nonvacuous : exists s s',
  xrun client_init (three_listeners ++ [EPush 0 12504 color_message]) = Some s /\
  nth_error (x_closures s) 2 = Some (mkC 3 3 12500 1) /\
  xstep s (EHandle [2%nat; 1%nat] (fun x => if Nat.eqb x 2 then ([2%nat], false) else ([], false))) = Some s' /\
  map (fun n => match n with Called cb _ _ => Some cb | Failed _ => None end) (x_log s') = [Some 2%nat; Some 1%nat] /\
  ~ listens s' 12500 3.
Proof.
  do 2 eexists. split; [vm_compute; reflexivity|]. split; [reflexivity|]. split; [vm_compute; reflexivity|]. split; [reflexivity|].
  intros (st & A & _). discriminate A.
Qed.

(** ------------------------------------------------------------------ *)
(** C89 does not hold: a callback that raises keeps the listeners after it from being
    called, although nothing is wrong with them. *)
Theorem C89_raising_callback_refuted :
  ~ (forall es s code m q d' order react s' cb,
       xrun client_init es = Some s -> x_pushes s = (HClient code, m) :: q -> decoded code m (x_data s) (d', Ok tt) ->
       (forall x, fst (react x) = []) ->
       xstep s (EHandle order react) = Some s' ->
       listens s code cb -> snd (react cb) = false -> In (Called cb code d') (x_log s')).
Proof.
  intros H.
  eassert (R : xrun client_init (three_listeners ++ [EPush 0 12504 color_message]) = Some _) by (vm_compute; reflexivity).
  match type of R with _ = Some ?s0 =>
    eassert (X : xstep s0 (EHandle [1%nat; 2%nat] (fun x => ([], Nat.eqb x 1))) = Some _) by (vm_compute; reflexivity) end.
  assert (D : decoded 12504 color_message [] (fst (decode_color_update color_message []), Ok tt))
    by (split; [lia|split; [lia|split; [intros _; vm_compute; reflexivity|lia]]]).
  assert (K := H _ _ 12504 color_message [] _ [1%nat; 2%nat] (fun x => ([], Nat.eqb x 1)) _ 2%nat R eq_refl D (fun _ => eq_refl) X (ltac:(exists 0%nat; cbn; auto)) eq_refl).
  vm_compute in K. repeat (destruct K as [K|K]; [discriminate|]). destruct K.
Qed.
Print Assumptions C89_raising_callback_refuted.
(** What does hold: the listeners the loop reaches before the one that raises have all been
    called, with the updated data, the exception ends that one task, and nobody's subscription
    or connection is touched: everything but the data, the log and the queue is as before. *)
Lemma notify_until react code st : forall a x b s n,
  (forall y, fst (react y) = []) -> (forall y, In y a -> snd (react y) = false) -> snd (react x) = true ->
  n = List.length (get_set st s) ->
  notify react code st n (a ++ x :: b) s =
  sx_log (x_log s ++ map (fun cb => Called cb code (x_data s)) (a ++ [x]) ++ [Failed EValue]) s.
Proof.
  induction a as [|y a IH]; intros x b s n F A X ->; cbn [app notify]; rewrite Nat.eqb_refl, F; cbn [negb fold_left].
  - rewrite X. cbn. rewrite <- app_assoc. reflexivity.
  - rewrite (A y (or_introl eq_refl)). rewrite IH; [|auto|intros z I; apply A; now right|auto|reflexivity].
    cbn. rewrite <- app_assoc. reflexivity.
Qed.
Theorem C89_before_it_partial : forall es s code m q d' a x b react s',
  xrun client_init es = Some s -> x_pushes s = (HClient code, m) :: q -> decoded code m (x_data s) (d', Ok tt) ->
  (exists cb, listens s code cb) -> (forall y, fst (react y) = []) ->
  (forall y, In y a -> snd (react y) = false) -> snd (react x) = true ->
  xstep s (EHandle (a ++ x :: b) react) = Some s' ->
  s' = sx_log (x_log s ++ map (fun cb => Called cb code d') (a ++ [x]) ++ [Failed EValue]) (sx_data d' (sx_pushes q s)) /\
  (forall c cb, listens s' c cb <-> listens s c cb).
Proof.
  intros es s code m q d' a x b react s' H P D [cb0 (st & G & I0)] F A X E.
  destruct (handle_unfold _ _ _ _ _ _ _ P E) as [-> _].
  assert (Q : common_callback react (a ++ x :: b) code m (sx_pushes q s) =
    sx_log (x_log s ++ map (fun cb => Called cb code d') (a ++ [x]) ++ [Failed EValue]) (sx_data d' (sx_pushes q s))).
  { unfold common_callback. cbn [x_data sx_pushes]. rewrite <- (decoded_is _ _ _ _ D). cbv zeta.
    change (x_table (sx_data d' (sx_pushes q s))) with (x_table s). rewrite G.
    apply notify_until; auto. }
  rewrite Q. split; [reflexivity|]. intros c cb. reflexivity.
Qed.
Print Assumptions C89_before_it_partial.
(** the second of two raises; and the next message reaches both *)
Example C89_nonvacuous : exists s s' s2,
  xrun client_init (three_listeners ++ [EPush 0 12504 color_message; EPush 0 12504 color_message]) = Some s /\
  (exists cb, listens s 12504 cb) /\
  xstep s (EHandle ([1%nat] ++ 2%nat :: []) (fun x => ([], Nat.eqb x 2))) = Some s' /\
  xstep s' (EHandle [1%nat; 2%nat] (fun x => ([], false))) = Some s2 /\
  x_log s2 = x_log s' ++ [Called 1 12504 (x_data s2); Called 2 12504 (x_data s2)] /\ x_pushes s2 = [].
Proof.
  do 3 eexists. split; [vm_compute; reflexivity|]. split; [exists 1%nat, 0%nat; cbn; auto|].
  split; [vm_compute; reflexivity|]. split; [vm_compute; reflexivity|]. split; reflexivity.
Qed.

(** C90 does not hold: when the add-client exchange of a first subscription fails, the call of
    async_subscribe raises, nothing is in progress, and no unsubscribe function exists - but
    the callback stays subscribed. *)
Theorem C90_failed_subscription_refuted :
  ~ (forall es s cb code s1 s2 i,
       xrun client_init es = Some s -> (forall c, In c (x_closures s) -> c_cb c <> cb) -> ~ listens s code cb ->
       xstep s (ESubscribe cb code) = Some s1 -> i = List.length (x_tasks s) ->
       xstep s1 (EAddFailed i) = Some s2 ->
       listens s2 code cb -> exists c, In c (x_closures s2) /\ c_cb c = cb /\ c_code c = code).
Proof.
  intros H. 
  eassert (R : xrun client_init [EOpen; EAttach None 0] = Some _) by (vm_compute; reflexivity).
  match type of R with _ = Some ?s0 => eassert (X : xstep s0 (ESubscribe 1 12500) = Some _) by (vm_compute; reflexivity) end.
  match type of X with _ = Some ?s0 => eassert (Y : xstep s0 (EAddFailed 1) = Some _) by (vm_compute; reflexivity) end.
  assert (N1 : forall c, In c (@nil closure) -> c_cb c <> 1%nat) by (intros c []).
  destruct (H _ _ 1%nat 12500 _ _ 1%nat R N1 (ltac:(intros (st & A & _); discriminate A)) X eq_refl Y (ltac:(exists 0%nat; cbn; auto))) as (c & [] & _).
Qed.
Print Assumptions C90_failed_subscription_refuted.
(** What does hold: a subscription, failed or not, touches nobody else - every other callback
    listens to what it listened to and every unsubscribe function that existed still does what
    it did; a failure in itself changes no subscription and frees the lock. *)
Theorem C90_others_untouched_partial : forall es s cb code s1,
  xrun client_init es = Some s -> xstep s (ESubscribe cb code) = Some s1 ->
  (forall c x, (c, x) <> (code, cb) -> (listens s1 c x <-> listens s c x)) /\
  (forall r c, nth_error (x_closures s) r = Some c -> nth_error (x_closures s1) r = Some c) /\
  x_data s1 = x_data s /\ x_log s1 = x_log s.
Proof.
  intros es s cb code s1 H E. pose proof (linv_run _ _ H) as L. cbn [xstep] in E. injection E as <-.
  destruct (x_attached s) eqn:A.
  - pose proof (subscribe_spec cb code s A) as Ad.
    split; [|split; [|split; [apply Ad|apply Ad]]].
    + intros c x N. rewrite !listens_lis. rewrite (a_table _ _ _ _ Ad), (a_sets _ _ _ _ Ad). apply lis_add; auto. apply L.
    + intros r c X. destruct (a_clos _ _ _ _ Ad) as (ext & -> & _). rewrite nth_error_app1; auto. apply nth_error_Some. congruence.
  - unfold subscribe. rewrite A. repeat split; auto.
Qed.
Print Assumptions C90_others_untouched_partial.
Theorem C90_failure_changes_nothing_partial : forall s i s',
  xstep s (EAddFailed i) = Some s' ->
  (forall c x, listens s' c x <-> listens s c x) /\ x_closures s' = x_closures s /\ x_protos s' = x_protos s /\
  x_client s' = x_client s /\ x_pushes s' = x_pushes s /\ x_data s' = x_data s /\ x_log s' = x_log s /\ x_locked s' = false.
Proof.
  intros s i s' E. cbn [xstep] in E. destruct (top i s) as [[]|]; try discriminate E. injection E as <-.
  repeat split; auto.
Qed.
Print Assumptions C90_failure_changes_nothing_partial.
(** ... and it can be mended: subscribing the same callback again, on a live connection with
    nobody waiting for the lock, gives (at once, or when the adapter accepts) a function that
    ends the subscription. *)
Lemma reg_attached p code h s : x_attached (p_register p code h s) = x_attached s.
Proof.
  unfold x_attached, p_register, upd_proto. cbn [x_cur sx_protos]. destruct (x_cur s) as [k|]; [|reflexivity].
  unfold get_proto. cbn [x_protos sx_protos]. destruct (Nat.lt_ge_cases p (List.length (x_protos s))) as [Lt|Ge].
  - rewrite xnth_lset by auto. destruct (Nat.eqb_spec k p); [subst; reflexivity|reflexivity].
  - assert (Z : forall (l : list proto) n x, (List.length l <= n)%nat -> lset n x l = l).
    { induction l as [|y l IH]; intros [|n] x Q; cbn in *; auto; [lia|]. f_equal. apply IH. lia. }
    rewrite Z by exact Ge. reflexivity.
Qed.
Lemma subscribe_shape cb code s : x_attached s = true -> exists sB st,
  x_tasks sB = x_tasks s ++ [mkT (KSub cb code st) []] /\ x_queue sB = x_queue s /\ x_locked sB = x_locked s /\
  x_closures sB = x_closures s /\ x_attached sB = true /\
  subscribe cb code s = if x_needed sB then begin_sub (List.length (x_tasks s)) sB else returned (List.length (x_tasks s)) sB.
Proof.
  intros A. unfold subscribe. rewrite A.
  set (p0 := match tget code (x_table s) with Some st => (st, s) | None => _ end).
  assert (P0 : x_tasks (snd p0) = x_tasks s /\ x_queue (snd p0) = x_queue s /\ x_locked (snd p0) = x_locked s /\
    x_closures (snd p0) = x_closures s /\ x_attached (snd p0) = true).
  { unfold p0. destruct (tget code (x_table s)); cbn [snd]; repeat split; auto. }
  destruct p0 as [st s1]. cbn [snd] in P0. destruct P0 as (P1 & P2 & P3 & P4 & P5).
  set (s2 := if mem cb (get_set st s1) then s1 else _).
  assert (Q : x_tasks s2 = x_tasks s /\ x_queue s2 = x_queue s /\ x_locked s2 = x_locked s /\
    x_closures s2 = x_closures s /\ x_attached s2 = true).
  { unfold s2. destruct (mem cb (get_set st s1)); cbn; repeat split; auto. }
  clearbody s2. destruct Q as (Q1 & Q2 & Q3 & Q4 & Q5).
  set (s3 := on_cur _ s2).
  assert (R : x_tasks s3 = x_tasks s /\ x_queue s3 = x_queue s /\ x_locked s3 = x_locked s /\
    x_closures s3 = x_closures s /\ x_attached s3 = true).
  { unfold s3, on_cur. destruct (x_cur s2) as [p|]; [|repeat split; auto]. split; [auto|]. split; [auto|]. split; [auto|]. split; [auto|].
    rewrite reg_attached. auto. }
  clearbody s3. destruct R as (R1 & R2 & R3 & R4 & R5). cbv zeta.
  exists (new_task (KSub cb code st) s3), st. rewrite <- R1.
  split; [cbn; reflexivity|]. split; [cbn; auto|]. split; [cbn; auto|]. split; [cbn; auto|]. split; [exact R5|reflexivity].
Qed.
Lemma xrun_snoc es e : forall s s1 s2, xrun s es = Some s1 -> xstep s1 e = Some s2 -> xrun s (es ++ [e]) = Some s2.
Proof.
  induction es as [|x es IH]; intros s s1 s2 H E; cbn [app xrun] in *.
  - injection H as <-. rewrite E. reflexivity.
  - destruct (xstep s x); [eauto|discriminate H].
Qed.
Theorem C90_mended_partial : forall es s i s1 cb code,
  xrun client_init es = Some s -> xstep s (EAddFailed i) = Some s1 -> x_attached s1 = true -> x_queue s1 = [] ->
  exists s2 s3 s4 r c,
    xstep s1 (ESubscribe cb code) = Some s2 /\
    (s3 = s2 \/ xstep s2 (EAdded (List.length (x_tasks s1))) = Some s3) /\
    nth_error (x_closures s3) r = Some c /\ c_task c = List.length (x_tasks s1) /\
    xstep s3 (EUnsubscribe r) = Some s4 /\ listens s3 code cb /\ ~ listens s4 code cb.
Proof.
  intros es s i s1 cb code H E A Q.
  pose proof (xrun_snoc _ _ _ _ _ H E) as H1.
  destruct (C90_failure_changes_nothing_partial _ _ _ E) as (_ & _ & _ & _ & _ & _ & _ & LK). clear H E.
  destruct (subscribe_shape cb code s1 A) as (sB & st & B1 & B2 & B3 & B4 & B5 & B6).
  set (k := List.length (x_tasks s1)) in *.
  assert (T : get_task k sB = mkT (KSub cb code st) []).
  { unfold get_task. rewrite B1, app_nth2 by (unfold k; lia). unfold k. rewrite Nat.sub_diag. reflexivity. }
  assert (X : exists s3, (s3 = subscribe cb code s1 \/ xstep (subscribe cb code s1) (EAdded k) = Some s3) /\
    x_closures s3 = x_closures s1 ++ [mkC k cb code st]).
  { rewrite B6. assert (RT : forall s0, get_task k s0 = get_task k sB -> x_closures s0 = x_closures sB -> x_closures (returned k s0) = x_closures s1 ++ [mkC k cb code st]).
    { intros s0 G C. unfold returned. rewrite G, T. cbn [x_closures sx_closures]. rewrite C, B4. reflexivity. }
    destruct (x_needed sB); [|exists (returned k sB); auto].
    unfold begin_sub. rewrite B5. unfold lock_free. rewrite B3, LK, B2, Q. cbn [negb andb]. unfold enter_sub.
    destruct (x_is_client (sx_locked true sB)).
    - eexists. split; [left; reflexivity|]. apply RT; reflexivity.
    - set (sP := push_frame k FAdding (sx_locked true sB)).
      assert (GP : get_task k sP = mkT (KSub cb code st) [FAdding]).
      { unfold sP, push_frame, get_task. cbn [x_tasks sx_tasks sx_locked]. change (nth k (x_tasks sB) no_task) with (get_task k sB).
        rewrite T. rewrite xnth_lset by (rewrite B1, app_length; cbn; unfold k; lia). rewrite Nat.eqb_refl. reflexivity. }
      eexists. split.
      + right. cbn [xstep]. unfold top. rewrite GP. cbn [k_frames]. reflexivity.
      + assert (GQ : get_task k (pop_frame k sP) = mkT (KSub cb code st) []).
        { unfold pop_frame. rewrite GP. unfold get_task. cbn [x_tasks sx_tasks k_kind k_frames tl].
          rewrite xnth_lset; [rewrite Nat.eqb_refl; reflexivity|].
          unfold sP, push_frame. cbn [x_tasks sx_tasks sx_locked]. rewrite xlset_length, B1, app_length. cbn. unfold k. lia. }
        apply RT.
        * rewrite T. etransitivity; [|exact GQ]. unfold on_cur. cbn [x_cur sx_client]. destruct (x_cur (pop_frame k sP)); reflexivity.
        * unfold on_cur. cbn [x_cur sx_client]. destruct (x_cur (pop_frame k sP)); reflexivity. }
  destruct X as (s3 & X1 & X2).
  set (r := List.length (x_closures s1)).
  assert (N : nth_error (x_closures s3) r = Some (mkC k cb code st)).
  { rewrite X2, nth_error_app2 by (unfold r; lia). unfold r. rewrite Nat.sub_diag. reflexivity. }
  exists (subscribe cb code s1), s3, (call_closure r s3), r, (mkC k cb code st).
  assert (St : xstep s3 (EUnsubscribe r) = Some (call_closure r s3)).
  { cbn [xstep]. replace (Nat.ltb r (List.length (x_closures s3))) with true; [reflexivity|]. symmetry. apply Nat.ltb_lt. apply nth_error_Some. congruence. }
  assert (R : exists es2, xrun s1 (ESubscribe cb code :: es2) = Some s3 /\ (es2 = [] \/ es2 = [EAdded k])).
  { destruct X1 as [->|X1]; [exists []; auto|]. exists [EAdded k]. split; auto. cbn [xrun]. change (xstep s1 (ESubscribe cb code)) with (Some (subscribe cb code s1)).
    cbv iota beta. rewrite X1. reflexivity. }
  destruct R as (es2 & R & Es).
  split; [reflexivity|]. split; [exact X1|]. split; [exact N|]. split; [reflexivity|]. split; [exact St|].
  eapply (C69_removes_it _ s1 cb code es2 s3 r (mkC k cb code st)); eauto.
  intros ea e eb sm r0 c0 E2 _ RU _. exfalso.
  destruct Es as [Es|Es]; rewrite Es in E2; [destruct ea; discriminate E2|].
  destruct ea as [|e1 ea]; [|destruct ea; discriminate E2]. injection E2 as <- _. exact RU.
Qed.
Print Assumptions C90_mended_partial.
(** the exchange of the first subscription fails *)
Example C90_nonvacuous : exists s s1,
  xrun client_init [EOpen; EAttach None 0; ESubscribe 1 12504] = Some s /\
  xstep s (EAddFailed 1) = Some s1 /\ x_attached s1 = true /\ x_queue s1 = [] /\ listens s1 12504 1 /\ x_closures s1 = [].
Proof.
  do 2 eexists. split; [vm_compute; reflexivity|]. split; [vm_compute; reflexivity|]. split; [reflexivity|]. split; [reflexivity|].
  split; [exists 0%nat; cbn; auto|reflexivity].
Qed.

(** ------------------------------------------------------------------ *)
(** C110.  While the gateway says it is a client the keepalive timer of its connection runs. *)
Theorem C110_kept_alive s : reachable s -> x_is_client s = true -> exists p, x_cur s = Some p /\ q_up (get_proto p s) = true /\ q_ka (get_proto p s) = true.
Proof.
  intros (es & R) C. assert (W : watched s) by (apply (run_inv watched watched_step es client_init); [apply watched_init|exact R]).
  unfold x_is_client, x_attached in C. apply andb_prop in C. destruct C as (C & U). destruct (x_cur s) as [p|] eqn:E; [|discriminate U].
  exists p. split; [reflexivity|]. split; [exact U|]. destruct W as (_ & W). apply W; auto.
Qed.
Print Assumptions C110_kept_alive.
(** Giving the registration up, other than by attaching a new connection, stops the timer and
    drops every handler of the connection in that same step. *)
Theorem C110_given_up s e s' p : reachable s -> xstep s e = Some s' -> (forall who q, e <> EAttach who q) ->
  x_client s = true -> x_client s' = false -> x_cur s = Some p -> q_ka (get_proto p s') = false /\ q_handlers (get_proto p s') = [].
Proof.
  intros (es & R) E NA C C' Cur. assert (W : watched s) by (apply (run_inv watched watched_step es client_init); [apply watched_init|exact R]).
  destruct (step_view _ _ _ E) as [V|[(_ & _ & _ & G)|[(_ & H & _)|[(who & q & H & _)|[(q & _ & H & _)|(i & _ & H & _)]]]]].
  - injection V as V _ _. congruence.
  - apply G; [exact Cur|]. destruct W as (W & _). auto.
  - congruence.
  - destruct (NA who q H).
  - congruence.
  - congruence.
Qed.
Print Assumptions C110_given_up.
(** A connection that is lost has its timer stopped at once. *)
Theorem C110_lost s p s' : xstep s (ELost p) = Some s' -> q_ka (get_proto p s') = false /\ q_up (get_proto p s') = false.
Proof.
  intros E. destruct (step_view _ _ _ E) as [V|[(_ & _ & _ & G)|[(H & _)|[(who & q & H & _)|[(q & H & _ & _ & L & ->)|(i & H & _)]]]]]; try discriminate H.
  1, 2: cbn [xstep] in E; destruct (q_up (get_proto p s)) eqn:U; [|discriminate E]; injection E as <-;
    (assert (L : (p < List.length (x_protos s))%nat) by
      (destruct (Nat.lt_ge_cases p (List.length (x_protos s))) as [L|L]; [exact L|]; unfold get_proto in U; rewrite nth_overflow in U by exact L; discriminate U));
    rewrite get_upd, Nat.eqb_refl by exact L; split; reflexivity.
  injection H as ->. rewrite get_upd, Nat.eqb_refl by exact L. split; reflexivity.
Qed.
Print Assumptions C110_lost.
(** the last listener leaves and the task it created runs *)
Example C110_nonvacuous : exists s s',
  xrun client_init [EOpen; EAttach None 0; ESubscribe 1 12504; EAdded 1; EUnsubscribe 0] = Some s /\
  x_is_client s = true /\ q_ka (get_proto 0 s) = true /\ x_cur s = Some 0%nat /\
  xstep s (EStart 2) = Some s' /\ x_client s' = false /\ q_ka (get_proto 0 s') = false /\ (exists s'', xstep s (ELost 0) = Some s'').
Proof. do 2 eexists. split; [vm_compute; reflexivity|]. repeat (split; [vm_compute; reflexivity|]). eexists. vm_compute. reflexivity. Qed.
