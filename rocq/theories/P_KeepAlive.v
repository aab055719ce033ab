(** The keepalive timer and the registration, over the events of Client.v. *)
From Verif Require Import Py F64 Struct Utf Utility Const Decode World Client P_Client P_Client2 P_Client3 P_Client4 P_Client5 P_Client6.
From Coq Require Import Lia.

(** what matters here: the registration flag, the current connection and, for each connection,
    whether it is up and whether its timer runs *)
Definition life (q : proto) : bool * bool := (q_up q, q_ka q).
Definition view (s : cstate) := (x_client s, x_cur s, map life (x_protos s)).

Lemma map_lset {A B} (f : A -> B) n x l : map f (lset n x l) = lset n (f x) (map f l).
Proof. revert n. induction l as [|y l IH]; intros [|n]; cbn; try reflexivity. rewrite IH. reflexivity. Qed.
Lemma lset_id {A} n (d : A) l : lset n (nth n l d) l = l.
Proof. revert n. induction l as [|y l IH]; intros [|n]; cbn; try reflexivity. rewrite IH. reflexivity. Qed.
Lemma view_upd p f s : (forall q, life (f q) = life q) -> view (upd_proto p f s) = view s.
Proof.
  intros H. unfold view, upd_proto. cbn [x_client x_cur x_protos sx_protos]. rewrite map_lset, H. unfold get_proto.
  rewrite <- (map_nth life). rewrite lset_id. reflexivity.
Qed.
Lemma view_reg p c h s : view (p_register p c h s) = view s. Proof. apply view_upd. reflexivity. Qed.
Lemma view_unreg p c s : view (p_unregister p c s) = view s. Proof. apply view_upd. reflexivity. Qed.
Lemma view_clear p s : view (p_clear p s) = view s. Proof. apply view_upd. reflexivity. Qed.
Lemma view_on_cur f s : (forall p s, view (f p s) = view s) -> view (on_cur f s) = view s.
Proof. intros H. unfold on_cur. destruct (x_cur s); auto. Qed.
Lemma view_returned i s : view (returned i s) = view s.
Proof. unfold returned. destruct (get_task i s) as [[| |] [|]]; reflexivity. Qed.
Lemma view_fold_reg p codes : forall s, view (fold_left (fun s code => p_register p code (HClient code) s) codes s) = view s.
Proof. induction codes as [|c codes IH]; intros s; [reflexivity|]. cbn [fold_left]. rewrite IH. apply view_reg. Qed.
Lemma view_enter_sub i s : view (enter_sub i s) = view s.
Proof. unfold enter_sub. destruct (x_is_client s); [rewrite view_returned|]; reflexivity. Qed.
Lemma view_begin_sub i s : view (begin_sub i s) = view s.
Proof. unfold begin_sub. destruct (x_attached s); [|apply view_returned]. destruct (lock_free s); [rewrite view_enter_sub|]; reflexivity. Qed.
Lemma view_subscribe cb code s : view (subscribe cb code s) = view s.
Proof.
  unfold subscribe. destruct (x_attached s); [|reflexivity].
  assert (K : forall st s0, view s0 = view s -> view (let s := if mem cb (get_set st s0) then s0 else sx_sets (lset st (get_set st s0 ++ [cb]) (x_sets s0)) s0 in
    let s := on_cur (fun p => p_register p code (HClient code)) s in let i := List.length (x_tasks s) in let s := new_task (KSub cb code st) s in
    if x_needed s then begin_sub i s else returned i s) = view s).
  { intros st s0 E. cbv zeta. set (s1 := if mem cb _ then s0 else _). assert (E1 : view s1 = view s) by (unfold s1; destruct (mem _ _); exact E).
    set (s2 := on_cur _ s1). assert (E2 : view s2 = view s) by (unfold s2; rewrite view_on_cur; [exact E1|intros; apply view_reg]).
    destruct (x_needed _); [rewrite view_begin_sub|rewrite view_returned]; exact E2. }
  destruct (tget code (x_table s)); apply K; reflexivity.
Qed.
Lemma view_remove c s : view (remove_listener c s) = view s.
Proof.
  destruct c as [i cb code st]. cbn [remove_listener]. destruct (mem _ _); [|reflexivity].
  destruct (filter _ _); [|reflexivity]. destruct (tget _ _); [|reflexivity]. destruct (x_attached _); [|reflexivity].
  set (s2 := on_cur _ _). assert (E2 : view s2 = view s) by (unfold s2; rewrite view_on_cur; [reflexivity|intros; apply view_unreg]).
  destruct (x_table s2); exact E2.
Qed.
Lemma view_call r s : view (call_closure r s) = view s.
Proof. unfold call_closure. destruct (nth_error _ _); [apply view_remove|reflexivity]. Qed.
Lemma view_calls l : forall s, view (fold_left (fun s r => call_closure r s) l s) = view s.
Proof. induction l as [|r l IH]; intros s; [reflexivity|]. cbn [fold_left]. rewrite IH. apply view_call. Qed.
Lemma view_notify react code st n order : forall s, view (notify react code st n order s) = view s.
Proof.
  induction order as [|cb order IH]; intros s; cbn [notify]; (destruct (negb _); [reflexivity|]); [reflexivity|].
  destruct (snd _); [|rewrite IH]; rewrite <- (view_calls (fst (react cb)) s); [|]; set (s1 := sx_log (x_log s ++ [Called cb code (x_data s)]) s).
  - change (view (fold_left (fun s r => call_closure r s) (fst (react cb)) s1) = view (fold_left (fun s r => call_closure r s) (fst (react cb)) s)). rewrite !view_calls. reflexivity.
  - rewrite !view_calls. reflexivity.
Qed.
Lemma view_common react order code m s : view (common_callback react order code m s) = view s.
Proof.
  unfold common_callback. destruct (match push_decoder code with Some dec => dec m (x_data s) | None => (x_data s, Ok tt) end) as [d r].
  destruct r; [|reflexivity]. destruct (tget _ _); [rewrite view_notify|]; reflexivity.
Qed.

(** giving up the registration *)
Definition gave_up (s s' : cstate) : Prop :=
  x_client s' = false /\ x_cur s' = x_cur s /\ List.length (x_protos s') = List.length (x_protos s) /\
  (forall p, x_cur s = Some p -> (p < List.length (x_protos s))%nat -> q_ka (get_proto p s') = false /\ q_handlers (get_proto p s') = []).
Lemma enter_unsub_view i s : view (enter_unsub i s) = view s \/ gave_up s (enter_unsub i s).
Proof.
  unfold enter_unsub. destruct (x_client s) eqn:C; [right|left; rewrite view_returned; reflexivity].
  unfold gave_up, on_cur. cbn [x_cur sx_client]. destruct (x_cur s) as [p|] eqn:E.
  - cbn [x_cur x_client push_frame sx_tasks x_protos p_clear p_keepalive upd_proto sx_protos sx_client]. rewrite E. cbn [x_cur x_client push_frame sx_tasks x_protos p_clear p_keepalive upd_proto sx_protos sx_client].
    split; [reflexivity|]. split; [exact E|]. rewrite !xlset_length. split; [reflexivity|]. intros p0 E0 L. injection E0 as <-.
    match goal with |- context [get_proto p (push_frame i FRemoving ?x)] => change (get_proto p (push_frame i FRemoving x)) with (get_proto p x) end.
    unfold p_clear. rewrite get_upd, Nat.eqb_refl by (cbn [x_protos p_keepalive upd_proto sx_protos sx_client]; rewrite xlset_length; exact L).
    cbn [q_ka q_handlers]. unfold p_keepalive. rewrite get_upd, Nat.eqb_refl by exact L. split; reflexivity.
  - cbn [x_cur x_client push_frame sx_tasks x_protos sx_client]. rewrite E. cbn. split; [reflexivity|]. split; [exact E|]. split; [reflexivity|]. discriminate.
Qed.
Lemma gave_up_view s0 s s' : view s0 = view s -> gave_up s0 s' -> gave_up s s'.
Proof.
  intros E (A & B & C & D). injection E as _ E1 E2. assert (L : List.length (x_protos s0) = List.length (x_protos s)) by (rewrite <- (map_length life (x_protos s0)), E2; apply map_length).
  split; [exact A|]. split; [congruence|]. split; [congruence|]. intros p H1 H2. apply D; [congruence|]. rewrite L. exact H2.
Qed.
Lemma begin_unsub_view i s : view (begin_unsub i s) = view s \/ gave_up s (begin_unsub i s).
Proof.
  unfold begin_unsub. destruct (x_attached s); [|left; apply view_returned]. destruct (lock_free s); [|left; reflexivity].
  exact (enter_unsub_view i (sx_locked true s)).
Qed.

(** every step *)
Lemma step_view s e s' : xstep s e = Some s' ->
  view s' = view s \/ gave_up s s' \/
  (e = EOpen /\ x_client s' = x_client s /\ x_cur s' = x_cur s /\ exists q, x_protos s' = x_protos s ++ [q]) \/
  (exists who p, e = EAttach who p /\ x_client s' = false /\ x_cur s' = Some p /\ (p < List.length (x_protos s'))%nat) \/
  (exists p, e = ELost p /\ x_client s' = x_client s /\ x_cur s' = x_cur s /\ (p < List.length (x_protos s))%nat /\ s' = upd_proto p (fun q => mkP false (q_handlers q) false) s) \/
  (exists i, e = EAdded i /\ x_client s' = true /\ x_cur s' = x_cur s /\ map life (x_protos s') = map life (x_protos (on_cur (p_keepalive true) s))).
Proof.
  destruct e as [cb code|r|who| |who p|p|i|i|i|i|i|i|p code h|p code|p code m|order react]; cbn [xstep]; intros E.
  - injection E as <-. left. apply view_subscribe.
  - destruct (Nat.ltb _ _); [|discriminate E]. injection E as <-. left. apply view_call.
  - unfold by_task in E. destruct who as [i|].
    + destruct (top i s) as [[| | | |]|]; try discriminate E. injection E as <-. destruct (x_is_client s); [|left; reflexivity].
      destruct (begin_unsub_view i s) as [H|H]; [left|right; left]; exact H.
    + injection E as <-. destruct (x_is_client _); [|left; reflexivity].
      destruct (begin_unsub_view (List.length (x_tasks s)) (new_task KUnsub s)) as [H|H]; [left; rewrite H; reflexivity|right; left; revert H; apply gave_up_view; reflexivity].
  - injection E as <-. do 2 right. left. repeat split. eexists. reflexivity.
  - destruct (Nat.ltb_spec p (List.length (x_protos s))) as [L|]; [|discriminate E]. do 3 right. left. exists who, p. split; [reflexivity|].
    assert (K : forall i s0, x_protos s0 = x_protos s -> x_client (attach_to i p s0) = false /\ x_cur (attach_to i p s0) = Some p /\ (p < List.length (x_protos (attach_to i p s0)))%nat).
    { intros i s0 P0. unfold attach_to. set (s1 := sx_client false (sx_cur (Some p) s0)).
      assert (V : view (if x_needed s1 then begin_sub i (fold_left (fun s code => p_register p code (HClient code) s) (map fst (x_table (p_clear p s1))) (p_clear p s1)) else returned i s1) = view s1)
        by (destruct (x_needed s1); [rewrite view_begin_sub, view_fold_reg, view_clear|rewrite view_returned]; reflexivity).
      set (s2 := if x_needed s1 then _ else _) in *. cbv zeta. injection V as V1 V2 V3. rewrite V1, V2. split; [reflexivity|]. split; [reflexivity|].
      rewrite <- (map_length life), V3, map_length. cbn [x_protos s1 sx_client sx_cur]. rewrite P0. exact L. }
    unfold by_task in E. destruct who as [i|]; [destruct (top i s) as [[| | | |]|]; try discriminate E|]; injection E as <-; apply K; reflexivity.
  - destruct (q_up (get_proto p s)) eqn:U; [|discriminate E]. injection E as <-. do 4 right. left. exists p. split; [reflexivity|]. split; [reflexivity|]. split; [reflexivity|]. split; [|reflexivity].
    destruct (Nat.lt_ge_cases p (List.length (x_protos s))) as [L|L]; [exact L|]. unfold get_proto in U. rewrite nth_overflow in U by exact L. discriminate U.
  - destruct (top i s) as [[| | | |]|]; try discriminate E. injection E as <-. destruct (begin_unsub_view i (pop_frame i s)) as [H|H]; [left; rewrite H; reflexivity|right; left; revert H; apply gave_up_view; reflexivity].
  - destruct (top i s) as [[| | | |]|]; try discriminate E; injection E as <-; left; reflexivity.
  - destruct (x_locked s); [discriminate E|]. destruct (x_queue s) as [|j q]; [discriminate E|]. destruct (Nat.eqb i j); [|discriminate E].
    destruct (top i s) as [[| | | |]|]; try discriminate E; injection E as <-; [left; rewrite view_enter_sub; reflexivity|].
    destruct (enter_unsub_view i (sx_locked true (pop_frame i (sx_queue q s)))) as [H|H]; [left; rewrite H; reflexivity|right; left; revert H; apply gave_up_view; reflexivity].
  - destruct (top i s) as [[| | | |]|]; try discriminate E; injection E as <-. do 5 right. exists i. split; [reflexivity|].
    set (s1 := sx_client true (pop_frame i s)). assert (V : view (returned i (sx_locked false (on_cur (p_keepalive true) s1))) = view (on_cur (p_keepalive true) s1)) by (rewrite view_returned; reflexivity).
    injection V as V1 V2 V3. rewrite V1, V2, V3. unfold on_cur. change (x_cur s1) with (x_cur s). destruct (x_cur s) as [p|] eqn:C; repeat split; try reflexivity; exact C.
  - destruct (top i s) as [[| | | |]|]; try discriminate E; injection E as <-; left; reflexivity.
  - destruct (top i s) as [[| | | |]|]; try discriminate E; injection E as <-; left; rewrite view_returned; reflexivity.
  - injection E as <-. left. apply view_reg.
  - injection E as <-. left. apply view_unreg.
  - destruct (q_up _); [|discriminate E]. destruct (tget _ _); injection E as <-; left; reflexivity.
  - destruct (x_pushes s) as [|[[code|h] m] q]; [discriminate E| |injection E as <-; left; reflexivity].
    destruct (tget code (x_table s)); [destruct (perm_b _ _); [|discriminate E]|]; injection E as <-; left; rewrite view_common; reflexivity.
Qed.

(** the invariant *)
Definition watched (s : cstate) : Prop :=
  (forall p, x_cur s = Some p -> (p < List.length (x_protos s))%nat) /\
  (forall p, x_cur s = Some p -> x_client s = true -> q_up (get_proto p s) = true -> q_ka (get_proto p s) = true).
Lemma life_at p s : life (get_proto p s) = nth p (map life (x_protos s)) (life no_proto).
Proof. unfold get_proto. rewrite map_nth. reflexivity. Qed.
Lemma watched_step s e s' : watched s -> xstep s e = Some s' -> watched s'.
Proof.
  intros (W1 & W2) E. assert (LL : forall a b : cstate, map life (x_protos a) = map life (x_protos b) -> List.length (x_protos a) = List.length (x_protos b))
    by (intros a b H; rewrite <- (map_length life), H; apply map_length).
  destruct (step_view _ _ _ E) as [V|[(G1 & G2 & G3 & G4)|[(-> & C1 & C2 & q & C3)|[(who & p & -> & A1 & A2 & A3)|[(p & -> & L1 & L2 & L3 & L4)|(i & -> & D1 & D2 & D3)]]]]].
  - injection V as V1 V2 V3. split; intros p H; rewrite V2 in H; [rewrite (LL _ _ V3); auto|].
    rewrite V1. intros C U. assert (F : life (get_proto p s') = life (get_proto p s)) by (rewrite !life_at, V3; reflexivity). injection F as F1 F2. rewrite F2. apply W2; congruence.
  - split; intros p H; rewrite G2 in H; [rewrite G3; auto|]. rewrite G1. discriminate.
  - split; intros p H; rewrite C2 in H.
    + rewrite C3, app_length. specialize (W1 _ H). lia.
    + rewrite C1. unfold get_proto. rewrite C3, app_nth1 by auto. apply W2. exact H.
  - split; intros p0 H; rewrite A2 in H; injection H as <-; [exact A3|]. rewrite A1. discriminate.
  - subst s'. split; intros p0 H; cbn [x_cur upd_proto sx_protos x_client x_protos] in *; [rewrite xlset_length; auto|].
    intros C. rewrite get_upd by exact L3. destruct (Nat.eqb p0 p); [discriminate|]. apply W2; [exact H|exact C].
  - assert (L : List.length (x_protos s') = List.length (x_protos s)).
    { rewrite (LL _ _ D3). unfold on_cur. destruct (x_cur s); [cbn [p_keepalive upd_proto sx_protos x_protos]; apply xlset_length|reflexivity]. }
    split; intros p H; rewrite D2 in H; [rewrite L; auto|]. intros _ _.
    assert (F : life (get_proto p s') = life (get_proto p (on_cur (p_keepalive true) s))) by (rewrite !life_at, D3; reflexivity).
    injection F as _ F. rewrite F. unfold on_cur. rewrite H. unfold p_keepalive. rewrite get_upd, Nat.eqb_refl by auto. reflexivity.
Qed.
Lemma watched_init : watched client_init. Proof. split; discriminate. Qed.
