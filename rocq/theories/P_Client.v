(** Proof machinery for Client.v: lists, tasks, and the count of exchanges. *)
From Verif Require Import Py F64 Struct Utf Utility Const Decode World Client.
From Coq Require Import Lia.

Lemma xlset_length {A} n (x : A) l : List.length (lset n x l) = List.length l.
Proof. revert n; induction l as [|y l IH]; intros [|n]; cbn; auto. Qed.
Lemma xnth_lset {A} n (x d : A) l m : (n < List.length l)%nat ->
  nth m (lset n x l) d = if Nat.eqb m n then x else nth m l d.
Proof.
  revert n m. induction l as [|y l IH]; intros n m H; cbn in H; [lia|].
  destruct n as [|n], m as [|m]; cbn; auto. apply IH. lia.
Qed.
Lemma xlset_out {A} n (x : A) l : (List.length l <= n)%nat -> lset n x l = l.
Proof. revert n; induction l as [|y l IH]; intros [|n] H; cbn in *; auto; [lia|]. f_equal. apply IH. lia. Qed.
Lemma xlset_split {A} n (x d : A) l : (n < List.length l)%nat ->
  exists a b, l = a ++ nth n l d :: b /\ lset n x l = a ++ x :: b /\ List.length a = n.
Proof.
  revert n; induction l as [|y l IH]; intros [|n] H; cbn in *; try lia.
  - exists [], l. auto.
  - destruct (IH n ltac:(lia)) as (a & b & E1 & E2 & E3). exists (y :: a), b. cbn. rewrite E2. split; [f_equal; exact E1|]. auto.
Qed.

(** ---- the count of exchanges in progress *)
Definition is_exchange (f : frame) : bool := match f with FAdding | FRemoving => true | _ => false end.
Definition exchanges (s : cstate) : list frame := filter is_exchange (List.concat (map k_frames (x_tasks s))).
Definition b2n (b : bool) : nat := if b then 1%nat else 0%nat.
Definition I67 (s : cstate) : Prop := List.length (exchanges s) = b2n (x_locked s).

(** the part of the state it depends on *)
Definition core (s : cstate) : list task * bool := (x_tasks s, x_locked s).
Lemma core_I67 s s' : core s = core s' -> I67 s -> I67 s'.
Proof. unfold core, I67, exchanges. intros E. injection E as E1 E2. rewrite E1, E2. auto. Qed.

Lemma top_lt i s f : top i s = Some f -> (i < List.length (x_tasks s))%nat.
Proof.
  unfold top, get_task. intros H. destruct (Nat.lt_ge_cases i (List.length (x_tasks s))) as [?|H1]; auto.
  rewrite nth_overflow in H by lia. discriminate.
Qed.
Lemma ex_push i f s : (i < List.length (x_tasks s))%nat ->
  List.length (exchanges (push_frame i f s)) = (List.length (exchanges s) + b2n (is_exchange f))%nat.
Proof.
  intros H. unfold exchanges, push_frame. cbn [x_tasks sx_tasks].
  unfold get_task. destruct (xlset_split i (mkT (k_kind (nth i (x_tasks s) no_task)) (f :: k_frames (nth i (x_tasks s) no_task))) no_task _ H) as (a & b & E1 & E2 & _).
  rewrite E2. clear E2. remember (nth i (x_tasks s) no_task) as t eqn:Et. rewrite E1. clear E1 Et. rewrite !map_app, !concat_app. cbn [map List.concat k_frames]. rewrite !filter_app, !app_length.
  cbn [filter app]. destruct (is_exchange f); cbn; rewrite ?filter_app, ?app_length; lia.
Qed.
Lemma ex_pop i f s : top i s = Some f ->
  List.length (exchanges s) = (List.length (exchanges (pop_frame i s)) + b2n (is_exchange f))%nat.
Proof.
  intros H. pose proof (top_lt _ _ _ H) as L. unfold exchanges, pop_frame. cbn [x_tasks sx_tasks].
  unfold top in H. unfold get_task in *.
  destruct (xlset_split i (mkT (k_kind (nth i (x_tasks s) no_task)) (tl (k_frames (nth i (x_tasks s) no_task)))) no_task _ L) as (a & b & E1 & E2 & _).
  rewrite E2. clear E2. remember (nth i (x_tasks s) no_task) as t eqn:Et. rewrite E1. clear E1 Et.
  rewrite !map_app, !concat_app. cbn [map List.concat k_frames]. rewrite !filter_app, !app_length.
  destruct (k_frames t) as [|f' l]; [discriminate|]. injection H as ->. cbn [tl app filter].
  destruct (is_exchange f); cbn; rewrite ?filter_app, ?app_length; cbn; lia.
Qed.
Lemma ex_new k l s : (forall f, In f l -> is_exchange f = false) ->
  List.length (exchanges (sx_tasks (x_tasks s ++ [mkT k l]) s)) = List.length (exchanges s).
Proof.
  intros H. unfold exchanges. cbn [x_tasks sx_tasks]. rewrite map_app, concat_app, filter_app, app_length. cbn [map List.concat k_frames].
  rewrite app_nil_r. replace (filter is_exchange l) with (@nil frame); [cbn; lia|].
  induction l as [|f l IH]; cbn; auto. rewrite (H f (or_introl eq_refl)). apply IH. intros g G. apply H. right; auto.
Qed.

Lemma core_proto p f s : core (upd_proto p f s) = core s. Proof. reflexivity. Qed.
Lemma core_on_cur f s : (forall p s, core (f p s) = core s) -> core (on_cur f s) = core s.
Proof. intros H. unfold on_cur. destruct (x_cur s); auto. Qed.
Lemma core_returned i s : core (returned i s) = core s.
Proof. unfold returned. destruct (get_task i s) as [[cb code st| |] [|? ?]]; reflexivity. Qed.
Lemma core_fold_reg p (codes : list Z) s :
  core (fold_left (fun s code => p_register p code (HClient code) s) codes s) = core s.
Proof. revert s; induction codes as [|c l IH]; intros s; cbn; auto. rewrite IH. reflexivity. Qed.
Lemma len_core s s' : core s = core s' -> List.length (x_tasks s) = List.length (x_tasks s').
Proof. unfold core. intros E. injection E as -> _. auto. Qed.
Lemma ex_core s s' : core s = core s' -> List.length (exchanges s) = List.length (exchanges s').
Proof. unfold core, exchanges. intros E. injection E as -> _. auto. Qed.

Lemma I67_enter_sub i s : (i < List.length (x_tasks s))%nat -> x_locked s = true -> exchanges s = [] -> I67 (enter_sub i s).
Proof.
  intros H L E. unfold enter_sub. destruct (x_is_client s).
  - eapply core_I67; [symmetry; apply core_returned|]. unfold I67, exchanges in *. cbn [x_tasks x_locked sx_locked]. rewrite E. reflexivity.
  - unfold I67. rewrite ex_push by auto. rewrite E. unfold push_frame. cbn [x_locked sx_tasks]. rewrite L. reflexivity.
Qed.
Lemma I67_enter_unsub i s : (i < List.length (x_tasks s))%nat -> x_locked s = true -> exchanges s = [] -> I67 (enter_unsub i s).
Proof.
  intros H L E. unfold enter_unsub. destruct (x_client s).
  - set (s' := on_cur p_clear _).
    assert (C : core s' = core s).
    { unfold s'. rewrite core_on_cur by reflexivity. rewrite core_on_cur by reflexivity. reflexivity. }
    unfold I67. rewrite ex_push by (rewrite (len_core _ _ C); auto). rewrite (ex_core _ _ C), E.
    unfold push_frame. cbn [x_locked sx_tasks]. unfold core in C. injection C as _ ->. rewrite L. reflexivity.
  - eapply core_I67; [symmetry; apply core_returned|]. unfold I67, exchanges in *. cbn [x_tasks x_locked sx_locked]. rewrite E. reflexivity.
Qed.
Lemma I67_unlocked s : I67 s -> x_locked s = false -> exchanges s = [].
Proof. unfold I67. intros H L. rewrite L in H. destruct (exchanges s); [auto|discriminate]. Qed.
Lemma I67_wait i f s : (i < List.length (x_tasks s))%nat -> is_exchange f = false -> I67 s -> I67 (wait_lock i f s).
Proof.
  intros H F E. unfold wait_lock, I67. rewrite ex_push by auto. rewrite F. unfold push_frame. cbn [x_locked sx_tasks].
  unfold I67 in E. rewrite Nat.add_0_r. exact E.
Qed.
Lemma I67_begin_sub i s : (i < List.length (x_tasks s))%nat -> I67 s -> I67 (begin_sub i s).
Proof.
  intros H E. unfold begin_sub. destruct (x_attached s); [|eapply core_I67; [symmetry; apply core_returned|auto]].
  unfold lock_free. destruct (x_locked s) eqn:L; cbn [negb andb]; [apply I67_wait; auto|].
  destruct (x_queue s); [|apply I67_wait; auto].
  apply I67_enter_sub; auto. change (exchanges s = []). apply I67_unlocked; auto.
Qed.
Lemma I67_begin_unsub i s : (i < List.length (x_tasks s))%nat -> I67 s -> I67 (begin_unsub i s).
Proof.
  intros H E. unfold begin_unsub. destruct (x_attached s); [|eapply core_I67; [symmetry; apply core_returned|auto]].
  unfold lock_free. destruct (x_locked s) eqn:L; cbn [negb andb]; [apply I67_wait; auto|].
  destruct (x_queue s); [|apply I67_wait; auto].
  apply I67_enter_unsub; auto. change (exchanges s = []). apply I67_unlocked; auto.
Qed.
Lemma new_task_len k s : List.length (x_tasks (new_task k s)) = S (List.length (x_tasks s)).
Proof. unfold new_task. cbn. rewrite app_length. cbn. lia. Qed.
Lemma I67_new_task k s : I67 s -> I67 (new_task k s).
Proof. intros H. unfold I67, new_task. rewrite ex_new; [exact H|]. intros ? []. Qed.

Lemma I67_subscribe cb code s : I67 s -> I67 (subscribe cb code s).
Proof.
  intros H. unfold subscribe. destruct (x_attached s); auto.
  destruct (match tget code (x_table s) with Some st => (st, s) | None => _ end) as [st s1] eqn:E1.
  assert (C1 : core s1 = core s). { destruct (tget code (x_table s)); injection E1 as <- <-; reflexivity. }
  clear E1.
  set (s2 := if mem cb (get_set st s1) then s1 else _).
  assert (C2 : core s2 = core s). { unfold s2. destruct (mem cb (get_set st s1)); auto. }
  set (s3 := on_cur _ s2).
  assert (C3 : core s3 = core s). { unfold s3. rewrite core_on_cur; auto. }
  assert (I3 : I67 s3) by (eapply core_I67; [symmetry; exact C3|auto]).
  clearbody s3. cbv zeta.
  destruct (x_needed _).
  - apply I67_begin_sub; [rewrite new_task_len; lia|]. apply I67_new_task; auto.
  - eapply core_I67; [symmetry; apply core_returned|]. apply I67_new_task; auto.
Qed.
Lemma I67_remove c s : I67 s -> I67 (remove_listener c s).
Proof.
  intros H. unfold remove_listener. destruct c as [i cb code st]. destruct (mem cb (get_set st s)); auto.
  destruct (filter _ _) as [|? ?]; [|exact H]. destruct (tget code _); [|exact H].
  destruct (x_attached _); [|exact H].
  set (s1 := on_cur _ _).
  assert (C : core s1 = core s) by (unfold s1; rewrite core_on_cur; reflexivity).
  assert (I1 : I67 s1) by (eapply core_I67; [symmetry; exact C|auto]).
  clearbody s1. cbv zeta. destruct (x_table s1); auto. unfold I67. rewrite ex_new; [exact I1|]. intros f [<-|[]]. reflexivity.
Qed.
Lemma I67_call r s : I67 s -> I67 (call_closure r s).
Proof. intros H. unfold call_closure. destruct (nth_error _ _); auto. apply I67_remove; auto. Qed.
Lemma I67_calls l s : I67 s -> I67 (fold_left (fun s r => call_closure r s) l s).
Proof. revert s; induction l as [|r l IH]; intros s H; cbn; auto. apply IH, I67_call, H. Qed.
Lemma I67_notify react code st n order s : I67 s -> I67 (notify react code st n order s).
Proof.
  revert s; induction order as [|cb order IH]; intros s H; cbn [notify].
  - destruct (negb _); exact H.
  - destruct (negb _); [exact H|]. cbv zeta.
    assert (H1 : I67 (fold_left (fun s r => call_closure r s) (fst (react cb)) (sx_log (x_log s ++ [Called cb code (x_data s)]) s))) by (apply I67_calls; exact H).
    destruct (snd (react cb)); [exact H1|]. apply IH. exact H1.
Qed.
Lemma I67_common react order code m s : I67 s -> I67 (common_callback react order code m s).
Proof.
  intros H. unfold common_callback.
  destruct (match push_decoder code with Some dec => dec m (x_data s) | None => (x_data s, Ok tt) end) as [d r].
  cbv zeta. destruct r; [|exact H]. destruct (tget code _); [|exact H]. apply I67_notify. exact H.
Qed.
Lemma I67_attach i p s : (i < List.length (x_tasks s))%nat -> I67 s -> I67 (attach_to i p s).
Proof.
  intros L H. unfold attach_to. cbv zeta. destruct (x_needed _).
  - set (s1 := fold_left _ _ _).
    assert (C : core s1 = core s) by (unfold s1; rewrite core_fold_reg; reflexivity).
    apply I67_begin_sub; [rewrite (len_core _ _ C); auto|]. eapply core_I67; [symmetry; exact C|auto].
  - eapply core_I67; [symmetry; apply core_returned|]. exact H.
Qed.
Lemma I67_by_task who k f s s' : (forall i s, (i < List.length (x_tasks s))%nat -> I67 s -> I67 (f i s)) ->
  I67 s -> by_task who k f s = Some s' -> I67 s'.
Proof.
  intros F H. unfold by_task. destruct who as [i|].
  - destruct (top i s) as [[| | | |]|] eqn:T; try discriminate. intros E; injection E as <-. apply F; auto. eapply top_lt; eauto.
  - intros E; injection E as <-. apply F; [rewrite new_task_len; lia|]. apply I67_new_task; auto.
Qed.
Lemma I67_pop i f s : top i s = Some f -> is_exchange f = false -> I67 s -> I67 (pop_frame i s).
Proof. intros T F H. unfold I67 in *. rewrite (ex_pop _ _ _ T), F in H. rewrite Nat.add_0_r in H. exact H. Qed.
Lemma pop_len i s : List.length (x_tasks (pop_frame i s)) = List.length (x_tasks s).
Proof. unfold pop_frame. cbn. apply xlset_length. Qed.
Lemma ex_pop_last i f s : top i s = Some f -> is_exchange f = true -> I67 s -> exchanges (pop_frame i s) = [].
Proof.
  intros T F H. unfold I67 in H. rewrite (ex_pop _ _ _ T), F in H.
  destruct (exchanges (pop_frame i s)); auto. destruct (x_locked s); cbn in H; lia.
Qed.
Lemma I67_free s : exchanges s = [] -> I67 (sx_locked false s).
Proof. intros E. unfold I67, exchanges in *. cbn. rewrite E. reflexivity. Qed.

Lemma I67_step s e s' : I67 s -> xstep s e = Some s' -> I67 s'.
Proof.
  intros H. destruct e as [cb code|r|who| |who p|p|i|i|i|i|i|i|p code h|p code|p code m|order react]; cbn [xstep].
  - intros E; injection E as <-. apply I67_subscribe; auto.
  - destruct (Nat.ltb _ _); [|discriminate]. intros E; injection E as <-. apply I67_call; auto.
  - apply I67_by_task; auto. intros i s1 L H1. destruct (x_is_client s1); auto. apply I67_begin_unsub; auto.
  - intros E; injection E as <-. exact H.
  - destruct (Nat.ltb _ _); [|discriminate]. apply I67_by_task; auto. intros; apply I67_attach; auto.
  - destruct (q_up _); [|discriminate]. intros E; injection E as <-. exact H.
  - destruct (top i s) as [[| | | |]|] eqn:T; try discriminate. intros E; injection E as <-.
    apply I67_begin_unsub; [rewrite pop_len; eapply top_lt; eauto|]. eapply I67_pop; eauto.
  - destruct (top i s) as [[| | | |]|] eqn:T; try discriminate; intros E; injection E as <-.
    + eapply I67_pop; eauto.
    + eapply (I67_pop i FWaitSub); auto.
    + eapply (I67_pop i FWaitUnsub); auto.
  - destruct (x_locked s) eqn:L; [discriminate|]. destruct (x_queue s) as [|j q]; [discriminate|].
    destruct (Nat.eqb i j); [|discriminate].
    destruct (top i s) as [[| | | |]|] eqn:T; try discriminate; intros E; injection E as <-.
    + apply I67_enter_sub; auto.
      * cbn. rewrite xlset_length. eapply top_lt; eauto.
      * assert (K : I67 (pop_frame i (sx_queue q s))) by (eapply (I67_pop i FWaitSub); auto).
        apply (I67_unlocked (pop_frame i (sx_queue q s))); auto.
    + apply I67_enter_unsub; auto.
      * cbn. rewrite xlset_length. eapply top_lt; eauto.
      * assert (K : I67 (pop_frame i (sx_queue q s))) by (eapply (I67_pop i FWaitUnsub); auto).
        apply (I67_unlocked (pop_frame i (sx_queue q s))); auto.
  - destruct (top i s) as [[| | | |]|] eqn:T; try discriminate; intros E; injection E as <-.
    eapply core_I67; [symmetry; apply core_returned|]. apply I67_free.
    set (s1 := on_cur _ _). assert (C : core s1 = core (pop_frame i s)) by (unfold s1; rewrite core_on_cur; reflexivity).
    unfold exchanges. unfold core in C. injection C as -> _. eapply ex_pop_last; eauto.
  - destruct (top i s) as [[| | | |]|] eqn:T; try discriminate; intros E; injection E as <-.
    apply I67_free. eapply ex_pop_last; eauto.
  - destruct (top i s) as [[| | | |]|] eqn:T; try discriminate; intros E; injection E as <-.
    eapply core_I67; [symmetry; apply core_returned|]. apply I67_free. eapply ex_pop_last; eauto.
  - intros E; injection E as <-. exact H.
  - intros E; injection E as <-. exact H.
  - destruct (q_up _); [|discriminate]. destruct (tget code _); intros E; injection E as <-; exact H.
  - destruct (x_pushes s) as [|[[code|n] m] q]; [discriminate| |intros E; injection E as <-; exact H].
    destruct (tget code (x_table s)) as [st|].
    + destruct (perm_b _ _); [|discriminate]. intros E; injection E as <-. apply I67_common. exact H.
    + intros E; injection E as <-. apply I67_common. exact H.
Qed.
Lemma run_inv (I : cstate -> Prop) : (forall s e s', I s -> xstep s e = Some s' -> I s') ->
  forall es s s', I s -> xrun s es = Some s' -> I s'.
Proof.
  intros St. induction es as [|e es IH]; intros s s' H; cbn [xrun]; [congruence|].
  destruct (xstep s e) eqn:E; [|discriminate]. apply IH. eapply St; eauto.
Qed.
Lemma I67_init : I67 client_init. Proof. reflexivity. Qed.
