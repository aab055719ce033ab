(** What a task can wait for, in all. *)
From Verif Require Import Py F64 Struct Utf Utility Const Enum Decode World Request Gateway Api Tasks Pool SpecPool SpecTerm SpecTime P_Base P_Pool P_Moves P_Path P_Term P_Each.

Section Time.
Variable r : Z.
Hypothesis R0 : 0 < r.
Definition few (w : world) : Prop := 0 < w_retries w <= r.
Definition refund (e : ev) (k : kind) : Z := match e, k with Open _ _ _, KDone => connecting r | _, _ => 0 end.
Fixpoint dear {A} (b : Z) (m : task A) (Q : Z -> out A -> Prop) : Prop :=
  match m with
  | Done o => Q b o
  | Look f => forall w, few w -> dear b (f w) Q
  | Do f m => (forall w, timers (fst (f w)) = 0 /\ w_retries (snd (f w)) = w_retries w) /\ dear b m Q
  | Wait e f => timer e <= b /\ forall k, dear (b - timer e + refund e k) (f k) Q
  | Lock m x => dear b m Q /\ dear b x Q
  end.
Lemma dear_imp {A} (m : task A) : forall b (Q Q' : Z -> out A -> Prop), dear b m Q -> (forall d o, Q d o -> Q' d o) -> dear b m Q'.
Proof.
  induction m as [o|f IH|f m IH|e f IH|m IH xx IHx]; intros b Q Q' D H; cbn [dear] in *; eauto.
  - destruct D. eauto.
  - destruct D as (D1 & D2). split; [exact D1|]. intros k. eapply IH; eauto.
  - destruct D. eauto.
Qed.
Lemma dear_bind {A B} (m : task A) (f : A -> task B) (Q : Z -> out B -> Prop) : forall b,
  dear b m (fun d o => match o with Val a => dear d (f a) Q | Exc e => Q d (Exc e) | Stuck y => Q d (Stuck y) end) -> dear b (tbind m f) Q.
Proof.
  induction m as [[a|e|y]|g IH|g m IH|e g IH|m IH xx IHx]; intros b D; cbn [dear tbind] in *; auto.
  - destruct D. auto.
  - destruct D. auto.
  - destruct D. auto.
Qed.
Lemma dear_catch {A} (m : task A) (p : exn -> bool) (h : exn -> task A) (Q : Z -> out A -> Prop) : forall b,
  dear b m (fun d o => match o with Exc e => if p e then dear d (h e) Q else Q d o | _ => Q d o end) -> dear b (tcatch m p h) Q.
Proof.
  induction m as [[a|e|y]|g IH|g m IH|e g IH|m IH xx IHx]; intros b D; cbn [dear tcatch] in *; auto.
  - destruct (p e); exact D.
  - destruct D. auto.
  - destruct D. auto.
  - destruct D. auto.
Qed.
Lemma dear_finally {A} (m : task A) f (Q : Z -> out A -> Prop) : (forall w, w_retries (f w) = w_retries w) -> forall b, dear b m Q -> dear b (tfinally m f) Q.
Proof.
  intros F. induction m as [[a|e|y]|g IH|g m IH|e g IH|m IH xx IHx]; intros b D; cbn [dear tfinally] in *; auto.
  - split; [intros w; split; [reflexivity|apply F]|exact D].
  - split; [intros w; split; [reflexivity|apply F]|exact D].
  - destruct D. auto.
  - destruct D. auto.
  - destruct D. auto.
Qed.

(** [m] spends [x] at most *)
Definition costs {A} (x : Z) (m : task A) : Prop := forall b, x <= b -> dear b m (fun d _ => b - x <= d).
Lemma costs_more {A} x y (m : task A) : costs x m -> x <= y -> costs y m.
Proof. intros C L b H. eapply dear_imp; [apply C; lia|]. cbn. intros. lia. Qed.
Lemma costs_done {A} (o : out A) : costs 0 (Done o). Proof. intros b _. cbn. lia. Qed.
Lemma costs_done' {A} x (o : out A) : 0 <= x -> costs x (Done o). Proof. intros L. eapply costs_more; [apply costs_done|exact L]. Qed.
Lemma costs_bind {A B} x y z (m : task A) (f : A -> task B) : costs x m -> (forall a, costs y (f a)) -> 0 <= y -> x + y <= z -> costs z (tbind m f).
Proof.
  intros M F L1 L2 b H. apply dear_bind. eapply dear_imp; [apply M; lia|]. cbn. intros d [a|e|s] D; [|lia..].
  eapply dear_imp; [apply F; lia|]. cbn. intros. lia.
Qed.
Lemma costs_catch {A} x y z (m : task A) p h : costs x m -> (forall e, costs y (h e)) -> 0 <= y -> x + y <= z -> costs z (tcatch m p h).
Proof.
  intros M F L1 L2 b H. apply dear_catch. eapply dear_imp; [apply M; lia|]. cbn. intros d [a|e|s] D; [lia| |lia]. destruct (p e); [|lia].
  eapply dear_imp; [apply F; lia|]. cbn. intros. lia.
Qed.
Lemma costs_get {A B} x (f : world -> A) (k : A -> task B) : (forall a, costs x (k a)) -> costs x (tbind (tget f) k).
Proof. intros K b H w W. apply K, H. Qed.
Lemma costs_look {A B} x (f : world -> A) (k : A -> task B) : (forall w, few w -> costs x (k (f w))) -> costs x (tbind (tget f) k).
Proof. intros K b H w W. apply K; assumption. Qed.
Lemma costs_lift {A B} x (a : res A) (k : A -> task B) : 0 <= x -> (forall a, costs x (k a)) -> costs x (tbind (tlift a) k).
Proof. intros L K. destruct a; [apply K|apply costs_done', L]. Qed.
Lemma costs_lift1 {A} (a : res A) : costs 0 (tlift a). Proof. destruct a; apply costs_done. Qed.
Lemma costs_if {A} x (c : bool) (m1 m2 : task A) : costs x m1 -> costs x m2 -> costs x (if c then m1 else m2). Proof. destruct c; auto. Qed.
Lemma costs_do f : (forall w, w_retries (f w) = w_retries w) -> costs 0 (tdo f).
Proof. intros F b _. split; [intros w; split; [reflexivity|apply F]|]. cbn. lia. Qed.
Lemma costs_emit e : timer e = 0 -> costs 0 (temit e).
Proof. intros T b _. split; [intros w; cbn; split; [lia|reflexivity]|]. cbn. lia. Qed.
Lemma costs_decode m : costs 0 (tdecode m).
Proof. intros b _ w _. destruct (m (w_data w)) as [d [x|e]]; (split; [intros; split; reflexivity|]); cbn; lia. Qed.
Lemma costs_sleep ms : costs ms (tsleep ms).
Proof. intros b H. split; [exact H|]. intros k. cbn [timer refund]. destruct k; cbn; lia. Qed.
(** after [m ;; k], with nothing left to spend *)
Lemma costs_then {A B} x (m : task A) (f : A -> task B) : costs x m -> (forall a, costs 0 (f a)) -> costs x (tbind m f).
Proof. intros M F. eapply costs_bind; [exact M|exact F|lia|lia]. Qed.
Lemma costs_first {A B} x (m : task A) (f : A -> task B) : costs 0 m -> (forall a, costs x (f a)) -> 0 <= x -> costs x (tbind m f).
Proof. intros M F L. eapply costs_bind; [exact M|exact F|lia|lia]. Qed.
Lemma costs_Do {A} x f (m : task A) : (forall w, timers (fst (f w)) = 0 /\ w_retries (snd (f w)) = w_retries w) -> costs x m -> costs x (Do f m).
Proof. intros F M b H. split; [exact F|apply M, H]. Qed.
Ltac cs := first [apply costs_done | apply costs_lift1 | apply costs_emit; reflexivity | apply costs_decode | apply costs_do; reflexivity | apply costs_done'; lia].

(** the loop of a request *)
Fixpoint loop_cost (left : nat) (att : Z) : Z :=
  match left with O => 0 | S l => 2000 + match l with O => 0 | S _ => 1000 * (att + 1) + loop_cost l (att + 1) end end.
Lemma loop_cost_is left : forall att, 0 <= att -> loop_cost (S left) att = 2000 * Z.of_nat (S left) + 500 * Z.of_nat left * (2 * att + 1 + Z.of_nat left).
Proof.
  induction left as [|left IH]; intros att H; [cbn; lia|]. cbn [loop_cost] in *. rewrite IH by lia. rewrite !Nat2Z.inj_succ. lia.
Qed.
Lemma loop_cost_nonneg left : forall att, 0 <= att -> 0 <= loop_cost left att.
Proof. intros att H. destruct left as [|left]; [cbn; lia|]. rewrite loop_cost_is by exact H. nia. Qed.
Lemma c_loop X p c mr : forall left att, 0 <= att -> Z.of_nat left + att = mr + 1 -> costs (loop_cost left att) (trequest_loop left att mr c X p).
Proof.
  induction left as [|left IH]; intros att H E; cbn [trequest_loop]; [cbn [loop_cost]; cs|].
  set (x := loop_cost (S left) att). pose proof (loop_cost_nonneg (S left) att H) as X0. fold x in X0.
  assert (F : forall e, costs (x - 2000) (if att =? mr then traise e else tsleep (1000 * (COM_RETRY_WAIT * (att + 1))) ;;; trequest_loop left (att + 1) mr c X p)).
  { intros e. destruct (Z.eqb_spec att mr) as [->|N].
    - apply costs_done'. unfold x. destruct left; [cbn; lia|]. lia.
    - destruct left as [|left]; [lia|]. unfold x. cbn [loop_cost]. eapply costs_bind; [apply costs_sleep|intros _; apply IH; lia|apply loop_cost_nonneg; lia|].
      unfold COM_RETRY_WAIT. cbn [loop_cost]. lia. }
  assert (X2 : 0 <= x - 2000).
  { unfold x. cbn [loop_cost]. destruct left; [lia|]. pose proof (loop_cost_nonneg (S left) (att + 1) ltac:(lia)). lia. }
  assert (C : costs 0 (up <- tget (connected c) ;; if up then tret (@None bytes) else traise ESLConnection)) by (apply costs_get; intros a; apply costs_if; cs).
  apply costs_get. intros up. destruct up; cbn [negb]; [|cs]. apply costs_get. intros q. destruct (c_closing q); [eapply costs_more; [exact C|lia]|].
  eapply costs_first; [|intros _|lia].
  - apply costs_get. intros q'. destruct (c_open q'); [|cs]. apply costs_lift; [lia|]. intros _. cs.
  - intros b HB. split; [cbn; unfold COM_TIMEOUT; lia|].
    assert (Fin : forall k (m : task (option bytes)), costs (x - 2000) m -> dear (b - timer (AwaitReply c (1000 * COM_TIMEOUT)) + refund (AwaitReply c (1000 * COM_TIMEOUT)) k) m (fun d _ => b - x <= d)).
    { intros k m M. cbn [timer refund]. unfold COM_TIMEOUT. eapply dear_imp; [apply M; lia|]. cbn. intros. lia. }
    assert (D : forall (o : out (option bytes)), costs (x - 2000) (Done o)) by (intros o; cs).
    intros k. destruct k; cbn [tret tbind]; apply Fin; try apply F; try apply D; try (eapply costs_more; [exact C|lia]);
      repeat (first [apply F | apply D | match goal with |- context [if ?x then _ else _] => destruct x end]).
Qed.
Lemma question_mono a b : 0 <= a <= b -> question a <= question b. Proof. unfold question. nia. Qed.
Lemma question_loop mr : 0 <= mr -> loop_cost (Z.to_nat (mr + 1)) 0 = question mr.
Proof.
  intros H. replace (Z.to_nat (mr + 1)) with (S (Z.to_nat mr)) by lia. rewrite loop_cost_is by lia. unfold question. rewrite Nat2Z.inj_succ, !Z2Nat.id by lia. lia.
Qed.
Lemma c_request X p c mr : 0 <= mr -> costs (question mr) (tmake_request c X p mr).
Proof. intros H. rewrite <- question_loop by exact H. apply c_loop; lia. Qed.
Lemma q0 : 0 <= question 0. Proof. unfold question. lia. Qed.
Lemma c_data X p dec mr c : 0 <= mr -> costs (question mr) (tdata_request X p dec mr c).
Proof. intros H. apply costs_then; [apply c_request, H|]. intros a. destruct (nonempty a); [|cs]. apply costs_then; [cs|intros _; cs]. Qed.
Lemma c_version mr c : 0 <= mr -> costs (question mr) (trequest_gateway_version mr c). Proof. intros H. apply costs_get. intros fl. apply c_data, H. Qed.
Lemma q_nonneg mr : 0 <= mr -> 2000 <= question mr. Proof. unfold question. nia. Qed.
Lemma c_pump i mr c : 0 <= mr -> costs (question mr) (trequest_pump_status i mr c).
Proof. intros H. apply costs_lift; [pose proof (q_nonneg mr H); lia|]. intros p. apply c_data, H. Qed.
Lemma c_date mr c : 0 <= mr -> costs (question mr) (trequest_date_time mr c).
Proof. intros H. apply costs_then; [apply c_request, H|]. intros a. destruct (nonempty a); [|cs]. apply costs_get. intros now. apply costs_then; [cs|intros _; cs]. Qed.
Lemma c_command_request X p mr c : 0 <= mr -> costs (question mr) (tcommand_request X p mr c).
Proof. intros H. apply costs_lift; [pose proof (q_nonneg mr H); lia|]. intros q. apply costs_then; [apply c_request, H|]. intros [[|]|]; cs. Qed.
Lemma c_m_proto : costs 0 tm_proto_or_fail. Proof. apply costs_get. intros [c|]; cs. Qed.
Lemma c_proto : costs 0 tproto_or_fail. Proof. apply costs_get. intros [c|]; cs. Qed.
Lemma lose_retries c w : timers (fst (lose c w)) = 0 /\ w_retries (snd (lose c w)) = w_retries w.
Proof. unfold lose. destruct (connected c w); [destruct (w_cb w)|]; split; reflexivity. Qed.
Lemma c_close c force : costs 0 (tasync_close c force).
Proof.
  apply costs_first; [cs| |lia]. intros _.
  assert (K : costs 0 (q <- tget (get_conn c) ;;
      (if c_open q then temit (CloseTransport c) ;;; tdo (mark_shut c) else tret tt) ;;;
      still <- tget (connected c) ;;
      if negb still then tret tt
      else
        r2 <- twait (AwaitClosed c) ;;
        match r2 with
        | KDone => Do (lose c) (tret tt)
        | KCancelTask => traise ECancelled
        | _ => tstuck Unfit
        end)).
  { apply costs_get. intros q. apply costs_first; [|intros _|lia].
    - destruct (c_open q); [|cs]. apply costs_then; [cs|]. intros _. cs.
    - apply costs_get. intros still. destruct still; cbn [negb]; [|cs]. intros b H. split; [cbn; lia|]. intros k. cbn [timer refund].
      destruct k; cbn [tret tbind dear traise tstuck]; try lia. split; [apply lose_retries|]. lia. }
  intros b H. split; [cbn; lia|]. intros k. cbn [timer refund]. replace (b - 0 + 0) with b by lia. destruct k; cbn [tret tbind]; try (apply K; exact H); cbn; lia.
Qed.
Lemma c_remove : costs 2000 tremove_client.
Proof.
  eapply (costs_catch 2000 0); [|intros; cs|lia|lia]. apply costs_first; [apply c_m_proto|intros c|lia]. apply costs_get. intros id. exact (c_command_request _ _ 0 _ (Z.le_refl 0)).
Qed.
Lemma c_lock {A} x (m : task A) : costs x m -> 0 <= x -> costs x (twith_lock m).
Proof. intros M X b H. split; [apply dear_finally; [reflexivity|]; apply M, H|]. cbn. lia. Qed.
Lemma c_unsubscribe : costs 2000 tunsubscribe_gateway.
Proof.
  apply costs_get. intros a. apply costs_if; [cs|]. apply c_lock; [|lia]. apply costs_get. intros x. apply costs_if; [|cs].
  apply costs_first; [cs|intros _|lia]. apply costs_first; [apply c_m_proto|intros c|lia]. do 2 (apply costs_first; [cs|intros _|lia]). apply c_remove.
Qed.
Lemma c_disconnect force : costs 2000 (tasync_disconnect force).
Proof.
  apply costs_get. intros b. apply costs_then; [apply costs_if; [apply c_unsubscribe|cs]|]. intros _. apply costs_first; [apply c_proto|intros c|lia]. apply c_close.
Qed.

(** connecting: who gets a connection has spent nothing of his own, who does not the attempt *)
Definition connects (m : task bool) : Prop := forall b, 2000 <= b -> dear b m (fun d o => match o with Val _ => b <= d | _ => b - 2000 <= d end).
Lemma c_attempt {A} connect (method : Z -> nat -> task A) mr : connects connect -> 0 <= mr <= r -> (forall mr c, 0 <= mr -> costs (question mr) (method mr c)) ->
  costs (question r) (tattempt_request connect method mr).
Proof.
  intros C MR M b H. pose proof (question_mono mr r MR) as QM. pose proof (q_nonneg mr ltac:(lia)) as Q0. apply dear_bind. eapply dear_imp; [apply C; lia|]. cbn. intros d [ok|e|s] D; [|lia..].
  assert (K : costs (question r) (if negb ok then traise EAttribute else c <- tproto_or_fail ;; method mr c)).
  { apply costs_if; [cs|]. apply costs_first; [apply c_proto|intros c|lia]. eapply costs_more; [apply M; lia|exact QM]. }
  eapply dear_imp; [apply K; lia|]. cbn. intros. lia.
Qed.
Lemma r_nonneg : 2000 <= question r. Proof. apply q_nonneg. lia. Qed.
Lemma c_connected {A} connect (method : Z -> nat -> task A) delay : connects connect -> 0 <= delay -> (forall mr c, 0 <= mr -> costs (question mr) (method mr c)) ->
  costs (command r (1000 * delay)) (tconnected_request connect method delay).
Proof.
  intros C D M. pose proof r_nonneg as Q0. apply costs_look. intros w (W1 & W2).
  eapply (costs_catch (question r) (2000 + 1000 * delay + question r)); [apply c_attempt; [exact C|lia|exact M]| |lia|unfold command; lia].
  intros e. eapply (costs_bind 2000 (1000 * delay + question r)); [apply c_disconnect|intros _|lia|lia].
  eapply (costs_bind (1000 * delay) (question r)); [apply costs_sleep|intros _; apply c_attempt; [exact C|lia|exact M]|lia|lia].
Qed.
Lemma c_subscribe connect : connects connect -> costs (command r 0) (tsubscribe_gateway connect).
Proof.
  intros C. assert (Z0 : 0 <= command r 0) by (pose proof r_nonneg; unfold command; lia).
  apply costs_get. intros a. apply costs_if; [cs|]. apply c_lock; [|lia]. apply costs_get. intros x. apply costs_if; [|cs]. apply costs_get. intros id.
  apply costs_then; [apply (c_connected connect _ 0); [exact C|lia|intros; apply c_command_request; assumption]|]. intros _. apply costs_then; [cs|]. intros _.
  apply costs_then; [apply c_m_proto|]. intros c. cs.
Qed.
Lemma fold_retries c l : forall w, w_retries (fold_left (fun w code => register c code (HClient code) w) l w) = w_retries w.
Proof. induction l as [|x l IH]; intros w; cbn [fold_left]; [reflexivity|]. rewrite IH. reflexivity. Qed.
Lemma c_attach connect c mr : connects connect -> costs (command r 0) (tattach connect c mr).
Proof.
  intros C. assert (Z0 : 0 <= command r 0) by (pose proof r_nonneg; unfold command; lia).
  apply costs_first; [cs|intros _|lia]. apply costs_get. intros need. apply costs_if; [|cs].
  apply costs_first; [cs|intros _|lia]. apply costs_first; [apply costs_do; intros w; apply fold_retries|intros _|lia]. apply c_subscribe, C.
Qed.
Lemma c_poll connect key_ m : connects connect -> (forall mr c, 0 <= mr -> costs (question mr) (m mr c)) -> costs (command r 1000) (tpoll connect key_ m).
Proof. intros C M. apply costs_then; [apply (c_connected connect _ 1); [exact C|lia|exact M]|]. intros [x|]; cs. Qed.
Lemma c_challenge c mr : 0 <= mr <= r -> costs (250 + question r) (tgateway_connect c mr).
Proof.
  intros H. pose proof (question_mono mr r H) as QM. pose proof (q_nonneg mr ltac:(lia)) as Q0.
  apply costs_get. intros q. apply costs_first; [apply costs_if; cs|intros _|lia].
  eapply (costs_bind 250 (question r)); [apply costs_sleep|intros _|lia|lia].
  apply costs_get. intros up. apply costs_if; [cs|]. eapply costs_more; [|exact QM]. apply costs_then; [apply c_request; lia|]. intros [x|]; cs.
Qed.
Lemma c_login c mr : 0 <= mr <= r -> costs (question r) (tgateway_login c mr).
Proof.
  intros H. pose proof (question_mono mr r H) as QM. pose proof (q_nonneg mr ltac:(lia)) as Q0. apply costs_lift; [lia|]. intros m. eapply costs_more; [|exact QM]. apply costs_then; [apply c_request; lia|]. intros x; cs.
Qed.
Lemma costs_val {A} x (m : task A) (Q : Z -> out A -> Prop) : costs x m -> forall b, x <= b -> (forall d o, b - x <= d -> Q d o) -> dear b m Q.
Proof. intros C b H K. eapply dear_imp; [apply C, H|]. cbn. auto. Qed.
Lemma c_connect : forall n x, connects (tasync_connect n x).
Proof.
  induction n as [|n IH]; intros x b H; [cbn; lia|]. cbn [tasync_connect]. intros w (W1 & W2). cbn [tret tbind]. destruct (is_connected w); [cbn; lia|].
  cbn [tdo tret tbind]. split; [intros; split; reflexivity|]. cbn [tret tbind]. intros w1 F1. cbn [tret tbind]. destruct (no_address w1); [cbn; lia|].
  intros w2 F2. cbn [tret tbind]. intros w3 F3. cbn [tret tbind]. intros w4 F4. cbn [tret tbind].
  unfold tconnect_to_gateway, tcreate_connection. cbn [tbind twait]. split; [cbn; unfold COM_TIMEOUT; lia|]. intros k.
  pose proof r_nonneg as Q0. assert (MR : 0 <= w_retries w4 <= r) by (destruct F4; lia).
  destruct k; cbn [tret tbind traise tstuck dear timer refund]; unfold COM_TIMEOUT; try lia.
  intros w5 F5. cbn [tret tbind].
  match goal with |- dear ?b0 ?m ?Q => assert (K : costs (250 + 3 * question r + command r 1000 + command r 0) m); [|eapply costs_val; [exact K|unfold connecting; lia|intros d [y|y|y] D; unfold connecting in D; lia]] end.
  set (c := pred (List.length (w_conns w5))). clearbody c.
  eapply (costs_bind (250 + 2 * question r) (question r + command r 1000 + command r 0)); [| |unfold command; lia|lia].
  - eapply (costs_bind (250 + question r) (question r)); [apply c_challenge, MR| |lia|lia]. intros mac. apply costs_then; [apply c_login, MR|]. intros ok. cs.
  - assert (P1 : 0 <= command r 1000 /\ 0 <= command r 0) by (unfold command; lia).
    intros [[c1 mac]|]; [|cs]. apply costs_Do; [intros; split; reflexivity|]. cbn [tbind tret]. apply costs_look. intros w6 F6.
    assert (MR6 : 0 <= w_retries w6 <= r) by (destruct F6; lia).
    eapply (costs_bind (question r) (command r 1000 + command r 0)); [eapply costs_more; [apply c_version; lia|apply question_mono, MR6]|intros v|lia|lia].
    apply costs_Do; [intros; split; reflexivity|]. cbn [tbind tret]. apply costs_get. intros d. apply costs_if; [|cs].
    eapply (costs_bind (command r 1000) (command r 0)); [apply c_poll; [apply IH|intros; apply c_data; assumption]|intros _|lia|lia].
    apply costs_first; [apply c_proto|intros c2|lia]. apply costs_get. intros mr2. apply costs_then; [apply c_attach, IH|]. intros _. cs.
Qed.
Lemma c_command {A} n (method : Z -> nat -> task A) : (forall mr c, 0 <= mr -> costs (question mr) (method mr c)) -> costs (command r 0) (tcommand n method 0).
Proof. intros M. apply (c_connected _ _ 0); [apply c_connect|lia|exact M]. Qed.
Lemma c_get_poll n key_ m : (forall mr c, 0 <= mr -> costs (question mr) (m mr c)) -> costs (command r 1000) (tget_poll n key_ m).
Proof. intros M. apply c_poll; [apply c_connect|exact M]. Qed.
Lemma c_setting n X p : costs (command r 0) (tcommand n (tcommand_request X p) 0).
Proof. apply c_command. intros. apply c_command_request. assumption. Qed.
Lemma pumps_retries w : w_retries (pumps_entry w) = w_retries w. Proof. unfold pumps_entry. repeat match goal with |- context [match ?x with _ => _ end] => destruct x end; reflexivity. Qed.
Lemma pump_retries i b w : w_retries (store_pump i b w) = w_retries w. Proof. unfold store_pump. repeat match goal with |- context [match ?x with _ => _ end] => destruct x end; reflexivity. Qed.
Lemma cmd_nonneg p : 0 <= p -> 0 <= command r p. Proof. pose proof r_nonneg. unfold command. lia. Qed.
Lemma c_pumps n : forall ids, costs (Z.of_nat (List.length ids) * command r 1000) (tpumps_loop n ids).
Proof.
  pose proof (cmd_nonneg 1000 ltac:(lia)) as P1.
  induction ids as [|i ids IH]; cbn [tpumps_loop]; [cs|]. set (z := Z.of_nat (List.length (i :: ids)) * command r 1000).
  assert (E : command r 1000 + Z.of_nat (List.length ids) * command r 1000 = z) by (unfold z; cbn [List.length]; lia). assert (Z0 : 0 <= Z.of_nat (List.length ids) * command r 1000) by nia.
  apply costs_get. intros f. apply costs_lift; [lia|]. intros flags.
  eapply costs_bind; [|intros _; exact IH|exact Z0|rewrite E; apply Z.le_refl]. apply costs_if; [cs|]. apply costs_first; [apply costs_do, pumps_retries|intros _|lia].
  apply costs_then; [apply (c_connected _ _ 1); [apply c_connect|lia|intros; apply c_pump; assumption]|]. intros [x|]; [apply costs_do, pump_retries|cs].
Qed.
Lemma c_require x : costs 0 (trequire x). Proof. apply costs_lift; [lia|]. intros ok. destruct ok; cs. Qed.
Lemma c_perform n c : (forall k, c <> SetMaxRetries k) -> costs (longest r c) (tperform n c).
Proof.
  intros NS. pose proof (cmd_nonneg 0 ltac:(lia)) as P0. pose proof (cmd_nonneg 1000 ltac:(lia)) as P1.
  destruct c; cbn [tperform longest];
    try (apply c_get_poll; intros; first [apply c_data; assumption|apply c_date; assumption]; fail);
    try (repeat match goal with
         | |- costs _ (tbind (tget _) _) => apply costs_get; intros ?
         | |- costs _ (tbind (trequire _) _) => apply costs_first; [apply c_require|intros _|exact P0]
         | |- costs _ (tbind (tlift _) _) => apply costs_lift; [exact P0|intros ?]
         | x : _ * _ |- _ => destruct x
         end; apply c_setting; fail).
  - intros b H. apply dear_bind. eapply dear_imp; [apply c_connect, H|]. cbn. intros d [y|y|y] D; lia.
  - apply c_disconnect.
  - exact (c_pumps n [0; 1; 2; 3; 4; 5; 6; 7]).
  - unfold tasync_update. apply costs_get. intros d. destruct d; [cs|].
    eapply (costs_bind (command r 1000) (11 * command r 1000)); [apply c_get_poll; intros; apply c_data; assumption|intros _|lia|lia].
    eapply (costs_bind (8 * command r 1000) (3 * command r 1000)); [exact (c_pumps n [0; 1; 2; 3; 4; 5; 6; 7])|intros _|lia|lia].
    eapply (costs_bind (command r 1000) (2 * command r 1000)); [apply c_get_poll; intros; apply c_data; assumption|intros _|lia|lia].
    eapply (costs_bind (command r 1000) (command r 1000)); [apply c_get_poll; intros; apply c_data; assumption|intros _|lia|lia].
    apply c_get_poll; intros; apply c_date; assumption.
  - destruct (NS k eq_refl).
  - apply costs_then; [apply c_command; intros; apply c_request; assumption|intros; cs].
  - apply costs_get. intros [c|]; cs.
  - apply costs_get. intros [c|]; cs.
  - unfold tasync_subscribe_client. apply costs_then; [|intros; cs]. apply costs_get. intros a. apply costs_if; [cs|].
    apply costs_first; [cs|intros _|lia]. apply costs_first; [apply c_m_proto|intros c|lia]. apply costs_first; [cs|intros _|lia]. apply costs_get. intros need.
    apply costs_then; [apply costs_if; [apply c_subscribe, c_connect|cs]|]. intros _. cs.
  - unfold tremove_subscription. apply costs_get. intros on. apply costs_if; [cs|]. apply costs_first; [cs|intros _|lia].
    apply costs_get. intros more. apply costs_get. intros a. apply costs_if; [|cs]. apply costs_first; [apply c_m_proto|intros c|lia]. cs.
  - apply c_unsubscribe.
  - unfold tasync_ping. eapply (costs_catch 2000 0); [|intros; cs|lia|lia]. apply costs_first; [apply c_m_proto|intros c|lia]. exact (c_command_request _ _ 0 _ (Z.le_refl 0)).
Qed.
End Time.

(** * the budget along a path *)
Definition pending {A} (m : task A) : Z := match m with Wait e _ => timer e | _ => 0 end.
Lemma timers_app a b : timers (a ++ b) = timers a + timers b.
Proof. unfold timers. induction a as [|x a IH]; [cbn; lia|]. cbn [app fold_right]. rewrite IH. lia. Qed.
Lemma advance_dear {A} r (m : task A) : forall Q b w t w' m', dear r b m Q -> few r w -> advance m w = (t, w', m') -> dear r b m' Q /\ timers t = pending m'.
Proof.
  induction m as [o|f IH|f m IH|e f IH|m IH xx IHx]; intros Q b w t w' m' D F E; cbn [advance dear] in *.
  - injection E as <- _ <-. split; [exact D|reflexivity].
  - exact (IH w Q b w t w' m' (D w F) F E).
  - destruct D as (D1 & D2). specialize (D1 w). destruct (f w) as [t1 w1] eqn:FW. cbn [fst snd] in D1. destruct D1 as (T1 & R1).
    destruct (advance m w1) as [[t2 w2] m2] eqn:A2. injection E as <- _ <-.
    destruct (IH Q b w1 t2 w2 m2 D2) as (X & Y); [unfold few in *; lia|exact A2|]. split; [exact X|]. rewrite timers_app. lia.
  - injection E as <- _ <-. split; [exact D|]. cbn. lia.
  - destruct (m_locked (w_cm w)); [injection E as <- _ <-; split; [exact D|reflexivity]|].
    destruct D as (D & _). eapply IH; [exact D| |exact E]. exact F.
Qed.
Lemma connecting_nonneg r : 0 < r -> 0 <= connecting r.
Proof. intros R. pose proof (r_nonneg r R). unfold connecting, command. lia. Qed.
Lemma path_dear r {A} (m : task A) x w0 t m' : 0 < r -> path (few r) m w0 t m' -> few r w0 -> costs r x m -> 0 <= x ->
  exists b, 0 <= b /\ dear r b m' (fun d _ => 0 <= d) /\ timers t - pending m' + b <= x + connecting r * Z.of_nat (completed t).
Proof.
  intros R T F C X0. pose proof (connecting_nonneg r R) as CN. induction T as [t w' m' E|t e k kd clk w t' w' m' T IH FT J E|t k x' w t' w' m' T IH J E|t k x' clk w t' w' m' T IH J E].
  - destruct (advance_dear r m (fun d _ => x - x <= d) x w0 t w' m' (C x (Z.le_refl x)) F E) as (D & P). exists x. split; [exact X0|].
    split; [eapply dear_imp; [exact D|cbn; intros; lia]|]. rewrite P. nia.
  - destruct IH as (b & B0 & D & L). cbn [dear pending] in D, L. destruct D as (D1 & D2). specialize (D2 kd).
    assert (F' : few r (set_clock clk (opened_by e kd w))) by (unfold few, opened_by in *; destruct e; try exact J; destruct kd; exact J).
    destruct (advance_dear r _ _ _ _ _ _ _ D2 F' E) as (D & P). exists (b - timer e + refund r e kd).
    assert (RN : 0 <= refund r e kd) by (unfold refund; destruct e; try lia; destruct kd; lia).
    split; [lia|]. split; [exact D|]. rewrite timers_app. cbn [timers fold_right timer]. fold (timers t'). rewrite P.
    assert (CC : refund r e kd + connecting r * Z.of_nat (completed t) <= connecting r * Z.of_nat (completed (t ++ Got (mkResp kd [] None clk) :: t'))).
    { pose proof (completed_le t (Got (mkResp kd [] None clk) :: t')) as CL.
      assert (S0 : 0 + connecting r * Z.of_nat (completed t) <= connecting r * Z.of_nat (completed (t ++ Got (mkResp kd [] None clk) :: t'))) by nia.
      unfold refund. destruct e; try exact S0. destruct kd; try exact S0.
      destruct (path_ends _ _ _ _ _ T _ _ eq_refl) as (y & ->). pose proof (completed_open y ip port ms (mkResp KDone [] None clk) t' eq_refl) as C2. nia. }
    lia.
  - destruct IH as (b & B0 & D & L). destruct (advance_dear r _ _ _ _ _ _ _ D J E) as (D' & P). exists b. split; [exact B0|]. split; [exact D'|].
    cbn [pending] in L. rewrite timers_app, P. pose proof (completed_le t t') as CL. nia.
  - destruct IH as (b & B0 & D & L). destruct (advance_dear r _ _ _ _ _ _ _ (proj2 D) (J : few r (set_clock clk w)) E) as (D' & P). exists b. split; [exact B0|]. split; [exact D'|].
    cbn [pending] in L. rewrite timers_app. cbn [timers fold_right timer]. fold (timers t'). rewrite P. pose proof (completed_le t (Got (mkResp KCancelTask [] None clk) :: t')) as CL. nia.
Qed.
Lemma longest_nonneg r c : 0 < r -> 0 <= longest r c.
Proof. intros R. pose proof (cmd_nonneg r R 0 ltac:(lia)). pose proof (cmd_nonneg r R 1000 ltac:(lia)). destruct c; cbn [longest]; lia. Qed.
Lemma retries_path U n k w0 t m : path U (tperform n (SetMaxRetries k)) w0 t m -> t = [] /\ exists o, m = Done o.
Proof.
  intros T. induction T as [t w' m' E|t e f kd clk w t' w' m' T IH FT J E|t f x w t' w' m' T IH J E|t f x clk w t' w' m' T IH J E].
  - cbn [tperform] in E. destruct (_ && _); cbn in E; injection E as <- _ <-; eauto.
  - destruct IH as (_ & o & IH). discriminate IH.
  - destruct IH as (_ & o & IH). discriminate IH.
  - destruct IH as (_ & o & IH). discriminate IH.
Qed.
Lemma path_time r n c w0 t m : 0 < r -> path (few r) (tperform n c) w0 t m -> few r w0 -> timers t <= longest r c + connecting r * Z.of_nat (completed t).
Proof.
  intros R T F. assert (K : (exists k, c = SetMaxRetries k) \/ forall k, c <> SetMaxRetries k) by (destruct c; eauto; right; discriminate).
  destruct K as [(k & ->)|NS].
  - destruct (retries_path _ _ _ _ _ _ T) as (-> & _). cbn. lia.
  - destruct (path_dear r _ (longest r c) _ _ _ R T F (c_perform r R n c NS) (longest_nonneg r c R)) as (b & B0 & D & L).
    destruct m; cbn [pending dear] in *; try lia; destruct D; lia.
Qed.

(** the path of a call, through worlds with [U] *)
Lemma call_path_U (U : world -> Prop) n P0 c eb : within P0 -> (forall e1 e2, Call c :: eb = e1 ++ e2 -> U (p_world (prun n P0 e1))) ->
  travels U n c (p_world P0) (List.length (p_tasks P0)) (prun n P0 (Call c :: eb)).
Proof.
  intros W H. induction eb as [|e eb IH] using rev_ind.
  - change (prun n P0 [Call c]) with (pstep n P0 (Call c)). destruct P0 as [w ts g]. cbn [pstep p_world p_tasks p_log] in *. destruct (advance (tperform n c) w) as [[t w'] m] eqn:A. exists m. cbn [p_tasks p_log].
    split; [rewrite nth_error_app2, Nat.sub_diag by lia; reflexivity|].
    change (Started (List.length ts) c (w_data w) :: map (By (List.length ts)) t) with ([Started (List.length ts) c (w_data w)] ++ map (By (List.length ts)) t).
    rewrite !own_app, own_by. pose proof (within_own _ (List.length ts) W (Nat.le_refl _)) as E. cbn [p_log] in E. rewrite E. cbn [own flat_map app].
    eapply path_start. exact A.
  - replace (prun n P0 (Call c :: eb ++ [e])) with (pstep n (prun n P0 (Call c :: eb)) e) by (unfold prun; rewrite app_comm_cons, fold_left_app; reflexivity).
    apply travels_step; [apply (H (Call c :: eb) [e]); reflexivity|]. apply IH. intros e1 e2 E. apply (H e1 (e2 ++ [e])). rewrite app_assoc, <- E. reflexivity.
Qed.
