(** C125, C126: pushed messages, while other calls run: the order in which they are dealt with,
    and who is told. *)
From Verif Require Import Py F64 Struct Utf Utility Const Spec Enum Decode Messages Calls World Request Gateway Traces Paths Api Tasks Pool SpecPool
  P_Base P_Pool P_Moves P_Tune Hostile Prop_Request Prop_Gateway Prop_Connect Prop_Pool SpecTold.
From Verif Require Client Prop_Decode Prop_Keep.

(** * the order *)
Lemma came_app a b : came_in (a ++ b) = came_in a ++ came_in b. Proof. apply flat_map_app. Qed.
Lemma dealt_app a b : dealt_with (a ++ b) = dealt_with a ++ dealt_with b. Proof. apply flat_map_app. Qed.
Lemma due_eq g : due g = skipn (List.length (dealt_with g)) (came_in g). Proof. reflexivity. Qed.
Lemma by_none i t : came_in (map (By i) t) = [] /\ dealt_with (map (By i) t) = [].
Proof. induction t; auto. Qed.
Lemma env_none t : came_in (map Env t) = [] /\ dealt_with (map Env t) = [].
Proof. induction t; auto. Qed.
(** one step: what it adds to the log *)
Lemma step_adds n P e : exists new, p_log (pstep n P e) = p_log P ++ new /\
  match e with
  | Handle => (due (p_log P) = [] /\ new = []) \/ exists c code b l cbs, due (p_log P) = (c, code, b) :: l /\ new = [Applied c code b cbs]
  | _ => dealt_with new = []
  end.
Proof.
  assert (Z : forall Q : log -> Prop, Q [] -> exists new, p_log P = p_log P ++ new /\ Q new) by (intros Q H; exists []; split; [symmetry; apply app_nil_r|exact H]).
  destruct e; [cbn [pstep]..|].
  - destruct (advance _ _) as [[t w'] m]. eexists. split; [reflexivity|]. exact (proj2 (by_none _ t)).
  - destruct (nth_error (p_tasks P) i) as [[ | | |x f|f y]|]; try (apply Z; reflexivity).
    + destruct (fits x k); [|apply Z; reflexivity]. destruct (advance _ _) as [[t w'] m]. eexists. split; [reflexivity|]. exact (proj2 (by_none _ t)).
    + destruct k; try (apply Z; reflexivity). destruct (advance _ _) as [[t w'] m]. eexists. split; [reflexivity|]. exact (proj2 (by_none _ t)).
  - destruct (nth_error (p_tasks P) i) as [[ | | |x f|m y]|]; try (apply Z; reflexivity). destruct (advance _ _) as [[t w'] m']. eexists. split; [reflexivity|]. exact (proj2 (by_none _ t)).
  - destruct (lose c (p_world P)) as [t w']. eexists. split; [reflexivity|]. exact (proj2 (env_none t)).
  - destruct (handler_of c code (p_world P)) as [[]|]; try (apply Z; reflexivity). eexists. split; reflexivity.
  - destruct (due (p_log P)) as [|((c, code), b) l] eqn:D.
    + cbn [pstep]. rewrite D. apply Z. left. auto.
    + cbn [pstep]. rewrite D. destruct (handled code b (w_data (p_world P))) as [d r]. eexists. split; [reflexivity|]. right. exists c, code, b, l. eexists. split; reflexivity.
Qed.
Definition in_turn (g : log) : Prop := exists l, came_in g = dealt_with g ++ l.
Lemma turn_due g l : came_in g = dealt_with g ++ l -> due g = l.
Proof. intros E. rewrite due_eq, E, skipn_app, skipn_all, Nat.sub_diag. reflexivity. Qed.
Lemma turn_step n P e : in_turn (p_log P) -> in_turn (p_log (pstep n P e)).
Proof.
  intros (l & E). destruct (step_adds n P e) as (new & -> & K). unfold in_turn. rewrite came_app, dealt_app, E.
  destruct e; try (rewrite K, app_nil_r, <- app_assoc; eexists; reflexivity).
  destruct K as [(_ & ->)|(c & code & b & l' & cbs & D & ->)]; [rewrite !app_nil_r; eauto|].
  rewrite (turn_due _ _ E) in D. subst l. exists l'. cbn. rewrite app_nil_r, <- app_assoc. reflexivity.
Qed.
Lemma turn_run n w es : in_turn (p_log (prun n (start w) es)).
Proof.
  induction es as [|e es IH] using rev_ind; [exists []; reflexivity|]. unfold prun in *. rewrite fold_left_app. cbn [fold_left]. apply turn_step, IH.
Qed.
(** every point of the log is the log of a moment, or lies inside one step, which deals with at
    most one message and then adds nothing else *)
Lemma turn_prefix n w : forall es g1 g2, p_log (prun n (start w) es) = g1 ++ g2 -> in_turn g1.
Proof.
  intros es. induction es as [|e es IH] using rev_ind; intros g1 g2 E; [destruct g1; [exists []; reflexivity|discriminate E]|].
  pose proof (turn_run n w es) as (l & T). unfold prun in *. rewrite fold_left_app in E. cbn [fold_left] in E. fold (prun n (start w) es) in *.
  destruct (step_adds n (prun n (start w) es) e) as (new & L & K). rewrite L in E.
  assert (S : (exists x, p_log (prun n (start w) es) = g1 ++ x) \/ exists x, g1 = p_log (prun n (start w) es) ++ x /\ new = x ++ g2).
  { clear - E. revert g1 E. generalize (p_log (prun n (start w) es)) as a. induction a as [|y a IH]; intros g1 E; [right; exists g1; auto|].
    destruct g1 as [|z g1]; [left; exists (y :: a); reflexivity|]. cbn [app] in E. injection E as -> E. destruct (IH _ E) as [(x & ->)|(x & -> & H)]; [left|right]; exists x; auto. }
  destruct S as [(x & S)|(x & -> & ->)]; [eapply IH, S|]. unfold in_turn. rewrite came_app, dealt_app, T.
  destruct e; try (rewrite dealt_app in K; apply app_eq_nil in K; destruct K as (-> & _); rewrite app_nil_r, <- app_assoc; eexists; reflexivity).
  destruct K as [(_ & K)|(c & code & b & l' & cbs & D & K)].
  - apply app_eq_nil in K. destruct K as (-> & _). cbn. rewrite !app_nil_r. eauto.
  - destruct x as [|y [|z x]]; cbn [app] in K.
    + cbn. rewrite !app_nil_r. eauto.
    + injection K as -> _. rewrite (turn_due _ _ T) in D. subst l. cbn. exists l'. rewrite app_nil_r, <- app_assoc. reflexivity.
    + injection K as _ K. discriminate K.
Qed.

(** C125. At every point of every run the messages dealt with are the first of those that came,
    in the order in which they came, each once. *)
Theorem C125_in_turn n id mr rnd h es P g1 g2 : ran n id mr rnd h es = Some P -> p_log P = g1 ++ g2 ->
  exists waiting, came_in g1 = dealt_with g1 ++ waiting.
Proof.
  unfold ran. destruct (new_gateway id mr rnd [] h) as [w|]; [|discriminate]. intros R E. injection R as <-. eapply turn_prefix, E.
Qed.
Print Assumptions C125_in_turn.
Lemma grows n es : forall P, exists g, p_log (prun n P es) = p_log P ++ g.
Proof.
  induction es as [|e es IH]; intros P; [exists []; symmetry; apply app_nil_r|]. cbn [prun fold_left]. destruct (IH (pstep n P e)) as (g & E). destruct (step_adds n P e) as (new & E' & _).
  fold (prun n (pstep n P e) es). rewrite E, E', <- app_assoc. eauto.
Qed.
Lemma keeps_up n es : forall P, in_turn (p_log P) ->
  (Nat.min (List.length (came_in (p_log P))) (List.length (dealt_with (p_log P)) + handles es) <= List.length (dealt_with (p_log (prun n P es))))%nat.
Proof.
  induction es as [|e es IH]; intros P T; [cbn; lia|]. change (prun n P (e :: es)) with (prun n (pstep n P e) es). specialize (IH _ (turn_step n P e T)).
  destruct (step_adds n P e) as (new & G & K). rewrite G, came_app, dealt_app, !app_length in IH.
  assert (H : handles (e :: es) = ((match e with Handle => 1 | _ => 0 end) + handles es)%nat) by (unfold handles; cbn [filter]; destruct e; reflexivity). rewrite H.
  destruct e; try (rewrite K in IH; cbn [List.length] in IH; lia). destruct T as (l & T).
  destruct K as [(D & ->)|(c & code & b & l' & cbs & D & ->)]; cbn [List.length came_in dealt_with flat_map app] in IH; [|lia].
  rewrite (turn_due _ _ T) in D. subst l. rewrite app_nil_r in T. rewrite T in *. lia.
Qed.
(** ... and nothing keeps a message from its turn: whatever the other calls do (wait, hold the
    lock, fail, close the connection), it is dealt with when the loop has come back to the tasks
    made before it and to its own. *)
Theorem C125_served n id mr rnd h es P es' waiting : ran n id mr rnd h es = Some P ->
  came_in (p_log P) = dealt_with (p_log P) ++ waiting -> (List.length waiting <= handles es')%nat ->
  exists more, dealt_with (p_log (prun n P es')) = came_in (p_log P) ++ more.
Proof.
  unfold ran. destruct (new_gateway id mr rnd [] h) as [w|]; [|discriminate]. intros R E L. injection R as R.
  assert (T : in_turn (p_log P)) by (rewrite <- R; apply turn_run). assert (T' : in_turn (p_log (prun n P es'))) by (rewrite <- R; unfold prun; rewrite <- fold_left_app; apply (turn_run n w (es ++ es'))).
  pose proof (keeps_up n es' P T) as K. destruct (grows n es' P) as (g & G). destruct T' as (l & T'). rewrite G, came_app in T'. rewrite <- G in T'.
  rewrite E, app_length in K. assert (Le : (List.length (came_in (p_log P)) <= List.length (dealt_with (p_log (prun n P es'))))%nat) by (rewrite E, app_length; lia).
  clear - T' Le. revert T' Le. generalize (came_in (p_log P)) as a, (dealt_with (p_log (prun n P es'))) as b, (came_in g) as x. induction a as [|y a IH]; intros b x T' Le; [exists b; reflexivity|].
  destruct b as [|z b]; [cbn in Le; lia|]. cbn [app] in T'. injection T' as -> T'. cbn [List.length] in Le. destruct (IH b x T') as (more & ->); [lia|]. exists more. reflexivity.
Qed.
Print Assumptions C125_served.

(** * who is told *)
Definition same_listeners (w w' : world) : Prop := m_listeners (w_cm w') = m_listeners (w_cm w).
Lemma same_base : base same_listeners.
Proof.
  split; try (intros; reflexivity).
  - intros c w. unfold same_listeners. generalize (map fst (m_listeners (w_cm w))). intros l. revert w. induction l as [|x l IH]; intros w; cbn [fold_left]; [reflexivity|]. rewrite IH. reflexivity.
  - intros c w. unfold same_listeners, lose. destruct (connected c w); reflexivity.
  - intros w. unfold same_listeners, pumps_entry. destruct (din _ _); reflexivity.
  - intros i b w. unfold same_listeners, store_pump. destruct (dget K_PUMPS (w_last w)) as [[]|]; reflexivity.
Qed.
(** a task that subscribes and unsubscribes nobody *)
Definition mum (t : task unit) : Prop := tun same_listeners t.
Lemma advance_told (m : task unit) : forall w t w' m', mum m -> advance m w = (t, w', m') -> m_listeners (w_cm w') = m_listeners (w_cm w) /\ mum m'.
Proof.
  induction m as [o|f IH|f m IH|e f IH|m IH xx IHx]; intros w t w' m' S A; unfold mum in *; cbn [tun advance] in *.
  - injection A as _ <- <-. auto.
  - eapply IH in A; eauto.
  - destruct S as (S1 & S2). specialize (S1 w). destruct (f w) as [t1 w1]. destruct (advance m w1) as [[t2 w2] m2] eqn:A2. injection A as _ <- <-.
    eapply IH in A2; eauto. destruct A2 as (-> & K). auto.
  - injection A as _ <- <-. auto.
  - destruct (m_locked (w_cm w)); [injection A as _ <- <-; auto|]. destruct S as (S & _). eapply IH in A; eauto.
Qed.
(** what one step does to the subscriptions *)
Definition subscriptions (e : event) (w : world) : list (Z * list nat) :=
  let l := m_listeners (w_cm w) in
  match e with
  | Pool.Call (Subscribe cb code) => if attached w then add_listener code cb l else l
  | Pool.Call (Unsubscribe cb code) => if has_listener code cb l then drop_listener code cb l else l
  | _ => l
  end.
Lemma call_told n c w t w' m' : advance (tperform n c) w = (t, w', m') -> m_listeners (w_cm w') = subscriptions (Pool.Call c) w /\ mum m'.
Proof.
  assert (D : (forall cb code, c <> Subscribe cb code) -> (forall cb code, c <> Unsubscribe cb code) -> advance (tperform n c) w = (t, w', m') -> m_listeners (w_cm w') = subscriptions (Pool.Call c) w /\ mum m').
  { intros N1 N2 A. pose proof (st_plain _ same_base n c N1 N2) as S. destruct (advance_told _ _ _ _ _ S A) as (E & K). split; [|exact K]. rewrite E.
    destruct c; try reflexivity; [destruct (N1 _ _ eq_refl)|destruct (N2 _ _ eq_refl)]. }
  destruct c; try (apply D; discriminate); clear D; cbn [tperform subscriptions].
  - unfold tasync_subscribe_client. cbn [tbind tget advance]. destruct (attached w) eqn:At; cbn [negb tret tbind advance]; [|intros A; injection A as _ <- <-; split; [reflexivity|exact Logic.I]].
    unfold tdo at 1. cbn [tbind advance snd]. set (w1 := put_cm _ w). match goal with |- context [advance ?m w1] => assert (S : mum m) end.
    { unfold mum. apply tun_bind; [|intros; exact Logic.I]. apply tun_bind; [exact Logic.I|]. intros _. apply tun_bind; [apply st_m_proto|]. intros c.
      apply tun_bind; [apply st_do; intros w0; reflexivity|]. intros _. apply st_get. intros need.
      apply tun_bind; [apply st_if; [apply (st_subscribe _ same_base), (st_connect _ same_base)|exact Logic.I]|]. intros _. exact Logic.I. }
    match goal with |- context [advance ?m w1] => destruct (advance m w1) as [[t2 w2] m2] eqn:A2 end. intros A. injection A as _ <- <-.
    destruct (advance_told _ _ _ _ _ S A2) as (E & K). split; [exact E|exact K].
  - unfold tremove_subscription. cbn [tbind tget advance]. destruct (has_listener code cb (m_listeners (w_cm w))) eqn:At; cbn [negb tret tbind advance]; [|intros A; injection A as _ <- <-; split; [reflexivity|exact Logic.I]].
    unfold tdo at 1. cbn [tbind advance snd]. set (w1 := put_cm _ w). match goal with |- context [advance ?m w1] => assert (S : mum m) end.
    { unfold mum. apply tun_bind; [exact Logic.I|]. intros _. intros wa wb. cbv beta. apply st_if; [|exact Logic.I]. apply tun_bind; [apply st_m_proto|]. intros c. apply st_do. intros w0. reflexivity. }
    match goal with |- context [advance ?m w1] => destruct (advance m w1) as [[t2 w2] m2] eqn:A2 end. intros A. injection A as _ <- <-.
    destruct (advance_told _ _ _ _ _ S A2) as (E & K). split; [exact E|exact K].
Qed.
Definition all_mum (P : Pool.pool) : Prop := forall t, In t (p_tasks P) -> mum t.
Lemma told_step n P e : all_mum P -> all_mum (pstep n P e) /\ m_listeners (w_cm (p_world (pstep n P e))) = subscriptions e (p_world P).
Proof.
  intros T. destruct P as [w ts g]. assert (Same : all_mum (mkPool w ts g) /\ m_listeners (w_cm w) = m_listeners (w_cm w)) by auto.
  assert (Run : forall i m0 w0 t w' t' g', mum m0 -> m_listeners (w_cm w0) = m_listeners (w_cm w) -> advance m0 w0 = (t, w', t') ->
    all_mum (mkPool w' (lset i t' ts) g') /\ m_listeners (w_cm (p_world (mkPool w' (lset i t' ts) g'))) = m_listeners (w_cm w)).
  { intros i m0 w0 t w' t' g' S E A. destruct (advance_told _ _ _ _ _ S A) as (E' & K). split; [|cbn; congruence]. intros x I. apply in_lset in I. destruct I as [->|I]; [exact K|exact (T _ I)]. }
  destruct e as [c|i k clk|i|c|c code x|]; [cbn [pstep p_world p_tasks p_log subscriptions]..|].
  - destruct (advance (tperform n c) w) as [[t w'] t'] eqn:A. destruct (call_told _ _ _ _ _ _ A) as (E & K). split; [|exact E].
    intros y I. cbn [p_tasks] in I. apply in_app_or in I. destruct I as [I|[<-|[]]]; [exact (T _ I)|exact K].
  - destruct (nth_error ts i) as [[| | |e f|f xx]|] eqn:N; try exact Same.
    + destruct (fits e k); [|exact Same]. destruct (advance _ _) as [[t w'] t'] eqn:A. eapply Run; [| |exact A]; [exact (T _ (nth_error_In _ _ N) k)|]. destruct e, k; reflexivity.
    + destruct k; try exact Same. destruct (advance _ _) as [[t w'] t'] eqn:A. eapply Run; [| |exact A]; [exact (proj2 (T _ (nth_error_In _ _ N)))|reflexivity].
  - destruct (nth_error ts i) as [[| | | |f xx]|] eqn:N; try exact Same.
    destruct (advance _ _) as [[t w'] t'] eqn:A. eapply (Run i); [| |exact A]; [exact (T _ (nth_error_In _ _ N))|reflexivity].
  - pose proof (u_lose _ same_base c w) as L. destruct (lose c w) as [t w']. split; [exact T|exact L].
  - destruct (handler_of c code w) as [[h|h]|]; exact Same.
  - destruct (pstep_handle n w ts g) as [->|(c0 & code0 & b0 & l0 & cbs & _ & _ & ->)]; [exact Same|split; [exact T|reflexivity]].
Qed.
Lemma mum_run n w es : all_mum (prun n (start w) es).
Proof.
  induction es as [|e es IH] using rev_ind; [intros t []|]. unfold prun in *. rewrite fold_left_app. cbn [fold_left]. apply told_step, IH.
Qed.

(** the table of subscriptions, as sets *)
Definition at_code (code : Z) (l : list (Z * list nat)) : list nat := match find (fun x => fst x =? code) l with Some x => snd x | None => [] end.
Lemma listeners_at code w : listeners_of code w = at_code code (m_listeners (w_cm w)). Proof. reflexivity. Qed.
Lemma at_add code' code cb l x : In x (at_code code' (add_listener code cb l)) <-> In x (at_code code' l) \/ (code' = code /\ x = cb).
Proof.
  unfold at_code. induction l as [|(k, s) l IH]; cbn [add_listener find fst].
  - destruct (Z.eqb_spec code code') as [->|N]; cbn; intuition congruence.
  - destruct (Z.eqb_spec code k) as [<-|N]; cbn [find fst].
    + destruct (Z.eqb_spec code code') as [->|N']; [|intuition congruence]. cbn [snd]. destruct (existsb (Nat.eqb cb) s) eqn:B.
      * apply existsb_exists in B. destruct B as (y & J & B). apply Nat.eqb_eq in B. subst y. intuition congruence.
      * rewrite in_app_iff. cbn. intuition congruence.
    + destruct (Z.eqb_spec k code') as [->|N']; [cbn [snd]; intuition congruence|exact IH].
Qed.
Lemma at_none code l : ~ In code (map fst l) -> at_code code l = [].
Proof.
  unfold at_code. induction l as [|(k, s) l IH]; intros N; [reflexivity|]. cbn [find fst]. destruct (Z.eqb_spec k code) as [->|]; [destruct N; left; reflexivity|]. apply IH. intros J. apply N. right. exact J.
Qed.
Lemma at_drop code' code cb l x : NoDup (map fst l) -> In x (at_code code' (drop_listener code cb l)) <-> In x (at_code code' l) /\ ~ (code' = code /\ x = cb).
Proof.
  induction l as [|(k, s) l IH]; intros D; cbn [drop_listener]; [cbn; tauto|]. cbn [map fst] in D. inversion D as [|y z D1 D2]; subst.
  destruct (Z.eqb_spec code k) as [<-|N].
  - assert (F : forall y, In y (filter (fun x => negb (Nat.eqb x cb)) s) <-> In y s /\ y <> cb).
    { intros y. rewrite filter_In. split; intros (A & B); (split; [exact A|]); [apply negb_true_iff, Nat.eqb_neq in B; exact B|apply negb_true_iff, Nat.eqb_neq, B]. }
    destruct (Z.eqb_spec code code') as [<-|N'].
    + replace (at_code code ((code, s) :: l)) with s by (unfold at_code; cbn; rewrite Z.eqb_refl; reflexivity).
      destruct (filter (fun x => negb (Nat.eqb x cb)) s) as [|y l0] eqn:E.
      * rewrite (at_none code l D1). specialize (F x). split; [intros []|]. intros (A & B). apply F. split; [exact A|]. intros ->. apply B. auto.
      * replace (at_code code ((code, y :: l0) :: l)) with (y :: l0) by (unfold at_code; cbn; rewrite Z.eqb_refl; reflexivity). rewrite (F x). intuition congruence.
    + assert (S : forall s', at_code code' ((code, s') :: l) = at_code code' l) by (intros s'; unfold at_code; cbn [find fst]; rewrite (proj2 (Z.eqb_neq code code') N'); reflexivity).
      rewrite S. destruct (filter _ s); rewrite ?S; intuition congruence.
  - destruct (Z.eqb_spec k code') as [<-|N'].
    + unfold at_code. cbn [find fst]. rewrite Z.eqb_refl. cbn [snd]. intuition congruence.
    + assert (S : forall l', at_code code' ((k, s) :: l') = at_code code' l') by (intros l'; unfold at_code; cbn [find fst]; rewrite (proj2 (Z.eqb_neq k code') N'); reflexivity).
      rewrite !S. apply IH, D2.
Qed.
Lemma has_at code cb l : has_listener code cb l = true <-> In cb (at_code code l).
Proof.
  induction l as [|(k, s) l IH]; cbn [has_listener]; [split; [discriminate|intros []]|]. unfold at_code. cbn [find fst].
  rewrite (Z.eqb_sym code k). destruct (k =? code); [cbn [snd]|exact IH]. rewrite existsb_exists. split; [intros (y & J & E); apply Nat.eqb_eq in E; subst; exact J|intros J; exists cb; split; [exact J|apply Nat.eqb_refl]].
Qed.
Definition sets (l : list (Z * list nat)) : Prop := forall code s, In (code, s) l -> NoDup s.
Lemma sets_add code cb l : sets l -> sets (add_listener code cb l).
Proof.
  unfold sets. induction l as [|(k, s) l IH]; intros H c0 s0; cbn [add_listener]; [intros [E|[]]; injection E as <- <-; repeat constructor; intros []|].
  destruct (code =? k).
  - intros [E|J]; [|eapply H; right; exact J]. injection E as <- <-. destruct (existsb (Nat.eqb cb) s) eqn:B; [eapply H; left; reflexivity|].
    assert (NI : ~ In cb s) by (intros J; assert (K : existsb (Nat.eqb cb) s = true) by (apply existsb_exists; exists cb; split; [exact J|apply Nat.eqb_refl]); congruence).
    assert (ND : NoDup s) by (eapply H; left; reflexivity). clear - NI ND. induction ND as [|y s N ND IH]; cbn; [repeat constructor; intros []|]. constructor; [|apply IH; intros J; apply NI; right; exact J].
    rewrite in_app_iff. intros [J|[->|[]]]; [exact (N J)|apply NI; left; reflexivity].
  - intros [E|J]; [injection E as <- <-; eapply H; left; reflexivity|]. eapply IH; [|exact J]. intros c1 s1 J1. eapply H. right. exact J1.
Qed.
Lemma sets_drop code cb l : sets l -> sets (drop_listener code cb l).
Proof.
  unfold sets. induction l as [|(k, s) l IH]; intros H c0 s0; cbn [drop_listener]; [intros []|]. destruct (code =? k).
  - assert (F : NoDup (filter (fun x => negb (Nat.eqb x cb)) s)) by (apply NoDup_filter; eapply H; left; reflexivity).
    destruct (filter _ s) as [|y l0]; [intros J; eapply H; right; exact J|]. intros [E|J]; [injection E as <- <-; exact F|eapply H; right; exact J].
  - intros [E|J]; [injection E as <- <-; eapply H; left; reflexivity|]. eapply IH; [|exact J]. intros c1 s1 J1. eapply H. right. exact J1.
Qed.
Lemma sets_at code l : sets l -> NoDup (at_code code l).
Proof.
  intros H. unfold at_code. destruct (find _ l) as [[k s]|] eqn:F; [|constructor]. apply find_some in F. exact (H _ _ (proj1 F)).
Qed.
Lemma ran_last n id mr rnd h es e P : ran n id mr rnd h (es ++ [e]) = Some P -> exists P0, ran n id mr rnd h es = Some P0 /\ P = pstep n P0 e.
Proof.
  unfold ran. destruct (new_gateway id mr rnd [] h) as [w|]; [|discriminate]. intros R. injection R as <-. eexists. split; [reflexivity|]. unfold prun. rewrite fold_left_app. reflexivity.
Qed.
Lemma ran_mum n id mr rnd h es P : ran n id mr rnd h es = Some P -> all_mum P.
Proof. unfold ran. destruct (new_gateway id mr rnd [] h) as [w|]; [|discriminate]. intros R. injection R as <-. apply mum_run. Qed.
Lemma ran_sets n id mr rnd h es : forall P, ran n id mr rnd h es = Some P -> sets (m_listeners (w_cm (p_world P))).
Proof.
  induction es as [|e es IH] using rev_ind; intros P R.
  - unfold ran, new_gateway in R. destruct (_ && _); [|discriminate]. injection R as <-. intros code s [].
  - destruct (ran_last _ _ _ _ _ _ _ _ R) as (P0 & R0 & ->). specialize (IH _ R0). destruct (told_step n P0 e (ran_mum _ _ _ _ _ _ _ R0)) as (_ & ->).
    unfold subscriptions. destruct e as [[]| | | | |]; try exact IH; [destruct (attached (p_world P0)); [apply sets_add, IH|exact IH]|destruct (has_listener _ _ _); [apply sets_drop, IH|exact IH]].
Qed.
Lemma listening_last n id mr rnd h es e cb code P0 : ran n id mr rnd h es = Some P0 ->
  listening n id mr rnd h (es ++ [e]) cb code <->
  (listening n id mr rnd h es cb code /\ e <> Pool.Call (Unsubscribe cb code)) \/ (e = Pool.Call (Subscribe cb code) /\ attached (p_world P0) = true).
Proof.
  intros R0. split.
  - intros (e1 & e2 & P1 & E & R & A & N). destruct (exists_last (l := Pool.Call (Subscribe cb code) :: e2)) as (l & z & EL); [discriminate|].
    rewrite EL, app_assoc in E. apply app_inj_tail in E. destruct E as (-> & ->). destruct l as [|y l]; cbn [app] in EL.
    + injection EL as <- ->. right. split; [reflexivity|]. rewrite app_nil_r in R0. congruence.
    + injection EL as <- ->. left. split; [|intros ->; apply N, in_or_app; right; left; reflexivity]. exists e1, l, P1. split; [reflexivity|]. split; [exact R|]. split; [exact A|].
      intros J. apply N, in_or_app. left. exact J.
  - intros [((e1 & e2 & P1 & -> & R & A & N) & NE)|(-> & A)].
    + exists e1, (e2 ++ [e]), P1. split; [rewrite <- app_assoc; reflexivity|]. split; [exact R|]. split; [exact A|]. intros J. apply in_app_or in J. destruct J as [J|[J|[]]]; [exact (N J)|exact (NE J)].
    + exists es, [], P0. split; [reflexivity|]. split; [exact R0|]. split; [exact A|intros []].
Qed.
(** who is subscribed, at every moment *)
Lemma subscribed_now n id mr rnd h cb code : forall es P, ran n id mr rnd h es = Some P ->
  (In cb (listeners_of code (p_world P)) <-> listening n id mr rnd h es cb code).
Proof.
  induction es as [|e es IH] using rev_ind; intros P R.
  - unfold ran, new_gateway in R. destruct (_ && _); [|discriminate]. injection R as <-. split; [intros []|]. intros (e1 & e2 & P1 & E & _). destruct e1; discriminate E.
  - destruct (ran_last _ _ _ _ _ _ _ _ R) as (P0 & R0 & ->). specialize (IH _ R0). rewrite (listening_last _ _ _ _ _ _ _ _ _ _ R0), <- IH, !listeners_at.
    destruct (told_step n P0 e (ran_mum _ _ _ _ _ _ _ R0)) as (_ & ->). pose proof (Prop_Keep.ran_orderly _ _ _ _ _ _ _ R0) as O. unfold Prop_Keep.orderly in O.
    set (l := m_listeners (w_cm (p_world P0))) in *. set (A := attached (p_world P0)) in *. unfold subscriptions. fold l A.
    destruct e as [c| | | | |]; try (intuition congruence). destruct c; try (intuition congruence).
    + destruct A; [rewrite at_add|]; intuition congruence.
    + destruct (has_listener code0 cb0 l) eqn:H; [rewrite at_drop by exact O; split; [intros (J & N); left; split; [exact J|]; intros E; apply N; injection E as -> ->; auto|intros [(J & N)|(E & _)]; [|discriminate E]; split; [exact J|]; intros (-> & ->); apply N; reflexivity]|].
      assert (NI : ~ In cb0 (at_code code0 l)) by (rewrite <- has_at; congruence). split; [|intuition congruence]. intros J. left. split; [exact J|]. intros E. injection E as -> ->. exact (NI J).
Qed.

Lemma applied_at n w g1 c code b cbs g2 : forall es, p_log (prun n (start w) es) = g1 ++ Applied c code b cbs :: g2 ->
  exists e1 e2, es = e1 ++ Handle :: e2 /\ p_log (prun n (start w) e1) = g1 /\ (exists l, due g1 = (c, code, b) :: l) /\
    cbs = (match snd (handled code b (w_data (p_world (prun n (start w) e1)))) with Ok _ => listeners_of code (p_world (prun n (start w) e1)) | Err _ => [] end) /\
    prun n (start w) (e1 ++ [Handle]) = (let P := prun n (start w) e1 in mkPool (set_data (fst (handled code b (w_data (p_world P)))) (p_world P)) (p_tasks P) (p_log P ++ [Applied c code b cbs])).
Proof.
  intros es. revert g2. induction es as [|e es IH] using rev_ind; intros g2 E; [destruct g1; discriminate E|].
  unfold prun in E. rewrite fold_left_app in E. cbn [fold_left] in E. fold (prun n (start w) es) in E. set (P := prun n (start w) es) in *.
  assert (Back : forall g3, p_log P = g1 ++ Applied c code b cbs :: g3 -> exists e1 e2, es ++ [e] = e1 ++ Handle :: e2 /\ p_log (prun n (start w) e1) = g1 /\ (exists l, due g1 = (c, code, b) :: l) /\
    cbs = (match snd (handled code b (w_data (p_world (prun n (start w) e1)))) with Ok _ => listeners_of code (p_world (prun n (start w) e1)) | Err _ => [] end) /\
    prun n (start w) (e1 ++ [Handle]) = (let P := prun n (start w) e1 in mkPool (set_data (fst (handled code b (w_data (p_world P)))) (p_world P)) (p_tasks P) (p_log P ++ [Applied c code b cbs]))).
  { intros g3 G. destruct (IH _ G) as (e1 & e2 & -> & H). exists e1, (e2 ++ [e]). split; [rewrite <- app_assoc; reflexivity|exact H]. }
  destruct (step_adds n P e) as (new & L & K). rewrite L in E. destruct (P_Lock.split_log _ _ _ _ _ E) as [(g3 & G)|(x1 & x2 & E1 & EG)]; [exact (Back _ G)|].
  assert (J : In (c, code, b) (dealt_with new)) by (rewrite E1, dealt_app; apply in_or_app; right; left; reflexivity).
  destruct e; try (rewrite K in J; destruct J). destruct (pstep_handle_at n P) as [Eq|(c0 & code0 & b0 & l0 & cbs0 & D & Cb & Eq)].
  - rewrite Eq in L. apply (f_equal (@List.length _)) in L. rewrite app_length in L. destruct new; [destruct J|cbn in L; lia].
  - rewrite Eq in L. cbn [p_log] in L. apply app_inv_head in L. subst new. destruct x1 as [|y x1]; cbn [app] in E1; [|injection E1 as _ E1; destruct x1; discriminate E1].
    injection E1 as -> -> -> -> _. rewrite app_nil_r in EG. exists es, []. split; [reflexivity|]. fold P. split; [congruence|]. split; [exists l0; congruence|].
    split; [exact Cb|]. unfold prun. rewrite fold_left_app. cbn [fold_left]. fold (prun n (start w) es). fold P. exact Eq.
Qed.
Lemma handled_is code b d : (exists x, pushes code b x /\ handled code b d = run_decoder x d) \/ ((forall x, ~ pushes code b x) /\ handled code b d = (d, Ok tt)).
Proof.
  unfold handled, Client.push_decoder.
  destruct (Z.eqb_spec code 12500) as [->|N1]; [left; eexists; split; [constructor|reflexivity]|].
  destruct (Z.eqb_spec code 12505) as [->|N2]; [left; eexists; split; [constructor|reflexivity]|].
  destruct (Z.eqb_spec code 12504) as [->|N3]; [left; eexists; split; [constructor|reflexivity]|].
  right. split; [intros x K; inversion K; congruence|reflexivity].
Qed.
Lemma pushes_one code b x y : pushes code b x -> pushes code b y -> x = y.
Proof. intros A B. destruct A; inversion B; reflexivity. Qed.

(** C126. *)
Theorem C126_told n id mr rnd h es P g1 c code b cbs g2 : ran n id mr rnd h es = Some P -> p_log P = g1 ++ Applied c code b cbs :: g2 ->
  exists e1 e2 P1 P2, es = e1 ++ Handle :: e2 /\ ran n id mr rnd h e1 = Some P1 /\ ran n id mr rnd h (e1 ++ [Handle]) = Some P2 /\
    p_log P1 = g1 /\ p_log P2 = g1 ++ [Applied c code b cbs] /\
    NoDup cbs /\
    (unreadable code b (w_data (p_world P1)) -> cbs = []) /\
    (~ unreadable code b (w_data (p_world P1)) -> forall cb, In cb cbs <-> listening n id mr rnd h e1 cb code) /\
    (forall x, pushes code b x -> w_data (p_world P2) = fst (run_decoder x (w_data (p_world P1)))) /\
    ((forall x, ~ pushes code b x) -> w_data (p_world P2) = w_data (p_world P1)) /\
    p_world P2 = set_data (w_data (p_world P2)) (p_world P1) /\ p_tasks P2 = p_tasks P1.
Proof.
  intros R E. pose proof R as R'. unfold ran in R'. destruct (new_gateway id mr rnd [] h) as [w|] eqn:W; [|discriminate R']. injection R' as R'. rewrite <- R' in E.
  destruct (applied_at _ _ _ _ _ _ _ _ _ E) as (e1 & e2 & -> & L & _ & Cb & Eq). cbn zeta in Eq. set (P1 := prun n (start w) e1) in *.
  assert (R1 : ran n id mr rnd h e1 = Some P1) by (unfold ran; rewrite W; reflexivity).
  exists e1, e2, P1, (prun n (start w) (e1 ++ [Handle])). split; [reflexivity|]. split; [exact R1|]. split; [unfold ran; rewrite W; reflexivity|]. split; [exact L|].
  rewrite Eq. cbn [p_log p_world p_tasks set_data w_data]. rewrite L. split; [reflexivity|]. pose proof (sets_at code _ (ran_sets _ _ _ _ _ _ _ R1)) as ND.
  destruct (handled_is code b (w_data (p_world P1))) as [(x & Px & H)|(NP & H)]; rewrite H in *.
  - split; [rewrite Cb; destruct (snd _); [exact ND|constructor]|]. split; [|split; [|split; [|split]]].
    + intros (y & er & Py & Y). rewrite (pushes_one _ _ _ _ Py Px) in Y. rewrite Y in Cb. exact Cb.
    + intros NU cb. destruct (snd (run_decoder x (w_data (p_world P1)))) as [r|er] eqn:D; [|destruct NU; exists x, er; auto]. rewrite Cb. apply subscribed_now, R1.
    + intros y Py. rewrite (pushes_one _ _ _ _ Py Px). reflexivity.
    + intros N. destruct (N _ Px).
    + split; [destruct (p_world P1); reflexivity|reflexivity].
  - cbn [snd fst] in *. split; [rewrite Cb; exact ND|]. split; [intros (y & er & Py & _); destruct (NP _ Py)|]. split; [intros _ cb; rewrite Cb; apply subscribed_now, R1|].
    split; [intros y Py; destruct (NP _ Py)|]. split; [reflexivity|]. split; [destruct (p_world P1); reflexivity|reflexivity].
Qed.
Print Assumptions C126_told.
(** three callbacks on two codes; a status and an unreadable chemistry message come; before their
    tasks run, one of the callbacks of the status is taken off *)
Definition tell : list event :=
  [Pool.Call (Connect to_adapter)] ++ login_of 0 ++ [Pool.Call (Subscribe 7 12500); reply 1 12523 []; Pool.Call (Subscribe 8 12500); Pool.Call (Subscribe 9 12505); Pool.Call (Subscribe 7 777);
    Pool.Call GetStatus; Push 0 12500 (Messages.wire_status Prop_Decode.some_status); Push 0 12505 [1; 2]; Push 0 777 [3]; Pool.Call (Unsubscribe 8 12500)].
Definition tell_facts (P : Pool.pool) := (map (fun x => snd (fst x)) (came_in (p_log P)), map (fun x => snd (fst x)) (dealt_with (p_log P)),
  flat_map (fun x => match x with Applied _ code _ cbs => [(code, cbs)] | _ => [] end) (p_log P), get_value true [KS "circuit"; KI 505] (w_data (p_world P)), List.length (p_tasks P)).
Lemma tell_before : option_map tell_facts (ran 2 (Some 777) None 0 its_host tell) = Some ([12500; 12505; 777], [], [], Err EKey, 7%nat).
Proof. vm_compute. reflexivity. Qed.
Lemma tell_after : option_map tell_facts (ran 2 (Some 777) None 0 its_host (tell ++ [Handle; Handle; Handle])) =
  Some ([12500; 12505; 777], [12500; 12505; 777], [(12500, [7%nat]); (12505, []); (777, [7%nat])], Ok (VInt 0), 7%nat).
Proof. vm_compute. reflexivity. Qed.
Example C125_nonvacuous : exists P waiting, ran 2 (Some 777) None 0 its_host tell = Some P /\ came_in (p_log P) = dealt_with (p_log P) ++ waiting /\
  List.length waiting = 3%nat /\ (List.length waiting <= handles [Handle; Lose 0; Handle; Handle])%nat.
Proof.
  pose proof tell_before as F. destruct (ran 2 (Some 777) None 0 its_host tell) as [P|] eqn:R; [|discriminate F]. unfold option_map, tell_facts in F.
  destruct (C125_in_turn _ _ _ _ _ _ _ (p_log P) [] R) as (l & E); [symmetry; apply app_nil_r|]. exists P, l. split; [reflexivity|]. split; [exact E|].
  assert (D : dealt_with (p_log P) = []) by (apply map_eq_nil with (f := fun x => snd (fst x)); congruence). rewrite D in E. cbn [app] in E.
  assert (L : List.length l = 3%nat) by (rewrite <- E, <- (map_length (fun x => snd (fst x))); replace (map (fun x => snd (fst x)) (came_in (p_log P))) with [12500; 12505; 777] by congruence; reflexivity).
  rewrite L. split; [reflexivity|]. cbn. lia.
Qed.
Lemma applied_in (g : log) code cbs : In (code, cbs) (flat_map (fun x => match x with Applied _ code _ cbs => [(code, cbs)] | _ => [] end) g) -> exists g1 c b g2, g = g1 ++ Applied c code b cbs :: g2.
Proof.
  intros J. apply in_flat_map in J. destruct J as (x & J & K). destruct x; try contradiction K. destruct K as [K|[]]. injection K as -> ->. apply in_split in J. destruct J as (g1 & g2 & ->). eauto.
Qed.
Example C126_nonvacuous : exists P g1 c b g2, ran 2 (Some 777) None 0 its_host (tell ++ [Handle; Handle; Handle]) = Some P /\ p_log P = g1 ++ Applied c 12500 b [7%nat] :: g2 /\
  listening 2 (Some 777) None 0 its_host tell 7 12500 /\ ~ listening 2 (Some 777) None 0 its_host tell 8 12500.
Proof.
  pose proof tell_after as F. destruct (ran 2 (Some 777) None 0 its_host (tell ++ [Handle; Handle; Handle])) as [P|] eqn:R; [|discriminate F]. unfold option_map, tell_facts in F.
  destruct (applied_in (p_log P) 12500 [7%nat]) as (g1 & c & b & g2 & E).
  { match goal with |- In _ ?l => replace l with [(12500, [7%nat]); (12505, []); (777, [7%nat])] by congruence end. left. reflexivity. }
  exists P, g1, c, b, g2. split; [reflexivity|]. split; [exact E|].
  assert (G : option_map (fun P0 => listeners_of 12500 (p_world P0)) (ran 2 (Some 777) None 0 its_host tell) = Some [7%nat]) by (vm_compute; reflexivity).
  destruct (ran 2 (Some 777) None 0 its_host tell) as [P0|] eqn:R0; [|discriminate G]. cbn [option_map] in G. injection G as G.
  rewrite <- !(subscribed_now _ _ _ _ _ _ _ _ _ R0), G. split; [left; reflexivity|]. intros [K|[]]. discriminate K.
Qed.

(** C125, down to the bytes: what is dealt with came as frames on that connection, in that order,
    each once, and answered no request. *)
From Verif Require Import Net SpecNet Prop_Net.
Lemma some_pre {X} (a b l : list X) : some_of (a ++ b) l -> some_of a l.
Proof.
  remember (a ++ b) as ab eqn:E. intros S. revert a E. induction S as [l|x l l' S IH|x l l' S IH]; intros a E.
  - symmetry in E. apply app_eq_nil in E. destruct E as (-> & _). constructor.
  - constructor 2. auto.
  - destruct a as [|y a]; [constructor|]. injection E as -> E. constructor 3. auto.
Qed.
Lemma pushed_came c g : pushed c g = of_conn c (came_in (apis g)).
Proof.
  unfold pushed. generalize (apis g) as l. induction l as [|x l IH]; [reflexivity|]. rewrite (came_app [x] l : came_in (x :: l) = _). unfold of_conn in *. rewrite flat_map_app, <- IH. cbn [flat_map]. f_equal.
  destruct x; try reflexivity. cbn. rewrite app_nil_r. reflexivity.
Qed.
Theorem C125_wire n id mr rnd h es N c g1 g2 : on_wire n id mr rnd h es = Some N -> octets es -> n_log N = g1 ++ g2 ->
  some_of (of_conn c (dealt_with (apis g1))) (unasked c g1).
Proof.
  intros R O E. destruct (C112_calls _ _ _ _ _ _ _ R O) as (pes & RP & L). pose proof (C116_came _ _ _ _ _ _ _ c _ _ R E) as S.
  rewrite E in L. unfold apis in L. rewrite flat_map_app in L. destruct (C125_in_turn _ _ _ _ _ _ _ _ _ RP L) as (waiting & T). fold (apis g1) in T.
  rewrite pushed_came, T in S. unfold of_conn in S. rewrite flat_map_app in S. exact (some_pre _ _ _ S).
Qed.
Print Assumptions C125_wire.
Lemma push_dealt : option_map (fun N => map fst (of_conn 0 (dealt_with (apis (n_log N))))) (on_wire 2 (Some 777) None 0 Hostile.its_host (push_run ++ [NData 0 push_bytes; NHandle])) = Some [12500].
Proof. vm_compute. reflexivity. Qed.
Example C125_wire_nonvacuous : exists N, on_wire 2 (Some 777) None 0 Hostile.its_host (push_run ++ [NData 0 push_bytes; NHandle]) = Some N /\ octets (push_run ++ [NData 0 push_bytes; NHandle]) /\
  map fst (of_conn 0 (dealt_with (apis (n_log N)))) = [12500].
Proof.
  pose proof push_dealt as F. destruct (on_wire 2 (Some 777) None 0 Hostile.its_host (push_run ++ [NData 0 push_bytes; NHandle])) as [N|]; [|discriminate F]. cbn [option_map] in F. injection F as F.
  exists N. split; [reflexivity|]. split; [apply octets_ok; vm_compute; reflexivity|exact F].
Qed.
