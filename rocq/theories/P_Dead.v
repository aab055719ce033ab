(** The registration lock is waited for by its own holder only after the holder opened a new
    connection. *)
From Verif Require Import Py F64 Struct Utf Utility Const Enum Decode World Request Gateway Api Tasks Pool.
From Verif Require Import P_Lock.
From Verif Require P_Term P_Moves SpecTerm.
Import ListNotations.

Definition quietw (w : world) : Prop := is_client w = false.
(** where a task is: outside the lock; inside; inside, and not registered; inside, with a
    connection opened since *)
Inductive place := Out | In | Quiet | Taint.
Definition mv (s s' : place) (f : world -> world) : Prop :=
  forall w,
    match s, s' with
    | Out, Out | Quiet, Quiet => locked (f w) = locked w /\ (quietw w -> quietw (f w))
    | In, Quiet => locked (f w) = locked w /\ quietw (f w)
    | In, In | Quiet, In | Taint, Taint => locked (f w) = locked w
    | In, Out | Quiet, Out | Taint, Out => locked (f w) = false
    | _, _ => False
    end.
Definition taints (e : ev) (r : kind) (s : place) : place :=
  match e, r, s with Open _ _ _, KDone, (In | Quiet) => Taint | _, _, _ => s end.
Definition looked (s : place) (w : world) : place := match s with In => if is_client w then In else Quiet | _ => s end.
Fixpoint hl {A} (s : place) (m : task A) (Q : place -> out A -> Prop) : Prop :=
  match m with
  | Done o => Q s o
  | Look k => forall w, (s = Quiet -> quietw w) -> hl (looked s w) (k w) Q
  | Do f k => exists s', mv s s' (fun w => snd (f w)) /\ hl s' k Q
  | Wait e k => forall r, hl (taints e r s) (k r) Q
  | Lock k x => match s with Out => hl In k Q /\ hl Out x Q | Taint => hl Taint x Q | _ => False end
  end.
Lemma hl_mono {A} (m : task A) : forall s (Q Q' : place -> out A -> Prop), hl s m Q -> (forall s o, Q s o -> Q' s o) -> hl s m Q'.
Proof.
  induction m as [o|k IH|f k IH|e k IH|k IH xx IHx]; intros s Q Q' L H; cbn [hl] in *.
  - auto.
  - intros w J. eapply IH; eauto.
  - destruct L as (s' & M & L). exists s'. split; [exact M|]. eapply IH; eauto.
  - intros r. eapply IH; eauto.
  - destruct s; try exact L; [destruct L as (L & Lx); split; [eapply IH|eapply IHx]; eauto|eapply IHx; eauto].
Qed.
Definition after {A B} (f : A -> task B) (Q : place -> out B -> Prop) : place -> out A -> Prop :=
  fun s o => match o with Val a => hl s (f a) Q | Exc e => Q s (Exc e) | Stuck y => Q s (Stuck y) end.
Lemma hl_bind {A B} (m : task A) (f : A -> task B) Q : forall s, hl s m (after f Q) -> hl s (tbind m f) Q.
Proof.
  induction m as [o|k IH|g k IH|e k IH|k IH xx IHx]; intros s L; cbn [hl tbind] in *.
  - destruct o; exact L.
  - intros w J. apply IH, L, J.
  - destruct L as (s' & M & L). exists s'. auto.
  - intros r. apply IH, L.
  - destruct s; auto. destruct L. auto.
Qed.
Lemma hl_catch {A} (m : task A) (p : exn -> bool) (h : exn -> task A) (Q : place -> out A -> Prop) : forall s,
  hl s m (fun s o => match o with Exc e => if p e then hl s (h e) Q else Q s o | _ => Q s o end) -> hl s (tcatch m p h) Q.
Proof.
  induction m as [o|k IH|g k IH|e k IH|k IH xx IHx]; intros s L; cbn [hl tcatch] in *.
  - destruct o; try exact L. destruct (p e); exact L.
  - intros w J. apply IH, L, J.
  - destruct L as (s' & M & L). exists s'. auto.
  - intros r. apply IH, L.
  - destruct s; auto. destruct L. auto.
Qed.
Definition leads (s s' : place) : Prop := s' = s \/ (s' = Taint /\ s <> Out).
Definition back {A} (s : place) : place -> out A -> Prop := fun s' o => leads s s' \/ stuck o.
Lemma leads_trans a b c : leads a b -> leads b c -> leads a c.
Proof. intros [->|(-> & N)] [->|(-> & M)]; [left; reflexivity|right; auto|right; auto|right; auto]. Qed.
Definition ok {A} (s : place) (m : task A) : Prop := hl s m (back s).
Definition neat {A} (m : task A) : Prop := forall s, s <> In -> ok s m.
(** outside, or after a new connection *)
Definition late {A} (m : task A) : Prop := forall s, s = Out \/ s = Taint -> ok s m.
Lemma neat_late {A} (m : task A) : neat m -> late m.
Proof. intros N s [->| ->]; apply N; discriminate. Qed.

Lemma ok_bind {A B} s (m : task A) (f : A -> task B) : ok s m -> (forall s' a, leads s s' -> ok s' (f a)) -> ok s (tbind m f).
Proof.
  intros M F. apply hl_bind. eapply hl_mono; [exact M|]. intros s' o [L|(y & ->)].
  - destruct o as [a|e|y]; cbn; [|left; exact L..]. eapply hl_mono; [apply F, L|]. intros s2 o [L2|St]; [left; eapply leads_trans; eassumption|right; exact St].
  - cbn. right. exists y. reflexivity.
Qed.
Lemma ok_catch {A} s (m : task A) p h : ok s m -> (forall s' e, leads s s' -> ok s' (h e)) -> ok s (tcatch m p h).
Proof.
  intros M F. apply hl_catch. eapply hl_mono; [exact M|]. intros s' o [L|(y & ->)].
  - destruct o as [a|e|y]; [left; exact L| |left; exact L]. destruct (p e); [|left; exact L].
    eapply hl_mono; [apply F, L|]. intros s2 o [L2|St]; [left; eapply leads_trans; eassumption|right; exact St].
  - right. exists y. reflexivity.
Qed.
Lemma leads_in s s' : s <> In -> leads s s' -> s' <> In.
Proof. intros N [->|(-> & _)]; [exact N|discriminate]. Qed.
Lemma leads_late s s' : s = Out \/ s = Taint -> leads s s' -> s' = Out \/ s' = Taint.
Proof. intros N [->|(-> & _)]; auto. Qed.
Lemma n_bind {A B} (m : task A) (f : A -> task B) : neat m -> (forall a, neat (f a)) -> neat (tbind m f).
Proof. intros M F s N. apply ok_bind; [apply M, N|]. intros s' a L. apply F. eapply leads_in; eassumption. Qed.
Lemma n_catch {A} (m : task A) p h : neat m -> (forall e, neat (h e)) -> neat (tcatch m p h).
Proof. intros M F s N. apply ok_catch; [apply M, N|]. intros s' a L. apply F. eapply leads_in; eassumption. Qed.
Lemma l_bind {A B} (m : task A) (f : A -> task B) : late m -> (forall a, late (f a)) -> late (tbind m f).
Proof. intros M F s N. apply ok_bind; [apply M, N|]. intros s' a L. apply F. eapply leads_late; eassumption. Qed.
Lemma ok_done {A} s (o : out A) : ok s (Done o). Proof. left. left. reflexivity. Qed.
Lemma n_done {A} (o : out A) : neat (Done o). Proof. intros s _. apply ok_done. Qed.
Lemma looked_same s w : s <> In -> looked s w = s. Proof. destruct s; try reflexivity. intros N. destruct (N eq_refl). Qed.
Lemma n_get {A B} (f : world -> A) (k : A -> task B) : (forall a, neat (k a)) -> neat (tbind (tget f) k).
Proof. intros K s N w _. rewrite looked_same by exact N. apply K, N. Qed.
Lemma l_get {A B} (f : world -> A) (k : A -> task B) : (forall a, late (k a)) -> late (tbind (tget f) k).
Proof. intros K s N w _. rewrite looked_same by (destruct N; subst; discriminate). apply K, N. Qed.
Lemma n_lift {A B} (r : res A) (k : A -> task B) : (forall a, neat (k a)) -> neat (tbind (tlift r) k).
Proof. intros K. destruct r; [apply K|apply n_done]. Qed.
Lemma l_lift {A B} (r : res A) (k : A -> task B) : (forall a, late (k a)) -> late (tbind (tlift r) k).
Proof. intros K. destruct r; [apply K|apply neat_late, n_done]. Qed.
Lemma n_lift1 {A} (r : res A) : neat (tlift r). Proof. destruct r; apply n_done. Qed.
Lemma n_if {A} (b : bool) (m1 m2 : task A) : neat m1 -> neat m2 -> neat (if b then m1 else m2). Proof. destruct b; auto. Qed.
Lemma l_if {A} (b : bool) (m1 m2 : task A) : late m1 -> late m2 -> late (if b then m1 else m2). Proof. destruct b; auto. Qed.

(** a change that neither touches the lock nor registers anybody *)
Definition keepq (f : world -> world) : Prop := forall w, locked (f w) = locked w /\ (quietw w -> quietw (f w)).
Lemma keepq_mv s f : s <> In -> keepq f -> mv s s f.
Proof. intros N K w. destruct (K w). destruct s; auto. Qed.
Lemma n_Do {A} f (k : task A) : keepq (fun w => snd (f w)) -> neat k -> neat (Do f k).
Proof. intros K M s N. exists s. split; [apply keepq_mv; assumption|apply M, N]. Qed.
Lemma n_do f : keepq f -> neat (tdo f). Proof. intros K. apply n_Do; [exact K|apply n_done]. Qed.
Lemma n_emit e : neat (temit e). Proof. apply n_Do; [intros w; split; auto|apply n_done]. Qed.
Definition is_open (e : ev) : bool := match e with Open _ _ _ => true | _ => false end.
Lemma n_wait {B} e (k : kind -> task B) : is_open e = false -> (forall r, neat (k r)) -> neat (tbind (twait e) k).
Proof. intros E K s N r. replace (taints e r s) with s by (destruct e; try discriminate E; destruct r; reflexivity). apply K, N. Qed.
Lemma keepq_cm f : (forall w, w_cm (f w) = w_cm w) -> (forall w c, connected c (f w) = true -> connected c w = true) -> keepq f.
Proof.
  intros C K w. unfold locked. rewrite C. split; [reflexivity|]. unfold quietw, is_client, attached. rewrite C.
  destruct (m_is_client (w_cm w)); [|reflexivity]. cbn [andb]. destruct (m_proto (w_cm w)) as [c|]; [|reflexivity].
  destruct (connected c (f w)) eqn:E; [|reflexivity]. rewrite (K _ _ E). auto.
Qed.
Lemma keepq_same f : (forall w, w_cm (f w) = w_cm w) -> (forall w, w_conns (f w) = w_conns w) -> keepq f.
Proof. intros C K. apply keepq_cm; [exact C|]. intros w c. unfold connected, get_conn. rewrite K. auto. Qed.
Lemma nth_lset_le {X} (g : X -> bool) (d : X) : forall l i x, (g x = true -> g (nth i l d) = true) -> forall c, g (nth c (lset i x l) d) = true -> g (nth c l d) = true.
Proof.
  induction l as [|y l IH]; intros [|i] x H [|c] K; cbn in *; try assumption; auto. eapply IH; [exact H|exact K].
Qed.
Lemma keepq_conn c f : (forall k, c_connected (f k) = true -> c_connected k = true) -> keepq (upd_conn c f).
Proof.
  intros F. apply keepq_cm; [reflexivity|]. intros w c'. unfold connected, get_conn, upd_conn. cbn [set_conns w_conns].
  apply (nth_lset_le c_connected). apply F.
Qed.
Lemma keepq_lose c : keepq (fun w => snd (lose c w)).
Proof.
  apply keepq_cm.
  - intros w. unfold lose. destruct (connected c w); reflexivity.
  - intros w c'. unfold lose. destruct (connected c w) eqn:E; [|auto]. cbn [snd]. unfold connected, get_conn, upd_conn. cbn [set_conns w_conns].
    apply (nth_lset_le c_connected). cbn. discriminate.
Qed.
Lemma n_decode m : neat (tdecode m).
Proof.
  intros s N w _. rewrite looked_same by exact N. destruct (m (w_data w)) as [d r].
  apply n_Do; [apply keepq_same; reflexivity| |exact N]. destruct r; apply n_done.
Qed.
Lemma n_sleep ms : neat (tsleep ms).
Proof. apply n_wait; [reflexivity|]. intros r. destruct r; apply n_done. Qed.
Ltac nt := first [apply n_done | apply n_lift1 | apply n_emit | apply n_decode | apply n_sleep].

Lemma n_loop X p c : forall left attempt mr, neat (trequest_loop left attempt mr c X p).
Proof.
  induction left as [|left IH]; intros attempt mr; cbn [trequest_loop]; [nt|].
  assert (F : forall e, neat (if attempt =? mr then traise e else tsleep (1000 * (COM_RETRY_WAIT * (attempt + 1))) ;;; trequest_loop left (attempt + 1) mr c X p)).
  { intros e. destruct (attempt =? mr); [nt|]. apply n_bind; [nt|]. intros _. apply IH. }
  assert (C : neat (ok <- tget (connected c) ;; if ok then tret (@None bytes) else traise ESLConnection)).
  { apply n_get. intros a. destruct a; nt. }
  apply n_get. intros up. destruct up; cbn [negb]; [|nt]. apply n_get. intros q. destruct (c_closing q); [exact C|].
  apply n_bind.
  - apply n_get. intros q'. destruct (c_open q'); [|nt]. apply n_lift. intros _. nt.
  - intros _. apply n_wait; [reflexivity|]. intros r. destruct r; cbn [tret tbind]; try exact C; try apply F; try nt;
      repeat (first [apply F | nt | match goal with |- context [if ?x then _ else _] => destruct x end]).
Qed.
Lemma n_request X p c mr : neat (tmake_request c X p mr). Proof. apply n_loop. Qed.
Lemma n_data X p dec mr c : neat (tdata_request X p dec mr c).
Proof. apply n_bind; [apply n_request|]. intros r. destruct (nonempty r); [|nt]. apply n_bind; [nt|intros _; nt]. Qed.
Lemma n_version mr c : neat (trequest_gateway_version mr c). Proof. apply n_get. intros fl. apply n_data. Qed.
Lemma n_pump i mr c : neat (trequest_pump_status i mr c). Proof. apply n_lift. intros p. apply n_data. Qed.
Lemma n_date mr c : neat (trequest_date_time mr c).
Proof. apply n_bind; [apply n_request|]. intros r. destruct (nonempty r); [|nt]. apply n_get. intros now. apply n_bind; [nt|intros _; nt]. Qed.
Lemma n_command_request X p mr c : neat (tcommand_request X p mr c).
Proof. apply n_lift. intros q. apply n_bind; [apply n_request|]. intros [[|]|]; nt. Qed.
Lemma n_challenge c mr : neat (tgateway_connect c mr).
Proof.
  apply n_get. intros q. apply n_bind; [destruct (c_open q); nt|]. intros _. apply n_bind; [nt|]. intros _.
  apply n_get. intros up. destruct up; cbn [negb]; [|nt]. apply n_bind; [apply n_request|]. intros [x|]; nt.
Qed.
Lemma n_login c mr : neat (tgateway_login c mr).
Proof. apply n_lift. intros m. apply n_bind; [apply n_request|]. intros; nt. Qed.
Lemma n_m_proto : neat tm_proto_or_fail. Proof. apply n_get. intros [c|]; nt. Qed.
Lemma n_proto : neat tproto_or_fail. Proof. apply n_get. intros [c|]; nt. Qed.
Lemma n_close c force : neat (tasync_close c force).
Proof.
  apply n_bind; [apply n_do, keepq_conn; auto|]. intros _. apply n_wait; [reflexivity|]. intros r.
  assert (K : neat (q <- tget (get_conn c) ;;
      (if c_open q then temit (CloseTransport c) ;;; tdo (mark_shut c) else tret tt) ;;;
      still <- tget (connected c) ;;
      if negb still then tret tt
      else
        r2 <- twait (AwaitClosed c) ;;
        match r2 with
        | KDone => Do (lose c) (tret tt)
        | KCancelTask => traise ECancelled
        | _ => tstuck Unfit
        end)).
  { apply n_get. intros q. apply n_bind.
    - destruct (c_open q); [|nt]. apply n_bind; [nt|]. intros _. apply n_do, keepq_conn. auto.
    - intros _. apply n_get. intros still. destruct still; cbn [negb]; [|nt]. apply n_wait; [reflexivity|]. intros r2. destruct r2; try nt.
      apply n_Do; [apply keepq_lose|nt]. }
  destruct r; try exact K; nt.
Qed.
Lemma n_remove : neat tremove_client.
Proof. apply n_catch; [|intros; nt]. apply n_bind; [apply n_m_proto|]. intros c. apply n_get. intros id. apply n_command_request. Qed.

(** the lock *)
Definition inside {A} (s : place) (o : out A) : Prop := s <> Out \/ stuck o.
Lemma hl_finally {A} (m : task A) f : (forall w, locked (f w) = false) -> forall s, hl s m inside -> hl s (tfinally m f) (back Out).
Proof.
  intros U. induction m as [o|k IH|g k IH|e k IH|k IH xx IHx]; intros s L; cbn [hl tfinally] in *.
  - destruct L as [N|(y & ->)]; [|right; eexists; reflexivity].
    destruct o; cbn [hl]; [exists Out; split; [|left; left; reflexivity]..|right; eexists; reflexivity];
      intros w; cbn [snd]; destruct s; try (apply U); destruct (N eq_refl).
  - intros w J. apply IH, L, J.
  - destruct L as (s' & M & L). exists s'. auto.
  - intros r. apply IH, L.
  - destruct s; auto. destruct L. auto.
Qed.
Lemma l_lock {A} (body : task A) : hl In body inside -> late (twith_lock body).
Proof. intros B s [->| ->]; [|apply ok_done]. split; [apply hl_finally; [reflexivity|exact B]|apply ok_done]. Qed.
Lemma leads_inside {A} s : s <> Out -> forall s' (o : out A), back s s' o -> inside s' o.
Proof. intros N s' o [[->|(-> & _)]|S]; [left; exact N|left; discriminate|right; exact S]. Qed.
Lemma quiet_off w : quietw (put_cm (cmset_client false) w). Proof. reflexivity. Qed.
Lemma l_unsubscribe : late tunsubscribe_gateway.
Proof.
  apply l_get. intros a. apply l_if; [apply neat_late; nt|]. apply l_lock. intros w _.
  set (s := looked In w). assert (S : s = In \/ s = Quiet) by (unfold s, looked; destruct (is_client w); auto). clearbody s. cbn [tret tbind].
  destruct (m_is_client (w_cm w)) eqn:B; clear B;
    [|left; destruct S; subst; discriminate].
  exists Quiet. split.
  - intros w1. destruct S as [->| ->]; (split; [reflexivity|]); [|intros _]; apply quiet_off.
  - eapply hl_mono; [|apply (leads_inside Quiet); discriminate]. cbn [tret tbind].
    match goal with |- hl _ ?m _ => assert (K : neat m) end; [|apply K; discriminate].
    apply n_bind; [apply n_m_proto|]. intros c. apply n_bind; [apply n_do, keepq_conn; auto|]. intros _.
    apply n_bind; [apply n_do, keepq_conn; auto|]. intros _. apply n_remove.
Qed.
Lemma n_disconnect force : neat (tasync_disconnect force).
Proof.
  assert (R : forall s, s <> In -> ok s (c <- tproto_or_fail ;; tasync_close c force)).
  { intros s N. revert s N. apply n_bind; [apply n_proto|]. intros c. apply n_close. }
  intros s N w J. rewrite looked_same by exact N. cbn [tret tbind].
  destruct (is_client w) eqn:E.
  - apply ok_bind; [apply l_unsubscribe|intros s' _ L; apply R; eapply leads_in; eassumption].
    destruct s; auto; [destruct (N eq_refl)|]. specialize (J eq_refl). unfold quietw in J. congruence.
  - cbn [tret tbind]. apply R, N.
Qed.
Lemma n_attempt {A} connect (method : Z -> nat -> task A) mr : neat connect -> (forall mr c, neat (method mr c)) -> neat (tattempt_request connect method mr).
Proof. intros C M. apply n_bind; [exact C|]. intros up. apply n_if; [nt|]. apply n_bind; [apply n_proto|]. intros c. apply M. Qed.
Lemma n_connected {A} connect (method : Z -> nat -> task A) d : neat connect -> (forall mr c, neat (method mr c)) -> neat (tconnected_request connect method d).
Proof.
  intros C M. apply n_get. intros mr. apply n_catch; [apply n_attempt; assumption|]. intros _.
  apply n_bind; [apply n_disconnect|]. intros _. apply n_bind; [nt|]. intros _. apply n_attempt; assumption.
Qed.
Lemma l_subscribe connect : neat connect -> late (tsubscribe_gateway connect).
Proof.
  intros C. apply l_get. intros a. apply l_if; [apply neat_late; nt|]. apply l_lock. intros w _. cbn [tret tbind].
  unfold looked.
  destruct (is_client w); cbn [negb]; [left; discriminate|]. clear w.
  intros w _. cbn [looked tret tbind].
  generalize (m_id (w_cm w)). intros id.
  apply hl_bind. eapply hl_mono; [apply (n_connected connect); [exact C|intros; apply n_command_request|discriminate]|].
  intros s o [L|(y & ->)]; [|right; exists y; reflexivity].
  assert (NO : s <> Out) by (destruct L as [->|(-> & _)]; discriminate).
  destruct o as [u|e|y]; cbn [after]; [|left; exact NO..].
  exists (match s with Taint => Taint | _ => In end). split; [intros w1; destruct L as [->|(-> & _)]; reflexivity|].
  cbn [tret tbind]. intros w1 _. set (s1 := looked _ w1). assert (S1 : s1 <> Out) by (unfold s1, looked; destruct L as [->|(-> & _)]; [destruct (is_client w1)|]; discriminate). clearbody s1.
  cbn [tret tbind]. destruct (m_proto (w_cm w1)) as [c|]; cbn [tret tbind]; [|left; exact S1].
  exists (match s1 with Taint => Taint | _ => In end). split; [intros w2; destruct s1; try reflexivity; destruct (S1 eq_refl)|].
  cbn. left. destruct s1; discriminate.
Qed.
Lemma keepq_attach c mr : keepq (put_cm (fun m => cmset_client false (cmset_retries mr (cmset_proto (Some c) m)))).
Proof. intros w. split; reflexivity. Qed.
Lemma keepq_fold {X} (f : world -> X -> world) : (forall x, keepq (fun w => f w x)) -> forall l w, locked (fold_left f l w) = locked w /\ (quietw w -> quietw (fold_left f l w)).
Proof.
  intros K. induction l as [|x l IH]; intros w; cbn [fold_left]; [auto|]. destruct (K x w) as (A & B). destruct (IH (f w x)) as (C & D). split; [congruence|auto].
Qed.
Lemma keepq_register c code h : keepq (register c code h). Proof. apply keepq_conn. auto. Qed.
Lemma l_attach connect c mr : neat connect -> late (tattach connect c mr).
Proof.
  intros C. apply l_bind; [apply neat_late, n_do, keepq_attach|]. intros _. apply l_get. intros need. apply l_if; [|apply neat_late; nt].
  apply l_bind; [apply neat_late, n_do, keepq_conn; auto|]. intros _.
  apply l_bind; [apply neat_late, n_do; intros w; apply (keepq_fold (fun w code => register c code (HClient code) w)); intros x; apply keepq_register|].
  intros _. apply l_subscribe, C.
Qed.
Lemma n_poll connect key_ m : neat connect -> (forall mr c, neat (m mr c)) -> neat (tpoll connect key_ m).
Proof. intros C M. apply n_bind; [apply n_connected; assumption|]. intros [x|]; [|nt]. apply n_do, keepq_same; reflexivity. Qed.
(** what follows a connection that opened is done outside the lock, or after a new connection *)
Lemma n_to_gateway {B} ip port mr (f : option (nat * pystr) -> task B) : (forall x, late (f x)) -> neat (tbind (tconnect_to_gateway ip port mr) f).
Proof.
  intros F s N r.
  assert (K : forall s', s' = Out \/ s' = Taint -> hl s' (tbind (tbind (tget (fun w => pred (List.length (w_conns w)))) (fun c => mac <- tgateway_connect c mr ;; ok <- tgateway_login c mr ;;
      tret (if ok then Some (c, mac) else None))) f) (back s')).
  { intros s' L. apply l_bind; [|exact F|exact L]. apply neat_late. apply n_get. intros c. apply n_bind; [apply n_challenge|]. intros mac. apply n_bind; [apply n_login|]. intros; nt. }
  destruct r; try (destruct s; exact (ok_done _ _)).
  destruct s; [exact (K Out (or_introl eq_refl))|destruct (N eq_refl)| |exact (K Taint (or_intror eq_refl))].
  refine (hl_mono _ Taint _ _ (K Taint (or_intror eq_refl)) _).
  intros s' o [L|St]; [left|right; exact St]. destruct L as [->|(-> & _)]; right; (split; [reflexivity|discriminate]).
Qed.
Lemma n_connect : forall n x, neat (tasync_connect n x).
Proof.
  induction n as [|n IH]; intros x; cbn [tasync_connect]; [nt|]. apply n_get. intros up. destruct up; [nt|].
  apply n_bind; [apply n_do, keepq_same; reflexivity|]. intros _. apply n_get. intros no. destruct no; [nt|].
  do 3 (apply n_get; intros ?). apply n_to_gateway. intros [[c mac]|]; [|apply neat_late; nt].
  apply l_bind; [apply neat_late, n_do, keepq_same; reflexivity|]. intros _. apply l_get. intros mr1.
  apply l_bind; [apply neat_late, n_version|]. intros v. apply l_bind; [apply neat_late, n_do, keepq_same; reflexivity|]. intros _.
  apply l_get. intros d. apply l_if; [|apply neat_late; nt].
  apply l_bind; [apply neat_late, n_poll; [apply IH|intros; apply n_data]|]. intros _.
  apply l_bind; [apply neat_late, n_proto|]. intros c2. apply l_get. intros mr2. apply l_bind; [apply l_attach, IH|]. intros _. apply neat_late. nt.
Qed.
Lemma n_command {A} n (method : Z -> nat -> task A) d : (forall mr c, neat (method mr c)) -> neat (tcommand n method d).
Proof. intros M. apply n_connected; [apply n_connect|exact M]. Qed.
Lemma n_get_poll n key_ m : (forall mr c, neat (m mr c)) -> neat (tget_poll n key_ m).
Proof. intros M. apply n_poll; [apply n_connect|exact M]. Qed.
Lemma n_setting n X p d : neat (tcommand n (tcommand_request X p) d).
Proof. apply n_command. intros mr c. apply n_command_request. Qed.
Lemma pumps_conns w : w_conns (pumps_entry w) = w_conns w.
Proof. unfold pumps_entry. repeat match goal with |- context [match ?x with _ => _ end] => destruct x end; reflexivity. Qed.
Lemma pump_conns i b w : w_conns (store_pump i b w) = w_conns w.
Proof. unfold store_pump. repeat match goal with |- context [match ?x with _ => _ end] => destruct x end; reflexivity. Qed.
Lemma n_pumps n : forall ids, neat (tpumps_loop n ids).
Proof.
  induction ids as [|i ids IH]; cbn [tpumps_loop]; [nt|]. apply n_get. intros f. apply n_lift. intros flags.
  apply n_bind; [|intros _; exact IH]. apply n_if; [nt|]. apply n_bind; [apply n_do, keepq_same; [apply P_Term.pumps_entry_cm|apply pumps_conns]|]. intros _.
  apply n_bind; [apply n_command; intros; apply n_pump|]. intros [x|]; [|nt]. apply n_do, keepq_same; [apply P_Term.store_pump_cm|apply pump_conns].
Qed.
Lemma n_require x : neat (trequire x). Proof. apply n_lift. intros up. destruct up; nt. Qed.
Lemma keepq_listen code cb : keepq (put_cm (fun m => cmset_listeners (add_listener code cb (m_listeners m)) m)).
Proof. intros w. split; [reflexivity|]. auto. Qed.
Lemma keepq_unlisten code cb : keepq (put_cm (fun m => cmset_listeners (drop_listener code cb (m_listeners m)) m)).
Proof. intros w. split; [reflexivity|]. auto. Qed.
Lemma l_perform n c : late (tperform n c).
Proof.
  destruct c; cbn [tperform];
    try (apply neat_late, n_get_poll; intros; first [apply n_data|apply n_date]; fail);
    try (apply neat_late; repeat match goal with
         | |- neat (tbind (tget _) _) => apply n_get; intros ?
         | |- neat (tbind (trequire _) _) => apply n_bind; [apply n_require|intros _]
         | |- neat (tbind (tlift _) _) => apply n_lift; intros ?
         | x : _ * _ |- _ => destruct x
         end; apply n_setting; fail).
  - apply neat_late, n_bind; [apply n_connect|intros; nt].
  - apply neat_late, n_disconnect.
  - apply neat_late, n_pumps.
  - apply neat_late. unfold tasync_update. apply n_get. intros d. destruct d; [nt|].
    apply n_bind; [apply n_get_poll; intros; apply n_data|intros _].
    apply n_bind; [apply n_pumps|intros _].
    apply n_bind; [apply n_get_poll; intros; apply n_data|intros _].
    apply n_bind; [apply n_get_poll; intros; apply n_data|intros _].
    apply n_get_poll; intros; apply n_date.
  - apply neat_late, n_if; [|nt]. apply n_do, keepq_same; reflexivity.
  - apply neat_late, n_bind; [|intros; nt]. apply n_command. intros mr c. apply n_request.
  - apply neat_late, n_get. intros [c|]; [|nt]. apply n_do, keepq_conn. auto.
  - apply neat_late, n_get. intros [c|]; [|nt]. apply n_do, keepq_conn. auto.
  - unfold tasync_subscribe_client. apply l_bind; [|intros; apply neat_late; nt]. apply l_get. intros a. apply l_if; [apply neat_late; nt|].
    apply l_bind; [apply neat_late, n_do, keepq_listen|]. intros _. apply l_bind; [apply neat_late, n_m_proto|]. intros c.
    apply l_bind; [apply neat_late, n_do, keepq_register|]. intros _. apply l_get. intros need.
    apply l_bind; [apply l_if; [apply l_subscribe, n_connect|apply neat_late; nt]|]. intros _. apply neat_late. nt.
  - apply neat_late. unfold tremove_subscription. apply n_get. intros on. apply n_if; [nt|]. apply n_bind; [apply n_do, keepq_unlisten|]. intros _.
    apply n_get. intros more. apply n_get. intros a. apply n_if; [|nt]. apply n_bind; [apply n_m_proto|]. intros c. apply n_do, keepq_conn. auto.
  - apply l_unsubscribe.
  - apply neat_late. unfold tasync_ping. apply n_catch; [|intros; nt]. apply n_bind; [apply n_m_proto|]. intros c. apply n_command_request.
Qed.

(** * along a schedule *)
Lemma advance_hl {A} (m : task A) (Q : place -> out A -> Prop) : forall s w t w' m', hl s m Q ->
  (s <> Out -> locked w = true) -> (s = Quiet -> quietw w) -> advance m w = (t, w', m') ->
  exists s', hl s' m' Q /\ (s' <> Out -> locked w' = true) /\ (s' = Quiet -> quietw w') /\ (s' <> Out -> s = Out -> locked w = false) /\
    (s' = Out -> locked w' = match s with Out => locked w | _ => false end) /\
    (s = Out -> locked w = true -> quietw w -> quietw w') /\ (s' = Taint -> s = Taint).
Proof.
  induction m as [o|k IH|f k IH|e k IH|k IH xx IHx]; intros s w t w' m' L O J E; cbn [advance] in E.
  - injection E as <- <- <-. exists s. repeat (split; [solve [auto|intros; contradiction|intros ->; reflexivity]|]). auto.
  - cbn [hl] in L. specialize (L w J).
    assert (NS : looked s w <> Out -> s <> Out) by (destruct s; cbn; intros H; try discriminate; exact H).
    destruct (IH w (looked s w) w t w' m' L) as (s' & A1 & A2 & A3 & A4 & A5 & A6 & A7);
      [intros H; apply O, NS, H|intros H; destruct s; cbn in H; try discriminate H; [|apply J; reflexivity]; unfold quietw; destruct (is_client w); [discriminate H|reflexivity]|exact E|].
    exists s'. split; [exact A1|]. split; [exact A2|]. split; [exact A3|]. split; [intros H ->; apply A4; auto|].
    split; [intros H; rewrite (A5 H); destruct s; try reflexivity; cbn; destruct (is_client w); reflexivity|]. split; [intros ->; apply A6; reflexivity|].
    intros H. specialize (A7 H). destruct s; try discriminate A7; [|reflexivity]. cbn in A7. destruct (is_client w); discriminate A7.
  - cbn [hl] in L. destruct L as (s1 & M & L). specialize (M w). cbv beta in M. destruct (f w) as [t1 w1]. cbn [snd] in M.
    destruct (advance k w1) as [[t2 w2] m2] eqn:AD. injection E as <- <- <-.
    destruct (IH s1 w1 t2 w2 m2 L) as (s' & A1 & A2 & A3 & A4 & A5 & A6 & A7); [| |exact AD|].
    + intros N. destruct s, s1; try contradiction; try destruct M as (M & _); rewrite M; apply O; discriminate.
    + intros ->. destruct s; try contradiction; destruct M as (_ & M); [exact M|apply M, J; reflexivity].
    + exists s'. split; [exact A1|]. split; [exact A2|]. split; [exact A3|]. split; [|split; [|split]].
      * intros N ->. destruct s1; try contradiction. destruct M as (M & _). rewrite <- M. auto.
      * intros H. rewrite (A5 H). destruct s, s1; try contradiction; try reflexivity; try exact M; destruct M as (M & _); exact M.
      * intros -> LW QW. destruct s1; try contradiction. destruct M as (M1 & M2). apply A6; [reflexivity|congruence|auto].
      * intros H. rewrite (A7 H) in M. destruct s; try contradiction. reflexivity.
  - injection E as <- <- <-. exists s. repeat (split; [solve [auto|intros; contradiction|intros ->; reflexivity]|]). auto.
  - cbn [hl] in L. fold (locked w) in E. destruct s; try contradiction.
    + destruct (locked w) eqn:LW.
      * injection E as <- <- <-. exists Out. split; [exact L|]. split; [intros H; destruct (H eq_refl)|]. split; [discriminate|]. split; [intros H; destruct (H eq_refl)|].
        split; [auto|]. split; [auto|discriminate].
      * destruct (IH In (put_cm (cmset_locked true) w) t w' m' (proj1 L)) as (s' & A1 & A2 & A3 & A4 & A5 & A6 & A7); [reflexivity|discriminate|exact E|].
        exists s'. split; [exact A1|]. split; [exact A2|]. split; [exact A3|]. split; [auto|]. split; [exact A5|]. split; [discriminate|]. intros H. discriminate (A7 H).
    + rewrite O in E by discriminate. injection E as <- <- <-. exists Taint. split; [exact L|]. split; [intros _; apply O; discriminate|]. split; [discriminate|].
      split; [discriminate|]. split; [discriminate|]. split; [discriminate|reflexivity].
Qed.

Record Dinv (P : Pool.pool) (owner : option (nat * place)) : Prop := {
  D_locked : locked (p_world P) = match owner with Some _ => true | None => false end;
  D_owner : forall j s, owner = Some (j, s) -> s <> Out /\ (s = Quiet -> quietw (p_world P)) /\ exists m, nth_error (p_tasks P) j = Some m /\ hl s m (back Out);
  D_other : forall j m, nth_error (p_tasks P) j = Some m -> (forall s, owner <> Some (j, s)) -> hl Out m (back Out) }.
Definition tainted (owner : option (nat * place)) : Prop := exists j, owner = Some (j, Taint).
Definition place_of (i : nat) (owner : option (nat * place)) : place := match owner with Some (j, s) => if Nat.eqb j i then s else Out | None => Out end.
Lemma place_owner i owner s : place_of i owner = s -> s <> Out -> owner = Some (i, s).
Proof. unfold place_of. destruct owner as [(j, s0)|]; [|intros <- N; destruct (N eq_refl)]. destruct (Nat.eqb_spec j i) as [->|]; [intros ->; reflexivity|intros <- N; destruct (N eq_refl)]. Qed.
Lemma place_out i owner P : Dinv P owner -> place_of i owner = Out -> forall s, owner <> Some (i, s).
Proof. intros I E s ->. cbn in E. rewrite Nat.eqb_refl in E. subst s. destruct (D_owner _ _ I _ _ eq_refl) as (N & _). apply N. reflexivity. Qed.

(** who holds the lock gives it up before somebody else takes it *)
Definition handed (owner owner' : option (nat * place)) : Prop := forall j s, owner = Some (j, s) -> owner' = None \/ exists s', owner' = Some (j, s').
Lemma handed_same owner : handed owner owner. Proof. intros j s ->. right. eauto. Qed.
Lemma Dinv_step P owner i s m w t w' m' tasks' g : Dinv P owner -> hl s m (back Out) ->
  (place_of i owner = Out <-> s = Out) -> (s = Quiet -> quietw w) ->
  locked w = locked (p_world P) -> (quietw (p_world P) -> quietw w) ->
  (forall j, j <> i -> nth_error tasks' j = nth_error (p_tasks P) j) -> nth_error tasks' i = Some m' ->
  advance m w = (t, w', m') ->
  exists owner', Dinv (mkPool w' tasks' g) owner' /\ (tainted owner' -> tainted owner \/ s = Taint) /\ handed owner owner'.
Proof.
  intros I L SP SQ LW QW T1 T2 AD.
  assert (LO : s <> Out -> locked w = true).
  { intros N. rewrite LW, (D_locked _ _ I). destruct owner; [reflexivity|]. destruct N. apply SP. reflexivity. }
  destruct (advance_hl m (back Out) s w t w' m' L LO SQ AD) as (s' & A1 & A2 & A3 & A4 & A5 & A6 & A7).
  assert (DS : s' = Out \/ s' <> Out) by (destruct s'; auto; right; discriminate). destruct DS as [ES|NS].
  2:{ assert (HD : handed owner (Some (i, s'))).
      { intros j s0 ->. destruct (Nat.eq_dec j i) as [->|N]; [right; eauto|exfalso].
        assert (Z : s = Out) by (apply SP; cbn; apply Nat.eqb_neq in N; rewrite N; reflexivity).
        specialize (A4 NS Z). rewrite LW, (D_locked _ _ I) in A4. discriminate A4. }
      exists (Some (i, s')). split; [|split; [intros (j & B); injection B as _ B; right; auto|exact HD]]. split; cbn [p_world p_tasks].
      - apply A2, NS.
      - intros j s0 B. injection B as <- <-. split; [exact NS|]. split; [exact A3|exists m'; auto].
      - intros j mj NJ NO. assert (N : j <> i) by (intros ->; apply (NO s'); reflexivity). rewrite (T1 _ N) in NJ.
        apply (D_other _ _ I _ _ NJ). intros s0 EO. subst owner. assert (Z : s = Out) by (apply SP; cbn; apply Nat.eqb_neq in N; rewrite N; reflexivity).
        specialize (A4 NS Z). rewrite LW, (D_locked _ _ I) in A4. discriminate A4. }
  assert (DP : place_of i owner = Out \/ place_of i owner <> Out) by (destruct (place_of i owner); auto; right; discriminate). destruct DP as [PO|PO].
  2:{ assert (S : s <> Out) by (intros S; apply PO, SP, S). exists None. split; [|split; [intros (j & B); discriminate B|intros j0 s0 _; left; reflexivity]]. split; cbn [p_world p_tasks].
      - rewrite (A5 ES). destruct s; try reflexivity. destruct (S eq_refl).
      - discriminate.
      - intros j mj NJ _. destruct (Nat.eq_dec j i) as [->|N]; [rewrite T2 in NJ; injection NJ as <-; rewrite ES in A1; exact A1|]. rewrite (T1 _ N) in NJ.
        apply (D_other _ _ I _ _ NJ). intros s0 EO. apply N. pose proof (place_owner i owner _ eq_refl PO) as EO2. rewrite EO in EO2. injection EO2. auto. }
  assert (S : s = Out) by (apply SP, PO). exists owner. split; [|split; [auto|apply handed_same]]. split; cbn [p_world p_tasks].
  - rewrite (A5 ES), S, LW. apply (D_locked _ _ I).
  - intros j s0 EO. destruct (D_owner _ _ I _ _ EO) as (B1 & B2 & mj & NJ & B3). split; [exact B1|]. split.
    + intros Q. apply A6; [exact S|rewrite LW, (D_locked _ _ I), EO; reflexivity|apply QW, B2, Q].
    + exists mj. split; [|exact B3]. rewrite T1; [exact NJ|]. intros ->. apply (place_out _ _ _ I PO s0 EO).
  - intros j mj NJ NO. destruct (Nat.eq_dec j i) as [->|N]; [rewrite T2 in NJ; injection NJ as <-; rewrite ES in A1; exact A1|].
    rewrite (T1 _ N) in NJ. apply (D_other _ _ I _ _ NJ NO).
Qed.

(** the manager's connection was opened *)
Definition valid (w : world) : Prop := forall c, m_proto (w_cm w) = Some c -> (c < List.length (w_conns w))%nat.
Lemma quiet_open e k w clk : valid w -> quietw w -> quietw (set_clock clk (opened_by e k w)).
Proof.
  intros V J. destruct e; try exact J. destruct k; try exact J. unfold quietw, is_client, attached in *. cbn [set_clock opened_by set_conns w_cm].
  destruct (m_is_client (w_cm w)); [|reflexivity]. cbn [andb] in *. destruct (m_proto (w_cm w)) as [c|] eqn:E; [|reflexivity].
  unfold connected, get_conn in *. cbn [set_clock set_conns w_conns]. rewrite app_nth1 by (apply V, E). exact J.
Qed.
Lemma Dinv_world P owner w g : Dinv P owner -> locked w = locked (p_world P) -> (quietw (p_world P) -> quietw w) -> Dinv (mkPool w (p_tasks P) g) owner.
Proof.
  intros I LW QW. split; cbn [p_world p_tasks]; [rewrite LW; apply (D_locked _ _ I)| |apply (D_other _ _ I)].
  intros j s EO. destruct (D_owner _ _ I _ _ EO) as (A & B & C). auto.
Qed.
Lemma Dinv_pstep n P owner e : P_Moves.all_made P -> valid (p_world P) -> Dinv P owner ->
  exists owner', Dinv (pstep n P e) owner' /\ (SpecTerm.opens (pstep n P e) = SpecTerm.opens P -> tainted owner' -> tainted owner) /\ handed owner owner'.
Proof.
  intros OM V I. destruct e as [c|i k clock|i|c|c code b|]; [cbn [pstep]..|].
  - destruct (advance (tperform n c) (p_world P)) as [[t w'] m'] eqn:AD.
    assert (NO : place_of (List.length (p_tasks P)) owner = Out).
    { unfold place_of. destruct owner as [(j, s)|]; [|reflexivity]. destruct (D_owner _ _ I _ _ eq_refl) as (_ & _ & m & NJ & _).
      destruct (Nat.eqb_spec j (List.length (p_tasks P))) as [->|]; [|reflexivity]. rewrite (proj2 (nth_error_None (p_tasks P) _) (le_n _)) in NJ. discriminate NJ. }
    eapply (Dinv_step P owner (List.length (p_tasks P)) Out _ (p_world P) t w' m') in I;
      [destruct I as (o' & D & T & HH); exists o'; split; [exact D|split; [intros _ H; destruct (T H) as [Z|Z]; [exact Z|discriminate Z]|exact HH]]|apply l_perform; auto|rewrite NO; tauto|discriminate|reflexivity|auto| | |exact AD].
    + intros j N. destruct (Nat.lt_ge_cases j (List.length (p_tasks P))) as [LT|GE]; [apply nth_error_app1, LT|].
      rewrite (proj2 (nth_error_None _ _) GE). apply nth_error_None. rewrite app_length. cbn. lia.
    + rewrite nth_error_app2, Nat.sub_diag by lia. reflexivity.
  - destruct (nth_error (p_tasks P) i) as [[o|q|f q|e q|q x]|] eqn:NI; try (exists owner; split; [exact I|split; [auto|apply handed_same]]).
    2: { destruct k; try (exists owner; split; [exact I|split; [auto|apply handed_same]]).
      destruct (advance x (set_clock clock (p_world P))) as [[t w'] m'] eqn:AD.
      assert (LT : (i < List.length (p_tasks P))%nat) by (apply nth_error_Some; rewrite NI; discriminate).
      assert (HW : hl (place_of i owner) (Lock q x) (back Out) /\ (place_of i owner = Quiet -> quietw (p_world P))).
      { destruct (place_of i owner) eqn:PO; [split; [|discriminate]; apply (D_other _ _ I _ _ NI), (place_out _ _ _ I PO)|..];
          (destruct (D_owner _ _ I _ _ (place_owner _ _ _ PO ltac:(discriminate))) as (_ & B & m & NJ & L); rewrite NI in NJ; injection NJ as <-; auto). }
      destruct HW as (HW & HQ). cbn [hl] in HW. destruct (place_of i owner) eqn:PO; [|destruct HW|destruct HW|].
      + eapply (Dinv_step P owner i Out x (set_clock clock (p_world P)) t w' m') in I;
          [destruct I as (o' & D & T & HH); exists o'; split; [exact D|split; [intros _ H; destruct (T H) as [Z|Z]; [exact Z|discriminate Z]|exact HH]]|exact (proj2 HW)|rewrite PO; tauto|discriminate|reflexivity|auto| | |exact AD].
        * intros j N. apply lset_other. congruence.
        * apply lset_eq. exact LT.
      + eapply (Dinv_step P owner i Taint x (set_clock clock (p_world P)) t w' m') in I;
          [destruct I as (o' & D & T & HH); exists o'; split; [exact D|split; [intros _ H; exists i; apply place_owner; [exact PO|discriminate]|exact HH]]|exact HW|rewrite PO; split; discriminate|discriminate|reflexivity|auto| | |exact AD].
        * intros j N. apply lset_other. congruence.
        * apply lset_eq. exact LT. }
    destruct (fits e k); [|exists owner; split; [exact I|split; [auto|apply handed_same]]].
    destruct (advance (q k) (set_clock clock (opened_by e k (p_world P)))) as [[t w'] m'] eqn:AD.
    assert (LT : (i < List.length (p_tasks P))%nat) by (apply nth_error_Some; rewrite NI; discriminate).
    assert (HW : hl (place_of i owner) (Wait e q) (back Out) /\ (place_of i owner = Quiet -> quietw (p_world P))).
    { destruct (place_of i owner) eqn:PO; [split; [|discriminate]; apply (D_other _ _ I _ _ NI), (place_out _ _ _ I PO)|..];
        (destruct (D_owner _ _ I _ _ (place_owner _ _ _ PO ltac:(discriminate))) as (_ & B & m & NJ & L); rewrite NI in NJ; injection NJ as <-; auto). }
    destruct HW as (HW & HQ). cbn [hl] in HW. specialize (HW k).
    assert (LW : locked (set_clock clock (opened_by e k (p_world P))) = locked (p_world P)) by (destruct e; try reflexivity; destruct k; reflexivity).
    assert (GR : place_of i owner <> Taint -> taints e k (place_of i owner) = Taint -> SpecTerm.opens (mkPool w' (lset i m' (p_tasks P)) (p_log P ++ By i (Got (mkResp k [] None clock)) :: map (By i) t)) <> SpecTerm.opens P).
    { intros NT Z. assert (X : exists ip port ms, e = Open ip port ms /\ k = KDone).
      { destruct e; try (cbn in Z; contradiction). destruct k; try (cbn in Z; contradiction). eauto. }
      destruct X as (ip & port & ms & -> & ->). assert (MA : P_Moves.made (q KDone)) by exact (proj2 (OM _ (nth_error_In _ _ NI)) KDone).
      destruct (P_Moves.advance_made _ P_Moves.goes_keeps _ _ _ _ _ MA AD) as ((L2 & _) & _). unfold SpecTerm.opens. cbn [p_world].
      cbn [set_clock opened_by set_conns w_conns] in L2. rewrite app_length in L2. cbn [List.length] in L2. lia. }
    eapply (Dinv_step P owner i (taints e k (place_of i owner)) _ (set_clock clock (opened_by e k (p_world P))) t w' m') in I;
      [destruct I as (o' & D & T & HH); exists o'; split; [exact D|split; [|exact HH]]| | | |exact LW|apply quiet_open, V| | |exact AD].
    + intros EQ H. destruct (T H) as [Z|Z]; [exact Z|].
      assert (DT : place_of i owner = Taint \/ place_of i owner <> Taint) by (destruct (place_of i owner); auto; right; discriminate).
      destruct DT as [PO|PO]; [exists i; apply place_owner; [exact PO|discriminate]|]. destruct (GR PO Z). exact EQ.
    + exact HW.
    + split; [|]; destruct (place_of i owner), e; cbn; try tauto; destruct k; cbn; intros; try discriminate; auto.
    + intros Z. apply quiet_open; [exact V|]. apply HQ. destruct (place_of i owner), e; cbn in Z; try discriminate Z; try reflexivity; destruct k; cbn in Z; try discriminate Z; reflexivity.
    + intros j N. apply lset_other. congruence.
    + apply lset_eq. exact LT.
  - destruct (nth_error (p_tasks P) i) as [[o|q|f q|e q|q x]|] eqn:NI; try (exists owner; split; [exact I|split; [auto|apply handed_same]]).
    destruct (advance (Lock q x) (p_world P)) as [[t w'] m'] eqn:AD.
    assert (LT : (i < List.length (p_tasks P))%nat) by (apply nth_error_Some; rewrite NI; discriminate).
    assert (HW : hl (place_of i owner) (Lock q x) (back Out) /\ (place_of i owner = Quiet -> quietw (p_world P))).
    { destruct (place_of i owner) eqn:PO; [split; [|discriminate]; apply (D_other _ _ I _ _ NI), (place_out _ _ _ I PO)|..];
        (destruct (D_owner _ _ I _ _ (place_owner _ _ _ PO ltac:(discriminate))) as (_ & B & m & NJ & L); rewrite NI in NJ; injection NJ as <-; auto). }
    destruct HW as (HW & HQ). destruct (place_of i owner) eqn:PO; [|destruct HW|destruct HW|].
    + eapply (Dinv_step P owner i Out (Lock q x) (p_world P) t w' m') in I;
        [destruct I as (o' & D & T & HH); exists o'; split; [exact D|split; [intros _ H; destruct (T H) as [Z|Z]; [exact Z|discriminate Z]|exact HH]]|exact HW|rewrite PO; tauto|discriminate|reflexivity|auto| | |exact AD].
      * intros j N. apply lset_other. congruence.
      * apply lset_eq. exact LT.
    + eapply (Dinv_step P owner i Taint (Lock q x) (p_world P) t w' m') in I;
        [destruct I as (o' & D & T & HH); exists o'; split; [exact D|split; [intros _ H; exists i; apply place_owner; [exact PO|discriminate]|exact HH]]|exact HW|rewrite PO; split; discriminate|discriminate|reflexivity|auto| | |exact AD].
      * intros j N. apply lset_other. congruence.
      * apply lset_eq. exact LT.
  - pose proof (keepq_lose c (p_world P)) as (A & B). destruct (lose c (p_world P)) as [t w']. exists owner. split; [apply Dinv_world; assumption|split; [auto|apply handed_same]].
  - destruct (handler_of c code (p_world P)) as [[h|h]|]; try (exists owner; split; [exact I|split; [auto|apply handed_same]]).
    exists owner. split; [apply Dinv_world; [exact I|reflexivity|auto]|split; [auto|apply handed_same]].
  - destruct (pstep_handle_at n P) as [->|(c0 & code0 & b0 & l0 & cbs & _ & _ & ->)]; exists owner; (split; [try exact I|split; [auto|apply handed_same]]).
    apply Dinv_world; [exact I|reflexivity|auto].
Qed.
