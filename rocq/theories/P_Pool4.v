(** How often a task sends the message of its call: another instance of the logic of P_Pool.v. *)
From Verif Require Import Py F64 Struct Utf Utility Const Spec Enum Decode Messages Calls World Request Gateway Traces Paths Api Tasks Pool SpecPool P_Pool.
From Verif Require P_Base P_Calm.

(** every message in [t] is followed by the wait for its reply and the end of that wait *)
Definition settled (t : trace) : Prop :=
  forall t1 c X p t2, t = t1 ++ Send c X p :: t2 -> exists ms r t3, t2 = AwaitReply c ms :: Got r :: t3.
Lemma settled_nil : settled []. Proof. intros [|? ?] c X p t2 E; discriminate E. Qed.
Lemma split_app2 {X} (a b : list X) : forall g1 x g2, a ++ b = g1 ++ x :: g2 ->
  (exists g3, a = g1 ++ x :: g3 /\ g2 = g3 ++ b) \/ (exists g3, g1 = a ++ g3 /\ b = g3 ++ x :: g2).
Proof.
  induction a as [|y a IH]; intros g1 x g2 E; cbn [app] in E; [right; exists g1; auto|].
  destruct g1 as [|z g1]; cbn [app] in E; injection E as -> E; [left; exists a; auto|].
  destruct (IH _ _ _ E) as [(g3 & -> & ->)|(g3 & -> & ->)]; [left; exists g3; auto|right; exists g3; auto].
Qed.
Lemma settled_app a b : settled a -> settled b -> settled (a ++ b).
Proof.
  intros A B t1 c X p t2 E. apply split_app2 in E. destruct E as [(g3 & E & ->)|(g3 & -> & E)].
  - destruct (A _ _ _ _ _ E) as (ms & r & t3 & ->). exists ms, r, (t3 ++ b). reflexivity.
  - exact (B _ _ _ _ _ E).
Qed.
Lemma settled_no_send t : (forall c X p, ~ In (Send c X p) t) -> settled t.
Proof. intros N t1 c X p t2 ->. exfalso. apply (N c X p). apply in_or_app. right. left. reflexivity. Qed.
Lemma settled_exchange c X p ms r : settled [Send c X p; AwaitReply c ms; Got r].
Proof.
  intros [|y t1] c' X' p' t2 E; cbn [app] in E.
  - injection E as <- <- <- <-. eauto.
  - exfalso. injection E as _ E. destruct t1 as [|y' t1]; [discriminate E|]. injection E as _ E. destruct t1 as [|y'' t1]; [discriminate E|]. injection E as _ E. destruct t1; discriminate E.
Qed.
Lemma answered_settled X r a b : settled a -> answered X r (a ++ b) -> answered X r a \/ answered X r b.
Proof.
  intros S (t1 & c & p & ms & t2 & E). apply split_app2 in E. destruct E as [(g3 & -> & E)|(g3 & -> & E)].
  - left. destruct (S _ _ _ _ _ eq_refl) as (ms' & r' & t3 & ->). cbn [app] in E. injection E as <- <- ->. exists t1, c, p, ms, t3. reflexivity.
  - right. exists g3, c, p, ms, t2. exact E.
Qed.
Lemma answered_sends X r t : answered X r t -> sends_of X t <> [].
Proof. intros (t1 & c & p & ms & t2 & ->) E. rewrite sends_of_app in E. cbn [sends_of flat_map] in E. rewrite Z.eqb_refl in E. apply app_eq_nil in E. destruct E as (_ & E). discriminate E. Qed.
Lemma answered_exchange X r c Y p ms r' : answered X r [Send c Y p; AwaitReply c ms; Got r'] -> r = r'.
Proof.
  intros (t1 & c1 & p1 & ms1 & t2 & E). destruct t1 as [|y t1]; [injection E; congruence|]. exfalso.
  cbn [app] in E. injection E as _ E. destruct t1 as [|y' t1]; [discriminate E|]. injection E as _ E. destruct t1 as [|y'' t1]; [discriminate E|]. injection E as _ E. destruct t1; discriminate E.
Qed.

Lemma answered_l X r a b : answered X r a -> answered X r (a ++ b).
Proof. intros (t1 & c & p & ms & t2 & ->). exists t1, c, p, ms, (t2 ++ b). rewrite <- app_assoc. reflexivity. Qed.
Lemma answered_r X r a b : answered X r b -> answered X r (a ++ b).
Proof. intros (t1 & c & p & ms & t2 & ->). exists (a ++ t1), c, p, ms, t2. rewrite <- app_assoc. reflexivity. Qed.

(** a connection that is neither closed nor being closed can be written to *)
Definition sane (w : world) : Prop := 0 <= w_retries w <= 5 /\
  forall c, connected c w = true -> c_closing (get_conn c w) = false -> c_open (get_conn c w) = true.
Lemma sane_same w w' : w_retries w' = w_retries w -> w_conns w' = w_conns w -> sane w -> sane w'.
Proof. unfold sane, connected, get_conn. intros -> ->. auto. Qed.
Definition fine (k : conn) : Prop := c_connected k = true -> c_closing k = false -> c_open k = true.
Lemma sane_conns cs w : (forall k, In k cs -> fine k) -> sane w -> sane (set_conns cs w).
Proof.
  intros F (R & _). split; [exact R|]. intros c. unfold connected, get_conn. cbn [set_conns w_conns].
  destruct (nth_in_or_default c cs dead_conn) as [J| ->]; [apply (F _ J)|discriminate].
Qed.
Lemma fine_all w k : sane w -> In k (w_conns w) -> fine k.
Proof.
  intros (_ & S) J. destruct (In_nth _ _ dead_conn J) as (c & L & E). specialize (S c). unfold connected, get_conn in S. rewrite E in S. exact S.
Qed.
Lemma in_lset {X} (x : X) l : forall i y, In y (lset i x l) -> y = x \/ In y l.
Proof. induction l as [|z l IH]; intros [|i] y J; cbn [lset In] in *; intuition eauto. destruct (IH _ _ H); auto. Qed.
Lemma sane_upd c f w : (fine (get_conn c w) -> fine (f (get_conn c w))) -> sane w -> sane (upd_conn c f w).
Proof.
  intros F S. unfold upd_conn. apply sane_conns; [|exact S]. intros k J. apply in_lset in J. destruct J as [->|J]; [|eapply fine_all; eassumption].
  apply F. destruct S as (_ & S). exact (S c).
Qed.
Lemma sane_opened e kd w : sane w -> sane (opened_by e kd w).
Proof.
  intros S. destruct e; try exact S. destruct kd; try exact S. cbn [opened_by]. apply sane_conns; [|exact S].
  intros k J. apply in_app_or in J. destruct J as [J|[<-|[]]]; [eapply fine_all; eassumption|]. intros _ _. reflexivity.
Qed.
Lemma sane_lose c w : sane w -> sane (snd (lose c w)).
Proof. intros S. unfold lose. destruct (connected c w); cbn [snd]; [|exact S]. apply sane_upd; [|exact S]. intros _ Y. discriminate Y. Qed.

Section Rounds.
  Variable X0 : Z.
  Hypothesis NC : ~ connecting_code X0.
  (** the tasks [who] that are known to begin while max_retries is [lim] *)
  Variables (who : nat -> Prop) (lim : nat).
  Definition spent (g : trace) : nat := List.length (sends_of X0 g).
  Definition untaken (call : api_call) (t : trace) : Prop := forall r b, answered X0 r t -> answer_of r = Some (X0 + 1, b) -> ~ takes call b.

  Definition acked (t : trace) : Prop := exists r, answered X0 r t /\ answer_of r = Some (X0 + 1, []).
  Definition Inv2 (g : log) (w : world) : Prop := sane w.
  Definition ok2 (i : nat) (g : log) (e : ev) : Prop :=
    match e with
    | Send c X p => X = X0 -> forall call d, begun i g = [(call, d)] -> request_code call = Some X0 ->
        (spent (own i g) < 12)%nat /\ (who i -> (spent (own i g) < 2 * S lim)%nat) /\ untaken call (own i g)
    | _ => True
    end.
  Definition fin2 (t : trace) (b : list (api_call * dict)) (o : out unit) : Prop :=
    forall call d, b = [(call, d)] -> request_code call = Some X0 -> is_command call -> o = Val tt -> acked t.

  (** task [i] has another call *)
  Definition loose (i : nat) (g : log) : Prop := forall call d, begun i g = [(call, d)] -> request_code call <> Some X0.
  Definition free (X : Z) (i : nat) (g : log) : Prop := X <> X0 \/ loose i g.
  Definition more (i : nat) (g g' : log) : Prop :=
    begun i g' = begun i g /\ exists t, own i g' = own i g ++ t /\ settled t /\ (sends_of X0 t = [] \/ loose i g).
  Lemma more_refl i g : more i g g.
  Proof. split; [reflexivity|]. exists []. rewrite app_nil_r. split; [reflexivity|]. split; [apply settled_nil|left; reflexivity]. Qed.
  Lemma loose_same i g g' : begun i g' = begun i g -> loose i g -> loose i g'.
  Proof. intros E L call d B. apply (L call d). congruence. Qed.
  Lemma free_same X i g g' : begun i g' = begun i g -> free X i g -> free X i g'.
  Proof. intros E [L|L]; [left; exact L|right; eapply loose_same; eassumption]. Qed.
  Lemma more_trans i a b c : more i a b -> more i b c -> more i a c.
  Proof.
    intros (E1 & t1 & O1 & S1 & N1) (E2 & t2 & O2 & S2 & N2). split; [congruence|]. exists (t1 ++ t2). rewrite O2, O1, app_assoc. split; [reflexivity|].
    split; [apply settled_app; assumption|]. destruct N1 as [N1|N1]; [|right; exact N1]. destruct N2 as [N2|N2]; [left; rewrite sends_of_app, N1, N2; reflexivity|].
    right. eapply loose_same; [|exact N2]. congruence.
  Qed.
  Lemma ext_more i g g' : ext i g g' -> more i g g'.
  Proof. intros (x & -> & O & B). split; [rewrite begun_app, B, app_nil_r; reflexivity|]. exists []. rewrite own_app, O. split; [reflexivity|]. split; [apply settled_nil|left; reflexivity]. Qed.
  Lemma begun_one i g e : begun i (g ++ [By i e]) = begun i g. Proof. rewrite begun_app. cbn. apply app_nil_r. Qed.
  Lemma own_one i g e : own i (g ++ [By i e]) = own i g ++ [e]. Proof. rewrite own_app. change [By i e] with (map (By i) [e]). rewrite own_by. reflexivity. Qed.
  Definition no_send (e : ev) : Prop := match e with Send _ _ _ => False | _ => True end.
  Lemma more_one i g e : no_send e -> more i g (g ++ [By i e]).
  Proof.
    intros N. split; [apply begun_one|]. exists [e]. rewrite own_one. split; [reflexivity|]. split.
    - apply settled_no_send. intros c X p [->|[]]. exact N.
    - left. destruct e; try reflexivity. destruct N.
  Qed.
  (** a whole exchange *)
  Lemma exchange_own i g c X p ms g' r : ext i ((g ++ [By i (Send c X p)]) ++ [By i (AwaitReply c ms)]) g' ->
    begun i (g' ++ [By i (Got r)]) = begun i g /\ own i (g' ++ [By i (Got r)]) = own i g ++ [Send c X p; AwaitReply c ms; Got r].
  Proof.
    intros (x & -> & O & B). rewrite begun_one, begun_app, B, app_nil_r, !begun_one. split; [reflexivity|].
    rewrite own_one, own_app, O, app_nil_r, !own_one, <- !app_assoc. reflexivity.
  Qed.
  Lemma sends_other X c p ms r : X <> X0 -> sends_of X0 [Send c X p; AwaitReply c ms; Got r] = [].
  Proof. intros N. cbn [sends_of flat_map]. destruct (Z.eqb_spec X X0); [contradiction|reflexivity]. Qed.
  Lemma more_exchange i g c X p ms g' r : free X i g -> ext i ((g ++ [By i (Send c X p)]) ++ [By i (AwaitReply c ms)]) g' -> more i g (g' ++ [By i (Got r)]).
  Proof.
    intros F E. destruct (exchange_own _ _ _ _ _ _ _ r E) as (B & O). split; [exact B|]. eexists. split; [exact O|]. split; [apply settled_exchange|].
    destruct F as [F|F]; [left; apply sends_other; exact F|right; exact F].
  Qed.

  (** what P_Pool2.v knows *)
  Definition Rel2 (g : log) (w : world) : Prop := (forall j c f, In (By j (AwaitFutures c f)) g -> c_closing (get_conn c w) = true) /\
    forall j, who j -> begun j g = [] -> Z.to_nat (w_retries w) = lim.
  Notation sf := (safe Inv2 ok2 Rel2).
  Definition calmly {A} (i : nat) (m : task A) (g : log) (w : world) : Prop := sf i m g w (fun g' w' _ => Inv2 g' w' /\ more i g g').
  Lemma q_from {A} i (m : task A) g0 g w : more i g0 g -> calmly i m g w -> sf i m g w (fun g' w' _ => Inv2 g' w' /\ more i g0 g').
  Proof. intros M K. eapply safe_mono; [exact K|]. cbn. intros g' w' o (I & M'). split; [exact I|eapply more_trans; eassumption]. Qed.
  Lemma q_bind {A B} i (m : task A) (f : A -> task B) g w : calmly i m g w -> (forall a g' w', sane w' -> begun i g' = begun i g -> calmly i (f a) g' w') -> calmly i (tbind m f) g w.
  Proof. intros K H. apply safe_bind. eapply safe_mono; [exact K|]. cbn. intros g' w' [a|e|y] (I & M); [|split; assumption..]. apply q_from; [exact M|apply H; [exact I|apply M]]. Qed.
  Lemma q_catch {A} i (m : task A) (p : exn -> bool) (h : exn -> task A) g w : calmly i m g w -> (forall e g' w', sane w' -> begun i g' = begun i g -> calmly i (h e) g' w') -> calmly i (tcatch m p h) g w.
  Proof. intros K H. apply safe_catch. eapply safe_mono; [exact K|]. cbn. intros g' w' [a|e|y] (I & M); try (split; assumption). destruct (p e); [|split; assumption]. apply q_from; [exact M|apply H; [exact I|apply M]]. Qed.
  Lemma q_finally {A} i (m : task A) f g w : (forall w, sane w -> sane (f w)) -> calmly i m g w -> calmly i (tfinally m f) g w.
  Proof. intros E K. apply safe_finally. eapply safe_mono; [exact K|]. cbn. unfold Inv2. intros g' w' [a|e|y] (I & M); auto. Qed.
  Lemma q_done {A} i (o : out A) g w : sane w -> calmly i (Done o) g w.
  Proof. intros I. split; [exact I|apply more_refl]. Qed.
  Lemma q_get {A B} i (f : world -> A) (k : A -> task B) g w : calmly i (k (f w)) g w -> calmly i (tbind (tget f) k) g w.
  Proof. intros K. apply safe_get. exact K. Qed.
  Lemma q_do {B} i f (k : unit -> task B) g w : sane (f w) -> (forall w', sane w' -> calmly i (k tt) g w') -> calmly i (tbind (tdo f) k) g w.
  Proof. intros E K. apply safe_do. apply K. exact E. Qed.
  Lemma q_do_end i f g w : sane (f w) -> calmly i (tdo f) g w.
  Proof. intros E. unfold calmly, tdo, tret. cbn [safe fst snd map oks]. rewrite app_nil_r. split; [exact Logic.I|]. split; [exact E|apply more_refl]. Qed.
  Lemma q_lift {A B} i (r : res A) (k : A -> task B) g w : sane w -> (forall a, r = Ok a -> calmly i (k a) g w) -> calmly i (tbind (tlift r) k) g w.
  Proof. intros I K. destruct r as [a|e]; cbn [tlift tret traise tbind]; [apply K; reflexivity|]. apply q_done. exact I. Qed.
  Lemma q_lift_end {A} i (r : res A) g w : sane w -> calmly i (tlift r) g w.
  Proof. intros I. destruct r; apply q_done; exact I. Qed.
  Lemma q_emit {B} i e (k : unit -> task B) g w : no_send e -> (forall g', begun i g' = begun i g -> calmly i (k tt) g' w) -> calmly i (tbind (temit e) k) g w.
  Proof. intros N K. apply safe_emit; [destruct e; try exact Logic.I; destruct N|]. apply q_from; [apply more_one; exact N|apply K; apply begun_one]. Qed.
  Lemma sane_resumed e kd w clk : sane w -> sane (set_clock clk (opened_by e kd w)).
  Proof. intros S. apply (sane_same (opened_by e kd w)); [reflexivity|reflexivity|]. apply sane_opened. exact S. Qed.
  Lemma q_wait {B} i e (k : kind -> task B) g w : no_send e -> sane w -> (forall kd g' w', sane w' -> begun i g' = begun i g -> calmly i (k kd) g' w') -> calmly i (tbind (twait e) k) g w.
  Proof.
    intros N I K. apply safe_wait; [destruct e; try exact Logic.I; destruct N|exact I|]. intros g' w' kd clk E I' _ F.
    assert (M : more i g (g' ++ [By i (Got (mkResp kd [] None clk))])).
    { eapply more_trans; [apply more_one; exact N|]. eapply more_trans; [apply ext_more; exact E|]. apply more_one. exact Logic.I. }
    apply q_from; [exact M|]. apply K; [apply sane_resumed; exact I'|apply M].
  Qed.
  Lemma q_lock {A} i (body : task A) g w : sane w -> (forall g' w', sane w' -> begun i g' = begun i g -> calmly i body g' w') -> calmly i (twith_lock body) g w.
  Proof.
    intros I K. unfold twith_lock, calmly. cbn [safe]. split; [exact I|]. split.
    - intros g' w' E I' _. apply ext_more in E.
      apply q_from; [exact E|]. apply q_finally; [intros w2; apply sane_same; reflexivity|]. apply K; [|apply E]. revert I'. apply sane_same; reflexivity.
    - intros g' w' clk E I' _. apply ext_more in E. apply q_from; [eapply more_trans; [exact E|apply more_one; exact Logic.I]|]. apply q_done. revert I'. apply sane_same; reflexivity.
  Qed.
  Lemma q_sleep i ms g w : sane w -> calmly i (tsleep ms) g w.
  Proof. intros I. unfold tsleep. apply q_wait; [exact Logic.I|exact I|]. intros [] g' w' I' _; apply q_done; exact I'. Qed.
  Lemma q_decode {B} i dec (k : unit -> task B) g w : sane w -> (forall w', sane w' -> calmly i (k tt) g w') -> calmly i (tbind (tdecode dec) k) g w.
  Proof.
    intros I K. unfold tdecode. match goal with |- calmly i ?m g w => change m with
      (Look (fun w => tbind (let '(d, r) := dec (w_data w) in Do (fun w => ([], set_data d w)) (match r with Ok _ => tret tt | Err e => traise e end)) k)) end.
    change (calmly i (tbind (let '(d, r) := dec (w_data w) in Do (fun w => ([], set_data d w)) (match r with Ok _ => tret tt | Err e => traise e end)) k) g w).
    destruct (dec (w_data w)) as [d r]. cbn [tbind]. unfold calmly. cbn [safe fst snd oks map]. rewrite app_nil_r. split; [exact Logic.I|].
    assert (I1 : sane (set_data d w)) by (revert I; apply sane_same; reflexivity).
    destruct r as [[]|e]; cbn [tbind tret traise]; [apply K; exact I1|apply q_done; exact I1].
  Qed.

  (** other messages *)
  Lemma q_loop i c X p mr : forall left att g w, free X i g -> sane w -> calmly i (trequest_loop left att mr c X p) g w.
  Proof.
    induction left as [|left IH]; intros att g w F I; cbn [trequest_loop]; [apply q_done; exact I|].
    assert (FA : forall e g w, free X i g -> sane w -> calmly i (if att =? mr then traise e else tbind (tsleep (1000 * (COM_RETRY_WAIT * (att + 1)))) (fun _ => trequest_loop left (att + 1) mr c X p)) g w).
    { intros e g1 w1 F1 I1. destruct (att =? mr); [apply q_done; exact I1|]. apply q_bind; [apply q_sleep; exact I1|]. intros _ g2 w2 I2 B2. apply IH; [eapply free_same; eassumption|exact I2]. }
    assert (CA : forall g w, sane w -> calmly i (tbind (tget (connected c)) (fun ok : bool => if ok then tret (@None bytes) else traise ESLConnection)) g w).
    { intros g1 w1 I1. apply q_get. destruct (connected c w1); apply q_done; exact I1. }
    apply q_get. destruct (connected c w) eqn:C; cbn [negb]; [|apply q_done; exact I]. apply q_get. destruct (c_closing (get_conn c w)) eqn:G; [apply CA; exact I|].
    unfold tsend. match goal with |- calmly i (tbind (tbind (tget (get_conn c)) ?f) ?k) g w => change (calmly i (tbind (f (get_conn c w)) k) g w) end. cbn beta.
    destruct I as (R & O). rewrite (O c C G). assert (I : sane w) by (split; assumption).
    destruct (makeMessage 0 X p) as [m|e]; cbn [tlift tret traise tbind]; [|apply q_done; exact I].
    match goal with |- calmly i (tbind (temit ?e) ?k) g w => change (calmly i (tbind (temit e) (fun _ => k tt)) g w) end.
    apply safe_emit. { intros E call d B RC. exfalso. destruct F as [F|F]; [auto|]. exact (F _ _ B RC). }
    apply safe_wait; [exact Logic.I|exact I|]. intros g' w' kd clk E I' _ Fi.
    pose proof (more_exchange _ _ _ _ _ _ _ (mkResp kd [] None clk) F E) as M.
    apply q_from; [exact M|]. assert (F' := free_same _ _ _ _ (proj1 M) F).
    pose proof (sane_resumed (AwaitReply c (1000 * COM_TIMEOUT)) kd _ clk I') as I2.
    destruct kd as [rc b| |rc b| | | |]; try (apply FA; assumption); try (apply CA; assumption); try (apply q_done; assumption).
    - destruct (rc =? X + 1); [apply q_done; exact I2|]. destruct (rc =? CODE_ERROR_LOGIN_REJECTED); [apply q_done; exact I2|].
      destruct ((rc =? CODE_ERROR_INVALID_REQUEST) || (rc =? CODE_ERROR_BAD_PARAMETER)); apply FA; assumption.
    - destruct (rc =? X + 1); [apply q_done; exact I2|]. destruct (rc =? CODE_ERROR_LOGIN_REJECTED); [apply q_done; exact I2|].
      destruct ((rc =? CODE_ERROR_INVALID_REQUEST) || (rc =? CODE_ERROR_BAD_PARAMETER)); apply FA; assumption.
  Qed.
  Lemma q_request i c X p mr g w : free X i g -> sane w -> calmly i (tmake_request c X p mr) g w.
  Proof. intros F I. apply q_loop; assumption. Qed.
  Lemma q_data_request i c X p dec mr g w : free X i g -> sane w -> calmly i (tdata_request X p dec mr c) g w.
  Proof.
    intros F I. unfold tdata_request. apply q_bind; [apply q_request; assumption|]. intros r g1 w1 I1 B1.
    destruct (nonempty r); [|apply q_done; exact I1]. apply q_decode; [exact I1|]. intros w2 I2. apply q_done. exact I2.
  Qed.
  Lemma q_command_request i c X pl mr g w : free X i g -> sane w -> calmly i (tcommand_request X pl mr c) g w.
  Proof.
    intros F I. unfold tcommand_request. apply q_lift; [exact I|]. intros p _. apply q_bind; [apply q_request; assumption|]. intros r g1 w1 I1 B1.
    destruct r as [[|z b]|]; apply q_done; exact I1.
  Qed.
  Lemma con X i g : connecting_code X -> free X i g.
  Proof. intros C. left. intros ->. exact (NC C). Qed.
  Ltac cc := apply con; vm_compute; tauto.
  Lemma q_gateway_connect i c mr g w : sane w -> calmly i (tgateway_connect c mr) g w.
  Proof.
    intros I. unfold tgateway_connect. apply q_get. apply q_bind.
    - destruct (c_open _); [|apply q_done; exact I]. change (temit (Raw c CONNECT_STRING)) with (tbind (temit (Raw c CONNECT_STRING)) (fun _ => tret tt)).
      apply q_emit; [exact Logic.I|]. intros g1 _. apply q_done. exact I.
    - intros _ g1 w1 I1 B1. apply q_bind; [apply q_sleep; exact I1|]. intros _ g2 w2 I2 B2. apply q_get. destruct (connected c w2); cbn [negb]; [|apply q_done; exact I2].
      apply q_bind; [apply q_request; [cc|exact I2]|]. intros [b|] g3 w3 I3 B3; [apply q_lift_end; exact I3|apply q_done; exact I3].
  Qed.
  Lemma q_connect_to_gateway i ip port mr g w : sane w -> calmly i (tconnect_to_gateway ip port mr) g w.
  Proof.
    intros I. unfold tconnect_to_gateway. apply q_bind.
    - unfold tcreate_connection. apply q_wait; [exact Logic.I|exact I|]. intros kd g1 w1 I1 B1. destruct kd; try (apply q_done; exact I1).
      unfold tget. unfold calmly. cbn [safe tret]. split; [exact I1|apply more_refl].
    - intros c g1 w1 I1 B1. apply q_bind; [apply q_gateway_connect; exact I1|]. intros mac g2 w2 I2 B2. apply q_bind.
      + unfold tgateway_login. apply q_lift; [exact I2|]. intros m _. apply q_bind; [apply q_request; [cc|exact I2]|]. intros r g3 w3 I3 B3. apply q_done. exact I3.
      + intros ok g3 w3 I3 B3. apply q_done. exact I3.
  Qed.
  Lemma q_m_proto {B} i (k : nat -> task B) g w : sane w -> (forall c, calmly i (k c) g w) -> calmly i (tbind tm_proto_or_fail k) g w.
  Proof.
    intros I K. change (calmly i (tbind (match m_proto (w_cm w) with Some c => tret c | None => traise EAttribute end) k) g w).
    destruct (m_proto (w_cm w)) as [c|]; cbn [tbind tret traise]; [apply K|apply q_done; exact I].
  Qed.
  Lemma q_proto {B} i (k : nat -> task B) g w : sane w -> (forall c, calmly i (k c) g w) -> calmly i (tbind tproto_or_fail k) g w.
  Proof.
    intros I K. change (calmly i (tbind (match w_proto w with Some c => tret c | None => traise EAttribute end) k) g w).
    destruct (w_proto w) as [c|]; cbn [tbind tret traise]; [apply K|apply q_done; exact I].
  Qed.
  Lemma q_close i c force g w : sane w -> calmly i (tasync_close c force) g w.
  Proof.
    intros I. unfold tasync_close. apply q_do; [unfold mark_closing; apply sane_upd; [|exact I]; intros _ _ Y; discriminate Y|]. intros w1 I1.
    assert (LAST : forall g w, sane w -> calmly i (tbind (tget (connected c)) (fun still : bool => if negb still then tret tt
       else tbind (twait (AwaitClosed c)) (fun r2 => match r2 with KDone => Do (lose c) (tret tt) | KCancelTask => traise ECancelled | _ => tstuck Unfit end))) g w).
    { intros g3 w3 I3. apply q_get. destruct (connected c w3); cbn [negb]; [|apply q_done; exact I3].
      apply q_wait; [exact Logic.I|exact I3|]. intros k2 g4 w4 I4 B4. destruct k2; try (apply q_done; exact I4).
      unfold calmly. cbn [safe tret]. pose proof (sane_lose c _ I4) as I5. unfold lose in *. destruct (connected c w4); cbn [fst snd] in *; [|cbn [map oks]; rewrite app_nil_r; split; [exact Logic.I|split; [exact I5|apply more_refl]]].
      destruct (w_cb w4); cbn [map oks]; (split; [cbn; auto|]); (split; [exact I5|]).
      - change [By i (Lost c); By i (Callback n)] with ([By i (Lost c)] ++ [By i (Callback n)]). rewrite app_assoc. eapply more_trans; apply more_one; exact Logic.I.
      - apply more_one; exact Logic.I. }
    assert (MID : forall g2 w2, sane w2 -> c_closing (get_conn c w2) = true -> calmly i (tbind (tget (get_conn c)) (fun k => tbind (if c_open k then tbind (temit (CloseTransport c)) (fun _ => tdo (mark_shut c)) else tret tt)
       (fun _ => tbind (tget (connected c)) (fun still : bool => if negb still then tret tt
       else tbind (twait (AwaitClosed c)) (fun r2 => match r2 with KDone => Do (lose c) (tret tt) | KCancelTask => traise ECancelled | _ => tstuck Unfit end))))) g2 w2).
    { intros g2 w2 I2 G2. apply q_get. apply q_bind; [|intros _ g3 w3 I3 _; apply LAST; exact I3].
      destruct (c_open (get_conn c w2)) eqn:O; [|apply q_done; exact I2]. apply q_emit; [exact Logic.I|]. intros g3 B3. apply q_do_end.
      unfold mark_shut. apply sane_upd; [|exact I2]. intros F Y1 Y2. cbn in Y2. congruence. }
    apply safe_wait; [exact Logic.I|exact I1|]. intros g' w' kd clk E I' RE F.
    assert (M : more i g (g' ++ [By i (Got (mkResp kd [] None clk))])).
    { apply (more_trans _ _ (g ++ [By i (AwaitFutures c force)])); [apply more_one; exact Logic.I|]. eapply more_trans; [apply ext_more; exact E|]. apply more_one. exact Logic.I. }
    assert (G2 : c_closing (get_conn c (set_clock clk (opened_by (AwaitFutures c force) kd w'))) = true).
    { change (c_closing (get_conn c w') = true). apply (proj1 RE i c force). destruct E as (x & -> & _). apply in_or_app. left. apply in_or_app. right. left. reflexivity. }
    pose proof (sane_resumed (AwaitFutures c force) kd _ clk I') as I2.
    apply q_from; [exact M|]. destruct kd; try (apply q_done; exact I2); apply MID; assumption.
  Qed.
  Lemma q_remove_client i g w : sane w -> calmly i tremove_client g w.
  Proof.
    intros I. unfold tremove_client. apply q_catch; [|intros e g' w' I' _; apply q_done; exact I'].
    apply q_m_proto; [exact I|]. intros c. apply q_get. apply q_command_request; [cc|exact I].
  Qed.
  Lemma fine_keep w c f : (forall k, c_connected (f k) = c_connected k /\ c_closing (f k) = c_closing k /\ c_open (f k) = c_open k) -> sane w -> sane (upd_conn c f w).
  Proof. intros H I. apply sane_upd; [|exact I]. unfold fine. destruct (H (get_conn c w)) as (-> & -> & ->). auto. Qed.
  Ltac same := eapply sane_same; [reflexivity|reflexivity|eassumption].
  Ltac keep := apply fine_keep; [intros k; repeat split|eassumption].
  Lemma q_unsubscribe i g w : sane w -> calmly i tunsubscribe_gateway g w.
  Proof.
    intros I. unfold tunsubscribe_gateway. apply q_get. destruct (attached w); cbn [negb]; [|apply q_done; exact I].
    apply q_lock; [exact I|]. intros g1 w1 I1 B1. apply q_get. destruct (m_is_client (w_cm w1)); [|apply q_done; exact I1].
    apply q_do; [same|]. intros w2 I2. apply q_m_proto; [exact I2|]. intros c. apply q_do; [unfold keepalive; keep|]. intros w3 I3.
    apply q_do; [unfold unregister_all; keep|]. intros w4 I4. apply q_remove_client. exact I4.
  Qed.
  Lemma q_disconnect i force g w : sane w -> calmly i (tasync_disconnect force) g w.
  Proof.
    intros I. unfold tasync_disconnect. apply q_get. apply q_bind.
    - destruct (is_client w); [apply q_unsubscribe; exact I|apply q_done; exact I].
    - intros _ g1 w1 I1 _. apply q_proto; [exact I1|]. intros c. apply q_close. exact I1.
  Qed.
  Definition sound2 (i : nat) (connect : task bool) : Prop := forall g w, sane w -> calmly i connect g w.
  Definition fair2 {A} (i : nat) (g0 : log) (method : Z -> nat -> task A) : Prop :=
    forall mr c g w, begun i g = begun i g0 -> sane w -> calmly i (method mr c) g w.
  Lemma q_attempt {A} i g0 connect (method : Z -> nat -> task A) mr g w : sound2 i connect -> fair2 i g0 method -> begun i g = begun i g0 -> sane w ->
    calmly i (tattempt_request connect method mr) g w.
  Proof.
    intros S F B I. unfold tattempt_request. apply q_bind; [apply S; exact I|]. intros ok g1 w1 I1 B1.
    destruct ok; cbn [negb]; [|apply q_done; exact I1]. apply q_proto; [exact I1|]. intros c. apply F; [congruence|exact I1].
  Qed.
  Lemma q_connected_request {A} i g0 connect (method : Z -> nat -> task A) delay g w : sound2 i connect -> fair2 i g0 method -> begun i g = begun i g0 -> sane w ->
    calmly i (tconnected_request connect method delay) g w.
  Proof.
    intros S F B I. unfold tconnected_request. apply q_get. apply q_catch; [apply (q_attempt i g0); assumption|].
    intros e g1 w1 I1 B1. apply q_bind; [apply q_disconnect; exact I1|]. intros _ g2 w2 I2 B2.
    apply q_bind; [apply q_sleep; exact I2|]. intros _ g3 w3 I3 B3. apply (q_attempt i g0); try assumption. congruence.
  Qed.
  Lemma fair2_free {A} i g0 X (m : Z -> nat -> task A) : free X i g0 -> (forall mr c g w, free X i g -> sane w -> calmly i (m mr c) g w) -> fair2 i g0 m.
  Proof. intros F H mr c g w B I. apply H; [eapply free_same; eassumption|exact I]. Qed.
  Lemma q_subscribe i connect g w : sound2 i connect -> sane w -> calmly i (tsubscribe_gateway connect) g w.
  Proof.
    intros S I. unfold tsubscribe_gateway. apply q_get. destruct (attached w); cbn [negb]; [|apply q_done; exact I].
    apply q_lock; [exact I|]. intros g1 w1 I1 B1. apply q_get. destruct (is_client w1); cbn [negb]; [apply q_done; exact I1|].
    apply q_get. apply q_bind.
    - apply (q_connected_request i g1); [exact S| |reflexivity|exact I1]. apply (fair2_free _ _ 12522); [cc|]. intros. apply q_command_request; assumption.
    - intros _ g2 w2 I2 B2. apply q_do; [same|]. intros w3 I3. apply q_m_proto; [exact I3|]. intros c. apply q_do_end. unfold keepalive. keep.
  Qed.
  Lemma sane_register c codes : forall w, sane w -> sane (fold_left (fun w code => register c code (HClient code) w) codes w).
  Proof. induction codes as [|x codes IH]; intros w I; [exact I|]. cbn [fold_left]. apply IH. unfold register. keep. Qed.
  Lemma q_attach i connect c mr g w : sound2 i connect -> sane w -> calmly i (tattach connect c mr) g w.
  Proof.
    intros S I. unfold tattach. apply q_do; [same|]. intros w1 I1. apply q_get. destruct (client_needed _); [|apply q_done; exact I1].
    apply q_do; [unfold unregister_all; keep|]. intros w2 I2. apply q_do; [apply sane_register; exact I2|]. intros w3 I3. apply q_subscribe; assumption.
  Qed.
  Lemma q_poll i g0 connect key_ method g w : sound2 i connect -> fair2 i g0 method -> begun i g = begun i g0 -> sane w -> calmly i (tpoll connect key_ method) g w.
  Proof.
    intros S F B I. unfold tpoll. apply q_bind; [apply (q_connected_request i g0); assumption|].
    intros [b|] g1 w1 I1 _; [apply q_do_end; same|apply q_done; exact I1].
  Qed.
  Lemma fair2_data i g0 X p dec : free X i g0 -> fair2 i g0 (tdata_request X p dec).
  Proof. intros F. apply (fair2_free _ _ X); [exact F|]. intros. apply q_data_request; assumption. Qed.
  Lemma fair2_date i g0 : free 8110 i g0 -> fair2 i g0 trequest_date_time.
  Proof.
    intros F. apply (fair2_free _ _ 8110); [exact F|]. intros mr c g w F' I. unfold trequest_date_time. apply q_bind; [apply q_request; assumption|].
    intros r g1 w1 I1 B1. destruct (nonempty r); [|apply q_done; exact I1]. apply q_get. apply q_decode; [exact I1|]. intros w2 I2. apply q_done. exact I2.
  Qed.
  Lemma q_connect i : forall n x, sound2 i (tasync_connect n x).
  Proof.
    induction n as [|n IH]; intros x g w I; cbn [tasync_connect]; [apply q_done; exact I|].
    apply q_get. destruct (is_connected w); [apply q_done; exact I|].
    apply q_do; [same|]. intros w1 I1. apply q_get. destruct (no_address w1); [apply q_done; exact I1|].
    do 3 apply q_get. apply q_bind; [apply q_connect_to_gateway; exact I1|]. intros [[c mac]|] g2 w2 I2 B2; [|apply q_done; exact I2].
    apply q_do; [same|]. intros w3 I3. apply q_get. apply q_bind.
    { unfold trequest_gateway_version. apply q_get. apply q_data_request; [cc|exact I3]. }
    intros v g4 w4 I4 B4. apply q_do; [same|]. intros w5 I5. apply q_get. destruct (Gateway.truthy _); [|apply q_done; exact I5].
    apply q_bind; [apply (q_poll i g4); [apply IH|apply fair2_data; cc|reflexivity|exact I5]|]. intros _ g6 w6 I6 B6.
    apply q_proto; [exact I6|]. intros c2. apply q_get. apply q_bind; [apply q_attach; [apply IH|exact I6]|]. intros _ g7 w7 I7 _. apply q_done. exact I7.
  Qed.

  (** the call whose messages are counted *)
  Section Own.
  Variables (i : nat) (call : api_call) (d : dict).
  Hypothesis RC : request_code call = Some X0.
  (** max_retries when the call began *)
  Variable bud : nat.
  Hypothesis bud5 : (bud <= 5)%nat.
  Hypothesis bud_who : who i -> bud = lim.
  Definition mine (g : log) : Prop := begun i g = [(call, d)].
  Definition quiet (t : trace) : Prop := settled t /\ sends_of X0 t = [].
  Lemma more_mine g g' : more i g g' -> mine g -> mine g' /\ exists t, own i g' = own i g ++ t /\ quiet t.
  Proof.
    intros (B & t & O & S & N) M. split; [unfold mine; congruence|]. exists t. split; [exact O|]. split; [exact S|].
    destruct N as [N|N]; [exact N|]. destruct (N _ _ M RC).
  Qed.
  Lemma quiet_answered t r : quiet t -> ~ answered X0 r t.
  Proof. intros (_ & N) A. apply answered_sends in A. contradiction. Qed.
  Definition room (left : nat) (g : log) : Prop := settled (own i g) /\ (spent (own i g) + left <= 2 * S bud)%nat /\ untaken call (own i g).
  Lemma room_after k left g g' t : room (k + left) g -> own i g' = own i g ++ t -> settled t -> (List.length (sends_of X0 t) <= k)%nat -> untaken call t -> room left g'.
  Proof.
    intros (S & R & U) O St L Ut. split; [rewrite O; apply settled_app; assumption|]. split.
    - unfold spent in *. rewrite O, sends_of_app, app_length. lia.
    - intros r b A AO. rewrite O in A. destruct (answered_settled _ _ _ _ S A) as [A'|A']; [exact (U _ _ A' AO)|exact (Ut _ _ A' AO)].
  Qed.
  Lemma untaken_quiet t : quiet t -> untaken call t.
  Proof. intros Q r b A _. destruct (quiet_answered _ _ Q A). Qed.
  Lemma quiet_len t k : quiet t -> (List.length (sends_of X0 t) <= k)%nat.
  Proof. intros (_ & ->). cbn. lia. Qed.

  Definition tried (left : nat) (g : log) : post (option bytes) := fun g' w' o => sane w' /\ mine g' /\
    exists t, own i g' = own i g ++ t /\ settled t /\ (List.length (sends_of X0 t) <= left)%nat /\
      (forall r b, answered X0 r t -> answer_of r = Some (X0 + 1, b) -> o = Val (Some b)) /\
      (forall b, o = Val (Some b) -> exists r, answered X0 r t /\ answer_of r = Some (X0 + 1, b)).
  Lemma tried_here left g w o : mine g -> sane w -> (forall b, o <> Val (Some b)) -> tried left g g w o.
  Proof.
    intros M I N. split; [exact I|]. split; [exact M|]. exists []. rewrite app_nil_r. split; [reflexivity|]. split; [apply settled_nil|]. split; [cbn; lia|]. split.
    - intros r b A. destruct (answered_sends _ _ _ A). reflexivity.
    - intros b E. destruct (N b E).
  Qed.
  Lemma tried_after k left g g1 t g' w' o : own i g1 = own i g ++ t -> settled t -> (List.length (sends_of X0 t) <= k)%nat ->
    (forall r b, answered X0 r t -> answer_of r <> Some (X0 + 1, b)) -> tried left g1 g' w' o -> tried (k + left) g g' w' o.
  Proof.
    intros O S L N (I & M & t1 & O1 & S1 & L1 & A1 & B1). split; [exact I|]. split; [exact M|]. exists (t ++ t1). rewrite O1, O, app_assoc. split; [reflexivity|].
    split; [apply settled_app; assumption|]. split; [rewrite sends_of_app, app_length; lia|]. split.
    - intros r b A AO. destruct (answered_settled _ _ _ _ S A) as [A'|A']; [destruct (N _ _ A' AO)|exact (A1 _ _ A' AO)].
    - intros b E. destruct (B1 _ E) as (r & R1 & R2). exists r. split; [apply answered_r; exact R1|exact R2].
  Qed.
  Definition tries (left : nat) (m : task (option bytes)) (g : log) (w : world) : Prop := sf i m g w (tried left g).
  Lemma tries_after k left m g g1 w t : own i g1 = own i g ++ t -> settled t -> (List.length (sends_of X0 t) <= k)%nat ->
    (forall r b, answered X0 r t -> answer_of r <> Some (X0 + 1, b)) -> tries left m g1 w -> sf i m g1 w (tried (k + left) g).
  Proof. intros O S L N T. eapply safe_mono; [exact T|]. intros. eapply tried_after; eassumption. Qed.

  Lemma tries_loop c p mr : forall left att g w, mine g -> sane w -> room left g -> tries left (trequest_loop left att mr c X0 p) g w.
  Proof.
    induction left as [|left IH]; intros att g w M I R; cbn [trequest_loop]; [apply tried_here; [exact M|exact I|discriminate]|].
    assert (FA : forall e g w, mine g -> sane w -> room left g -> tries left (if att =? mr then traise e else tbind (tsleep (1000 * (COM_RETRY_WAIT * (att + 1)))) (fun _ => trequest_loop left (att + 1) mr c X0 p)) g w).
    { intros e g1 w1 M1 I1 R1. destruct (att =? mr); [apply tried_here; [exact M1|exact I1|discriminate]|].
      apply safe_bind. eapply safe_mono; [apply (q_sleep i); exact I1|]. cbn. intros g2 w2 o (I2 & MO).
      destruct (more_mine _ _ MO M1) as (M2 & t & O2 & Q2).
      assert (R2 : room left g2) by (apply (room_after 0 left g1 g2 t R1 O2); [apply Q2|apply quiet_len; exact Q2|apply untaken_quiet; exact Q2]).
      destruct o as [u|e2|y].
      - apply (tries_after 0 left _ g1 g2 w2 t O2); [apply Q2|apply quiet_len; exact Q2|intros r b A; destruct (quiet_answered _ _ Q2 A)|]. apply IH; assumption.
      - apply (tried_after 0 left g1 g2 t g2 w2 _ O2); [apply Q2|apply quiet_len; exact Q2|intros r b A; destruct (quiet_answered _ _ Q2 A)|]. apply tried_here; [exact M2|exact I2|discriminate].
      - apply (tried_after 0 left g1 g2 t g2 w2 _ O2); [apply Q2|apply quiet_len; exact Q2|intros r b A; destruct (quiet_answered _ _ Q2 A)|]. apply tried_here; [exact M2|exact I2|discriminate]. }
    assert (CA : forall left g w, mine g -> sane w -> tries left (tbind (tget (connected c)) (fun ok : bool => if ok then tret (@None bytes) else traise ESLConnection)) g w).
    { intros lf g1 w1 M1 I1. apply safe_get. destruct (connected c w1); (apply tried_here; [exact M1|exact I1|discriminate]). }
    apply safe_get. destruct (connected c w) eqn:C; cbn [negb]; [|apply tried_here; [exact M|exact I|discriminate]].
    apply safe_get. destruct (c_closing (get_conn c w)) eqn:G; [apply CA; assumption|].
    unfold tsend. match goal with |- safe _ _ _ i (tbind (tbind (tget (get_conn c)) ?f) ?k) g w ?Q => change (sf i (tbind (f (get_conn c w)) k) g w Q) end. cbn beta.
    pose proof (proj2 I c C G) as O. rewrite O.
    destruct (makeMessage 0 X0 p) as [m|e]; cbn [tlift tret traise tbind]; [|apply tried_here; [exact M|exact I|discriminate]].
    match goal with |- safe _ _ _ i (tbind (temit ?e) ?k) g w ?Q => change (sf i (tbind (temit e) (fun _ => k tt)) g w Q) end.
    apply safe_emit.
    { intros _ call' d' B' _. unfold mine in M. rewrite M in B'. injection B' as <- <-. destruct R as (_ & R1 & R2). pose proof bud5. split; [lia|]. split; [intros Y; rewrite <- (bud_who Y); lia|exact R2]. }
    apply safe_wait; [exact Logic.I|exact I|]. intros g' w' kd clk E I' _ Fi.
    set (r := mkResp kd [] None clk) in *.
    destruct (exchange_own _ _ _ _ _ _ _ r E) as (B1 & O1). set (t := [Send c X0 p; AwaitReply c (1000 * COM_TIMEOUT); Got r]) in *.
    assert (M1 : mine (g' ++ [By i (Got r)])) by (unfold mine; rewrite B1; exact M).
    assert (S1 : settled t) by apply settled_exchange.
    assert (L1 : (List.length (sends_of X0 t) <= 1)%nat) by (unfold t; cbn [sends_of flat_map]; rewrite Z.eqb_refl; cbn; lia).
    pose proof (sane_resumed (AwaitReply c (1000 * COM_TIMEOUT)) kd _ clk I') as I2.
    set (w2 := set_clock clk (opened_by (AwaitReply c (1000 * COM_TIMEOUT)) kd w')) in *.
    assert (GO : (forall b, answer_of r <> Some (X0 + 1, b)) -> forall m, (room left (g' ++ [By i (Got r)]) -> tries left m (g' ++ [By i (Got r)]) w2) -> sf i m (g' ++ [By i (Got r)]) w2 (tried (S left) g)).
    { intros N m0 T. change (S left) with (1 + left)%nat. apply (tries_after 1 left m0 g _ w2 t O1 S1 L1).
      - intros r' b A. apply answered_exchange in A. subst r'. apply N.
      - apply T. apply (room_after 1 left g _ t R O1 S1 L1). intros r' b A AO. apply answered_exchange in A. subst r'. destruct (N _ AO). }
    assert (AN : forall rc b, answer_of r = Some (rc, b) -> sf i (if rc =? X0 + 1 then tret (Some b) else if rc =? CODE_ERROR_LOGIN_REJECTED then traise ESLLogin
        else if (rc =? CODE_ERROR_INVALID_REQUEST) || (rc =? CODE_ERROR_BAD_PARAMETER) then (if att =? mr then traise ESLRequest else tbind (tsleep (1000 * (COM_RETRY_WAIT * (att + 1)))) (fun _ => trequest_loop left (att + 1) mr c X0 p))
        else (if att =? mr then traise ESLResponse else tbind (tsleep (1000 * (COM_RETRY_WAIT * (att + 1)))) (fun _ => trequest_loop left (att + 1) mr c X0 p))) (g' ++ [By i (Got r)]) w2 (tried (S left) g)).
    { intros rc b AO. destruct (Z.eqb_spec rc (X0 + 1)) as [->|N].
      - split; [exact I2|]. split; [exact M1|]. exists t. split; [exact O1|]. split; [exact S1|]. split; [lia|]. split.
        + intros r' b' A AO'. apply answered_exchange in A. subst r'. congruence.
        + intros b' E'. injection E' as <-. exists r. split; [|exact AO]. exists [], c, p, (1000 * COM_TIMEOUT), []. reflexivity.
      - assert (NN : forall b, answer_of r <> Some (X0 + 1, b)) by (intros b'; congruence).
        destruct (rc =? CODE_ERROR_LOGIN_REJECTED); [apply (GO NN); intros _; apply tried_here; [exact M1|exact I2|discriminate]|].
        destruct ((rc =? CODE_ERROR_INVALID_REQUEST) || (rc =? CODE_ERROR_BAD_PARAMETER)); apply (GO NN); intros R1; apply FA; assumption. }
    destruct kd as [rc b| |rc b| | | |]; try discriminate Fi.
    - apply AN. reflexivity.
    - apply GO; [discriminate|]. intros R1. apply FA; assumption.
    - apply AN. reflexivity.
    - apply GO; [discriminate|]. intros R1. apply CA; assumption.
    - apply GO; [discriminate|]. intros R1. apply CA; assumption.
  Qed.

  (** one attempt: up to six messages; when it fails in a way that is tried again, none of them
      was answered; when a setting returns, it was acknowledged *)
  Definition rounded {A} (g : log) : post A := fun g' w' o => sane w' /\ mine g' /\
    exists t, own i g' = own i g ++ t /\ settled t /\ (List.length (sends_of X0 t) <= S bud)%nat /\
      (forall e, o = Exc e -> is_comm_error e = true -> untaken call t) /\
      (is_command call -> forall a, o = Val a -> acked t).
  Definition rounds {A} (m : task A) (g : log) (w : world) : Prop := sf i m g w (rounded g).
  Lemma rounded_quiet {A} g g' w (o : out A) : mine g -> more i g g' -> sane w -> (forall a, o <> Val a) -> rounded g g' w o.
  Proof.
    intros M MO I N. destruct (more_mine _ _ MO M) as (M' & t & O & Q). split; [exact I|]. split; [exact M'|]. exists t. split; [exact O|]. split; [apply Q|].
    split; [apply quiet_len; exact Q|]. split; [intros; apply untaken_quiet; exact Q|]. intros _ a E. destruct (N a E).
  Qed.
  Lemma rounded_after {A} g g1 g' w' (o : out A) : mine g -> more i g g1 -> rounded g1 g' w' o -> rounded g g' w' o.
  Proof.
    intros M MO (I & M' & t & O & S & L & U & K). destruct (more_mine _ _ MO M) as (M1 & t0 & O0 & Q). split; [exact I|]. split; [exact M'|].
    exists (t0 ++ t). rewrite O, O0, app_assoc. split; [reflexivity|]. split; [apply settled_app; [apply Q|exact S]|].
    split; [rewrite sends_of_app; rewrite (proj2 Q); exact L|]. split.
    - intros e E C r b HA AO. destruct (answered_settled _ _ _ _ (proj1 Q) HA) as [A'|A']; [destruct (quiet_answered _ _ Q A')|exact (U _ E C _ _ A' AO)].
    - intros IC a E. destruct (K IC a E) as (r & R1 & R2). exists r. split; [apply answered_r; exact R1|exact R2].
  Qed.
  Lemma room_more left g g' : mine g -> more i g g' -> room left g -> room left g'.
  Proof.
    intros M MO R. destruct (more_mine _ _ MO M) as (M1 & t0 & O0 & Q). apply (room_after 0 left g g' t0 R O0); [apply Q|apply quiet_len; exact Q|apply untaken_quiet; exact Q].
  Qed.

  Definition own_round {A} (method : Z -> nat -> task A) : Prop :=
    forall mr c g w, 0 <= mr /\ Z.to_nat mr = bud -> mine g -> sane w -> room (S bud) g -> rounds (method mr c) g w.
  Lemma room_less a b g : (a <= b)%nat -> room b g -> room a g.
  Proof. intros L (R1 & R2 & R3). split; [exact R1|]. split; [lia|exact R3]. Qed.
  Lemma tries_request c p mr g w : 0 <= mr /\ Z.to_nat mr = bud -> mine g -> sane w -> room (S bud) g -> sf i (tmake_request c X0 p mr) g w (tried (S bud) g).
  Proof.
    intros R M I RM. unfold tmake_request. eapply safe_mono; [apply tries_loop; [exact M|exact I|eapply room_less; [|exact RM]; lia]|].
    intros g' w' o (T1 & T2 & t & T3 & T4 & T5 & T6 & T7). split; [exact T1|]. split; [exact T2|]. exists t. split; [exact T3|]. split; [exact T4|]. split; [lia|]. split; assumption.
  Qed.
  Lemma round_command pl : (forall b, takes call b -> b = []) -> own_round (tcommand_request X0 pl).
  Proof.
    intros TK mr c g w R M I RM. unfold rounds, tcommand_request. destruct pl as [p|e]; cbn [tlift tret traise tbind]; [|apply rounded_quiet; [exact M|apply more_refl|exact I|discriminate]].
    apply safe_bind. eapply safe_mono; [apply tries_request; assumption|]. intros g' w' o (T1 & T2 & t & T3 & T4 & T5 & T6 & T7).
    assert (BAD : (forall b, o = Val (Some b) -> b <> []) -> untaken call t).
    { intros N r b A AO K. apply TK in K. subst b. exact (N _ (T6 _ _ A AO) eq_refl). }
    destruct o as [[[|z b]|]|e|y].
    - split; [exact T1|]. split; [exact T2|]. exists t. split; [exact T3|]. split; [exact T4|]. split; [exact T5|]. split; [discriminate|]. intros _ _ _. destruct (T7 [] eq_refl) as (r & A & AO). exists r. auto.
    - split; [exact T1|]. split; [exact T2|]. exists t. split; [exact T3|]. split; [exact T4|]. split; [exact T5|]. split; [|discriminate]. intros _ _ _. apply BAD. intros b' E. injection E as <-. discriminate.
    - split; [exact T1|]. split; [exact T2|]. exists t. split; [exact T3|]. split; [exact T4|]. split; [exact T5|]. split; [|discriminate]. intros _ _ _. apply BAD. discriminate.
    - split; [exact T1|]. split; [exact T2|]. exists t. split; [exact T3|]. split; [exact T4|]. split; [exact T5|]. split; [|discriminate]. intros _ _ _. apply BAD. discriminate.
    - split; [exact T1|]. split; [exact T2|]. exists t. split; [exact T3|]. split; [exact T4|]. split; [exact T5|]. split; [|discriminate]. discriminate.
  Qed.
  Lemma safe_decode {B} (m : DM unit) (k : unit -> task B) g w Q :
    (let '(d, r) := m (w_data w) in match r with Ok _ => sf i (k tt) g (set_data d w) Q | Err e => Q g (set_data d w) (Exc e) end) ->
    sf i (tbind (tdecode m) k) g w Q.
  Proof.
    unfold tdecode. match goal with |- _ -> safe _ _ _ i ?m1 g w Q => change m1 with
      (Look (fun w => tbind (let '(d, r) := m (w_data w) in Do (fun w => ([], set_data d w)) (match r with Ok _ => tret tt | Err e => traise e end)) k)) end.
    cbn [safe]. destruct (m (w_data w)) as [d1 r]. cbn [tbind safe fst snd map oks]. rewrite app_nil_r. intros H. split; [exact Logic.I|].
    destruct r as [[]|e]; exact H.
  Qed.
  Lemma rounded_data {A} g t g' w' (o : out A) : ~ is_command call -> sane w' -> mine g' -> own i g' = own i g ++ t -> settled t -> (List.length (sends_of X0 t) <= S bud)%nat ->
    (forall e, o = Exc e -> is_comm_error e = false \/ untaken call t) -> rounded g g' w' o.
  Proof.
    intros NC' T1 T2 T3 T4 T5 H. split; [exact T1|]. split; [exact T2|]. exists t. split; [exact T3|]. split; [exact T4|]. split; [exact T5|]. split; [|intros K; contradiction].
    intros e E C. destruct (H e E) as [H1|H1]; [congruence|exact H1].
  Qed.
  Lemma round_answer (k : bytes -> task (option bytes)) p : ~ is_command call ->
    (forall b g' w' (Q : post (option bytes)), sane w' -> (forall w2 o, sane w2 -> (forall e, o = Exc e -> is_comm_error e = false) -> Q g' w2 o) -> sf i (k b) g' w' Q) ->
    own_round (fun mr c => tbind (tmake_request c X0 p mr) (fun r => match nonempty r with None => tret None | Some b => k b end)).
  Proof.
    intros NC' K mr c g w R M I RM. unfold rounds. apply safe_bind. eapply safe_mono; [apply tries_request; assumption|].
    intros g' w' o (T1 & T2 & t & T3 & T4 & T5 & T6 & T7). destruct o as [r|e|y].
    - destruct (nonempty r) as [b|].
      + apply K; [exact T1|]. intros w2 o I2 H. apply (rounded_data g t); auto.
      + apply (rounded_data g t); auto. discriminate.
    - apply (rounded_data g t); auto. intros e' E. right. intros r b A AO. discriminate (T6 _ _ A AO).
    - apply (rounded_data g t); auto. discriminate.
  Qed.
  Lemma decode_end (dec : DM unit) (b : bytes) : P_Calm.calm dec -> forall g' w' (Q : post (option bytes)), sane w' ->
    (forall w2 o, sane w2 -> (forall e, o = Exc e -> is_comm_error e = false) -> Q g' w2 o) -> sf i (tbind (tdecode dec) (fun _ => tret (Some b))) g' w' Q.
  Proof.
    intros CA g' w' Q I H. apply safe_decode. pose proof (CA (w_data w')) as F. destruct (dec (w_data w')) as [d1 r].
    assert (I1 : sane (set_data d1 w')) by (eapply sane_same; [reflexivity|reflexivity|exact I]). destruct r as [u|e]; apply H; auto; [discriminate|].
    intros e' E. injection E as <-. apply P_Calm.foreign_comm. exact F.
  Qed.
  Lemma round_data p dec : ~ is_command call -> (forall b, P_Calm.calm (dec b)) -> own_round (tdata_request X0 p dec).
  Proof. intros NC' CA. apply round_answer; [exact NC'|]. intros b g' w' Q I H. apply decode_end; auto. Qed.
  Lemma round_date : X0 = 8110 -> ~ is_command call -> own_round trequest_date_time.
  Proof.
    intros E NC'. unfold trequest_date_time. change CODE_GET_DATETIME_QUERY with 8110. rewrite <- E. apply round_answer; [exact NC'|]. intros b g' w' Q I H.
    apply safe_get. apply decode_end; [apply P_Calm.ca_datetime|exact I|exact H].
  Qed.
  Lemma round_message p : ~ is_command call -> own_round (fun mr c => tmake_request c X0 p mr).
  Proof.
    intros NC' mr c g w R M I RM. unfold rounds. eapply safe_mono; [apply tries_request; assumption|].
    intros g' w' o (T1 & T2 & t & T3 & T4 & T5 & T6 & T7). apply (rounded_data g t); auto. intros e ->. right. intros r b A AO. discriminate (T6 _ _ A AO).
  Qed.

  Lemma round_attempt {A} connect (method : Z -> nat -> task A) mr g w : sound2 i connect -> own_round method -> 0 <= mr /\ Z.to_nat mr = bud -> mine g -> sane w -> room (S bud) g ->
    rounds (tattempt_request connect method mr) g w.
  Proof.
    intros S F R M I RM. unfold rounds, tattempt_request. apply safe_bind. eapply safe_mono; [apply S; exact I|]. cbn beta. intros g1 w1 o (I1 & MO).
    destruct o as [ok|e|y]; try (apply rounded_quiet; [exact M|exact MO|exact I1|discriminate]).
    destruct ok; cbn [negb]; [|apply rounded_quiet; [exact M|exact MO|exact I1|discriminate]].
    match goal with |- safe _ _ _ i ?m g1 w1 ?Q => change (sf i (tbind (match w_proto w1 with Some c => tret c | None => traise EAttribute end) (fun c => method mr c)) g1 w1 Q) end.
    destruct (w_proto w1) as [c|]; cbn [tbind tret traise]; [|apply rounded_quiet; [exact M|exact MO|exact I1|discriminate]].
    eapply safe_mono; [apply F; [exact R|apply (more_mine _ _ MO M)|exact I1|eapply room_more; eassumption]|]. intros g2 w2 o H. eapply rounded_after; eassumption.
  Qed.
  Definition finished {A} : post A := fun g' w' o => sane w' /\ mine g' /\ (is_command call -> forall a, o = Val a -> acked (own i g')).
  Lemma finished_quiet {A} g w (o : out A) : mine g -> sane w -> (forall a, o <> Val a) -> finished g w o.
  Proof. intros M I N. split; [exact I|]. split; [exact M|]. intros _ a E. destruct (N a E). Qed.
  Lemma round_connected {A} connect (method : Z -> nat -> task A) delay g w : sound2 i connect -> own_round method -> Z.to_nat (w_retries w) = bud -> mine g -> sane w -> own i g = [] ->
    sf i (tconnected_request connect method delay) g w finished.
  Proof.
    intros S F HB M I O. unfold tconnected_request. apply safe_get. destruct (proj1 I) as (R1 & R2). set (mr := w_retries w) in *.
    assert (RM : forall g k, own i g = [] -> (k <= 2 * Datatypes.S bud)%nat -> room k g).
    { intros g1 k E L. split; [rewrite E; apply settled_nil|]. rewrite E. split; [cbn; lia|]. intros r b HA. destruct (answered_sends _ _ _ HA). reflexivity. }
    apply safe_catch. eapply safe_mono; [apply round_attempt; [exact S|exact F|split; [exact R1|exact HB]|exact M|exact I|apply RM; [exact O|lia]]|].
    intros g1 w1 o (I1 & M1 & t & O1 & S1 & L1 & U1 & K1). rewrite O in O1. cbn [app] in O1.
    destruct o as [a|e|y]; [split; [exact I1|]; split; [exact M1|]; rewrite O1; exact K1| |apply finished_quiet; [exact M1|exact I1|discriminate]].
    destruct (is_comm_error e) eqn:C; [|apply finished_quiet; [exact M1|exact I1|discriminate]].
    assert (RM1 : room (Datatypes.S bud) g1). { rewrite <- (app_nil_l t) in O1. rewrite <- O in O1. apply (room_after (Datatypes.S bud) (Datatypes.S bud) g g1 t); auto. apply RM; [exact O|lia]. eapply U1; [reflexivity|exact C]. }
    apply safe_bind. eapply safe_mono; [apply (q_disconnect i); exact I1|]. cbn beta. intros g2 w2 o (I2 & MO2). pose proof (more_mine _ _ MO2 M1) as (M2 & _).
    destruct o as [[]|e2|y]; try (apply finished_quiet; [exact M2|exact I2|discriminate]).
    apply safe_bind. eapply safe_mono; [apply (q_sleep i); exact I2|]. cbn beta. intros g3 w3 o (I3 & MO3). pose proof (more_mine _ _ MO3 M2) as (M3 & _).
    assert (RM3 : room (Datatypes.S bud) g3) by (apply (room_more _ g2 g3 M2 MO3), (room_more _ g1 g2 M1 MO2 RM1)).
    destruct o as [[]|e3|y]; try (apply finished_quiet; [exact M3|exact I3|discriminate]).
    eapply safe_mono; [apply round_attempt; [exact S|exact F|split; [exact R1|exact HB]|exact M3|exact I3|exact RM3]|].
    intros g4 w4 o (I4 & M4 & t4 & O4 & S4 & L4 & U4 & K4). split; [exact I4|]. split; [exact M4|]. intros IC a E. destruct (K4 IC a E) as (r & A1 & A2).
    exists r. split; [|exact A2]. rewrite O4. apply answered_r. exact A1.
  Qed.
  End Own.

  Lemma sane_pumps_entry w : sane w -> sane (pumps_entry w).
  Proof. unfold pumps_entry. destruct (din _ _); [auto|]. apply sane_same; reflexivity. Qed.
  Lemma sane_store_pump j b w : sane w -> sane (store_pump j b w).
  Proof. unfold store_pump. destruct (dget _ _) as [[]|]; auto. Qed.
  Lemma q_pumps i n : forall ids g w, free 12584 i g -> sane w -> calmly i (tpumps_loop n ids) g w.
  Proof.
    induction ids as [|j ids IH]; intros g w F I; cbn [tpumps_loop]; [apply q_done; exact I|].
    apply q_get. apply q_lift; [exact I|]. intros fl _. apply q_bind.
    - destruct (_ =? 0); [apply q_done; exact I|]. apply q_do; [apply sane_pumps_entry; exact I|]. intros w1 I1. apply q_bind.
      + apply (q_connected_request i g); [apply q_connect| |reflexivity|exact I1]. apply (fair2_free _ _ 12584); [exact F|]. intros mr c g1 w2 F1 I2.
        unfold trequest_pump_status. apply q_lift; [exact I2|]. intros p _. apply q_data_request; assumption.
      + intros [b|] g2 w2 I2 _; [apply q_do_end, sane_store_pump; exact I2|apply q_done; exact I2].
    - intros _ g1 w1 I1 B1. apply IH; [eapply free_same; eassumption|exact I1].
  Qed.
  Lemma q_update i n g w : loose i g -> sane w -> calmly i (tasync_update n) g w.
  Proof.
    intros L I. unfold tasync_update. apply q_get. destruct (w_data w); [apply q_done; exact I|].
    assert (F : forall X g', begun i g' = begun i g -> free X i g') by (intros X g' B; right; eapply loose_same; eassumption).
    apply q_bind; [apply (q_poll i g); [apply q_connect|apply fair2_data, F; reflexivity|reflexivity|exact I]|]. intros _ g1 w1 I1 B1.
    apply q_bind; [apply q_pumps; [apply F; exact B1|exact I1]|]. intros _ g2 w2 I2 B2.
    apply q_bind; [apply (q_poll i g2); [apply q_connect|apply fair2_data, F; congruence|reflexivity|exact I2]|]. intros _ g3 w3 I3 B3.
    apply q_bind; [apply (q_poll i g3); [apply q_connect|apply fair2_data, F; congruence|reflexivity|exact I3]|]. intros _ g4 w4 I4 B4.
    apply (q_poll i g4); [apply q_connect|apply fair2_date, F; congruence|reflexivity|exact I4].
  Qed.
  Lemma q_subscribe_client i n cb code g w : sane w -> calmly i (tasync_subscribe_client n cb code) g w.
  Proof.
    intros I. unfold tasync_subscribe_client. apply q_get. destruct (attached w); cbn [negb]; [|apply q_done; exact I].
    apply q_do; [same|]. intros w1 I1. apply q_m_proto; [exact I1|]. intros c. apply q_do; [unfold register; keep|]. intros w2 I2. apply q_get. apply q_bind.
    - destruct (client_needed w2); [apply q_subscribe; [apply q_connect|exact I2]|apply q_done; exact I2].
    - intros _ g3 w3 I3 _. apply q_done. exact I3.
  Qed.

  (** every call *)
  Lemma end_calm i (m : task unit) g w : loose i g -> calmly i m g w -> sf i m g w (ended Inv2 fin2 i).
  Proof.
    intros L K. eapply safe_mono; [exact K|]. cbn beta. intros g' w' o (I & B & _). split; [exact I|]. intros call d E RC. rewrite B in E. destruct (L _ _ E RC).
  Qed.
  Lemma end_done i call d (o : out unit) g w : mine i call d g -> sane w -> o <> Val tt -> ended Inv2 fin2 i g w o.
  Proof. intros M I N. split; [exact I|]. intros call' d' B' _ _ E. contradiction. Qed.
  Lemma end_finished i call d g w (o : out unit) : finished i call d g w o -> ended Inv2 fin2 i g w o.
  Proof. intros (I & M & K). split; [exact I|]. intros call' d' B' _ IC E. unfold mine in M. rewrite M in B'. injection B' as <- <-. exact (K IC tt E). Qed.
  Lemma end_require i call d b (k : unit -> task unit) g w : mine i call d g -> sane w -> sf i (k tt) g w (ended Inv2 fin2 i) -> sf i (tbind (trequire b) k) g w (ended Inv2 fin2 i).
  Proof.
    intros M I K. unfold trequire. destruct b as [[]|e]; cbn [tlift tret traise tbind]; [exact K|..]; (eapply end_done; [exact M|exact I|discriminate]).
  Qed.
  Lemma end_lift {A} i call d (r : res A) (k : A -> task unit) g w : mine i call d g -> sane w -> (forall a, sf i (k a) g w (ended Inv2 fin2 i)) -> sf i (tbind (tlift r) k) g w (ended Inv2 fin2 i).
  Proof. intros M I K. destruct r as [a|e]; cbn [tlift tret traise tbind]; [apply K|]. eapply end_done; [exact M|exact I|discriminate]. Qed.
  (** max_retries when the call began: [w] is the world then *)
  Definition bud_of (w : world) : nat := Z.to_nat (w_retries w).
  Lemma bud_le w : sane w -> (bud_of w <= 5)%nat.
  Proof. intros ((R1 & R2) & _). unfold bud_of. lia. Qed.
  Lemma end_setter i call d n pl g w : (who i -> bud_of w = lim) -> request_code call = Some X0 -> (forall b, takes call b -> b = []) -> mine i call d g -> sane w -> own i g = [] ->
    sf i (tcommand n (tcommand_request X0 pl) 0) g w (ended Inv2 fin2 i).
  Proof.
    intros BW RC TK M I O. eapply safe_mono; [apply (round_connected i call d RC (bud_of w) (bud_le _ I) BW); [apply q_connect|apply round_command; [exact RC|apply bud_le; exact I|exact BW|exact TK]|reflexivity|exact M|exact I|exact O]|].
    intros g' w' o. apply end_finished.
  Qed.
  Lemma end_poll i call d n k method g w : (who i -> bud_of w = lim) -> request_code call = Some X0 -> ~ is_command call -> own_round i call d (bud_of w) method -> mine i call d g -> sane w -> own i g = [] ->
    sf i (tget_poll n k method) g w (ended Inv2 fin2 i).
  Proof.
    intros BW RC NI F M I O. unfold tget_poll, tpoll. apply safe_bind. eapply safe_mono; [apply (round_connected i call d RC (bud_of w) (bud_le _ I) BW); [apply q_connect|exact F|reflexivity|exact M|exact I|exact O]|].
    intros g' w' o (I' & M' & _). assert (E : forall w2 o2, sane w2 -> ended Inv2 fin2 i g' w2 o2).
    { intros w2 o2 I2. split; [exact I2|]. intros call' d' B' _ IC _. unfold mine in M'. rewrite M' in B'. injection B' as <- <-. contradiction. }
    destruct o as [[b|]|e|y]; try (apply E; exact I'). unfold tdo. cbn [safe fst snd map oks tret]. rewrite app_nil_r. split; [exact Logic.I|]. apply E. same.
  Qed.
  Theorem perform2 i n call d g w : (who i -> bud_of w = lim) -> sane w -> mine i call d g -> own i g = [] -> sf i (tperform n call) g w (ended Inv2 fin2 i).
  Proof.
    intros BW I M O.
    assert (LO : request_code call <> Some X0 -> loose i g) by (intros N call' d' B; unfold mine in M; rewrite M in B; injection B as <- <-; exact N).
    destruct (request_code call) as [X|] eqn:RC.
    2:{ specialize (LO ltac:(discriminate)).
        destruct call; try discriminate RC; cbn [tperform]; apply end_calm; try exact LO.
        - apply q_bind; [apply q_connect; exact I|]. intros. apply q_done. assumption.
        - apply q_disconnect. exact I.
        - apply (q_poll i g); [apply q_connect|apply fair2_data; right; exact LO|reflexivity|exact I].
        - apply q_pumps; [right; exact LO|exact I].
        - apply q_update; assumption.
        - destruct ((0 <? k) && (k <? 6)) eqn:K; [|apply q_done; exact I]. apply q_do_end. apply andb_true_iff in K. destruct K as (K1 & K2).
          split; [cbn; lia|]. intros c. exact (proj2 I c).
        - apply q_get. destruct (w_proto w); [apply q_do_end; unfold register; keep|apply q_done; exact I].
        - apply q_get. destruct (w_proto w); [apply q_do_end; unfold unregister; keep|apply q_done; exact I].
        - apply q_bind; [apply q_subscribe_client; exact I|]. intros. apply q_done. assumption.
        - unfold tremove_subscription. apply q_get. destruct (negb _); [apply q_done; exact I|].
          apply q_do; [same|]. intros w1 I1. do 2 apply q_get. destruct (_ && _); [|apply q_done; exact I1].
          apply q_m_proto; [exact I1|]. intros c. apply q_do_end. unfold unregister. keep.
        - apply q_unsubscribe. exact I.
        - unfold tasync_ping. apply q_catch; [|intros; apply q_done; assumption]. apply q_m_proto; [exact I|]. intros c.
          apply q_command_request; [right; exact LO|exact I]. }
    destruct (Z.eq_dec X X0) as [->|NX].
    - pose proof RC as RC0. destruct call; try discriminate RC; cbn [tperform]; injection RC as EX; try subst code;
        try (assert (TK : forall b, takes _ b -> b = []) by (intros b' K; exact K)).
      + apply (end_poll i GetStatus d); try assumption; [intros []|]. replace trequest_pool_status with (tdata_request X0 (le_enc 4 0) decode_pool_status) by (rewrite <- EX; reflexivity).
        apply round_data; [exact RC0|apply bud_le; exact I|exact BW|intros []|apply P_Calm.ca_status].
      + apply (end_poll i GetChemistry d); try assumption; [intros []|]. replace trequest_chemistry with (tdata_request X0 (le_enc 4 0) decode_chemistry) by (rewrite <- EX; reflexivity).
        apply round_data; [exact RC0|apply bud_le; exact I|exact BW|intros []|apply P_Calm.ca_chem].
      + apply (end_poll i GetScg d); try assumption; [intros []|]. replace trequest_scg_config with (tdata_request X0 (le_enc 4 0) decode_scg_config) by (rewrite <- EX; reflexivity).
        apply round_data; [exact RC0|apply bud_le; exact I|exact BW|intros []|apply P_Calm.ca_scg].
      + apply (end_poll i GetDatetime d); try assumption; [intros []|]. apply round_date; [exact RC0|apply bud_le; exact I|exact BW|symmetry; exact EX|intros []].
      + apply safe_get. do 2 (eapply end_require; [exact M|exact I|]). change CODE_BUTTONPRESS_QUERY with 12530. rewrite EX. eapply end_setter; [exact BW|exact RC0| |exact M|exact I|exact O]. intros b K. exact K.
      + apply safe_get. do 2 (eapply end_require; [exact M|exact I|]). change CODE_SETHEATTEMP_QUERY with 12528. rewrite EX. eapply end_setter; [exact BW|exact RC0| |exact M|exact I|exact O]. intros b K. exact K.
      + apply safe_get. do 2 (eapply end_require; [exact M|exact I|]). change CODE_SETHEATMODE_QUERY with 12538. rewrite EX. eapply end_setter; [exact BW|exact RC0| |exact M|exact I|exact O]. intros b K. exact K.
      + eapply end_require; [exact M|exact I|]. change CODE_LIGHTCOMMAND_QUERY with 12556. rewrite EX. eapply end_setter; [exact BW|exact RC0| |exact M|exact I|exact O]. intros b K. exact K.
      + apply safe_get. eapply end_lift; [exact M|exact I|]. intros [[[a1 a2] a3] a4]. change CODE_SETSCG_QUERY with 12576. rewrite EX. eapply end_setter; [exact BW|exact RC0| |exact M|exact I|exact O]. intros b K. exact K.
      + apply safe_get. eapply end_lift; [exact M|exact I|]. intros [[[[[a1 a2] a3] a4] a5] a6]. change CODE_SETCHEMDATA_QUERY with 12594. rewrite EX. eapply end_setter; [exact BW|exact RC0| |exact M|exact I|exact O]. intros b K. exact K.
      + do 2 apply safe_get. eapply end_lift; [exact M|exact I|]. intros [a1 a2]. change CODE_SET_DATETIME_QUERY with 8112. rewrite EX. eapply end_setter; [exact BW|exact RC0| |exact M|exact I|exact O]. intros b K. exact K.
      + do 2 apply safe_get. eapply end_lift; [exact M|exact I|]. intros [a1 a2]. change CODE_SET_DATETIME_QUERY with 8112. rewrite EX. eapply end_setter; [exact BW|exact RC0| |exact M|exact I|exact O]. intros b K. exact K.
      + apply safe_bind. eapply safe_mono; [apply (round_connected i _ d RC0 (bud_of w) (bud_le _ I) BW); [apply q_connect|apply round_message; [exact RC0|apply bud_le; exact I|exact BW|intros []]|reflexivity|exact M|exact I|exact O]|].
        intros g' w' o (I' & M' & _). assert (E : forall o2 : out unit, ended Inv2 fin2 i g' w' o2).
        { intros o2. split; [exact I'|]. intros call' d' B' _ IC _. unfold mine in M'. rewrite M' in B'. injection B' as <- <-. destruct IC. }
        destruct o; apply E.
    - specialize (LO ltac:(congruence)). apply end_calm; [exact LO|].
      assert (F : forall Y, free Y i g) by (intros Y; right; exact LO).
      assert (SET : forall Y pl, calmly i (tcommand n (tcommand_request Y pl) 0) g w).
      { intros Y pl. apply (q_connected_request i g); [apply q_connect| |reflexivity|exact I]. apply (fair2_free _ _ Y); [apply F|]. intros. apply q_command_request; assumption. }
      assert (REQ : forall b (k : unit -> task unit), calmly i (k tt) g w -> calmly i (tbind (trequire b) k) g w).
      { intros b k K. unfold trequire. destruct b as [[]|e]; cbn [tlift tret traise tbind]; [exact K|apply q_done; exact I..]. }
      destruct call; try discriminate RC; cbn [tperform].
      + apply (q_poll i g); [apply q_connect|apply fair2_data, F|reflexivity|exact I].
      + apply (q_poll i g); [apply q_connect|apply fair2_data, F|reflexivity|exact I].
      + apply (q_poll i g); [apply q_connect|apply fair2_data, F|reflexivity|exact I].
      + apply (q_poll i g); [apply q_connect|apply fair2_date, F|reflexivity|exact I].
      + apply q_get. do 2 apply REQ. apply SET.
      + apply q_get. do 2 apply REQ. apply SET.
      + apply q_get. do 2 apply REQ. apply SET.
      + apply REQ. apply SET.
      + apply q_get. apply q_lift; [exact I|]. intros [[[a1 a2] a3] a4] _. apply SET.
      + apply q_get. apply q_lift; [exact I|]. intros [[[[[a1 a2] a3] a4] a5] a6] _. apply SET.
      + do 2 apply q_get. apply q_lift; [exact I|]. intros [a1 a2] _. apply SET.
      + do 2 apply q_get. apply q_lift; [exact I|]. intros [a1 a2] _. apply SET.
      + apply q_bind; [|intros; apply q_done; assumption]. apply (q_connected_request i g); [apply q_connect| |reflexivity|exact I].
        apply (fair2_free _ _ code); [apply F|]. intros. apply q_request; assumption.
  Qed.

  Theorem step_inv2 n p e : Rel2 (p_log p) (p_world p) -> pinv Inv2 ok2 Rel2 fin2 p -> pinv Inv2 ok2 Rel2 fin2 (pstep n p e).
  Proof.
    apply pstep_inv.
    - intros n' g w' i c I' RL O B. apply (perform2 i n' c (w_data w')); [intros Y; exact (proj2 RL i Y B)|exact I'| |].
      + unfold mine. rewrite begun_app, B. cbn [begun flat_map app]. rewrite Nat.eqb_refl. reflexivity.
      + rewrite own_app, O. reflexivity.
    - intros g w' c t w2 I' E. change w2 with (snd (t, w2)). rewrite <- E. apply sane_lose. exact I'.
    - intros g w' c code b I'. exact I'.
    - intros g w' c code b cbs I'. revert I'. apply sane_same; reflexivity.
  Qed.
  Theorem pool_inv2 n w es : (forall es, Rel2 (p_log (prun n (start w) es)) (p_world (prun n (start w) es))) -> sane w ->
    pinv Inv2 ok2 Rel2 fin2 (prun n (start w) es).
  Proof.
    intros RE I. induction es as [|e es IH] using rev_ind; [apply start_inv; exact I|].
    unfold prun. rewrite fold_left_app. cbn [fold_left]. apply step_inv2; [apply RE|exact IH].
  Qed.
End Rounds.
