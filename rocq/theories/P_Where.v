(** Where a gateway connects to: no call changes the address of the gateway or its name but
    async_connect, and every connection that is opened is opened to it. *)
From Verif Require Import Py F64 Struct Utf Utility Const Enum Decode World Request Gateway Api Tasks Pool SpecPool SpecWhere P_Base.
From Verif Require P_Tune.
Open Scope t_scope.

(** an [Open] goes to the address of the gateway at that time *)
Definition here (w : world) (e : ev) : Prop := match e with Open ip port _ => dialled w ip port | _ => True end.
Definition no_open (e : ev) : Prop := match e with Open _ _ _ => False | _ => True end.
(** running [m] from [w] on changes neither address nor name, whatever the others do meanwhile *)
Fixpoint dials {A} (m : task A) (w : world) : Prop :=
  match m with
  | Done _ => True
  | Look k => dials (k w) w
  | Do f k => Forall no_open (fst (f w)) /\ place (snd (f w)) = place w /\ dials k (snd (f w))
  | Wait e k => here w e /\ forall r w', dials (k r) w'
  | Lock k x => forall w', dials k w' /\ dials x w'
  end.
Definition dl {A} (m : task A) : Prop := forall w, dials m w.
Lemma dials_bind {A B} (m : task A) (f : A -> task B) : (forall a, dl (f a)) -> forall w, dials m w -> dials (tbind m f) w.
Proof.
  intros F. induction m as [[a|e|y]|k IH|g k IH|e k IH|k IH xx IHx]; intros w H; cbn [dials tbind] in *; auto.
  - apply F.
  - destruct H as (H1 & H2 & H3). auto.
  - destruct H as (H1 & H2). split; auto.
  - intros w'. destruct (H w'). auto.
Qed.
Lemma dl_bind {A B} (m : task A) (f : A -> task B) : dl m -> (forall a, dl (f a)) -> dl (tbind m f).
Proof. intros M F w. apply dials_bind; auto. Qed.
Lemma dl_catch {A} (m : task A) p h : dl m -> (forall e, dl (h e)) -> dl (tcatch m p h).
Proof.
  intros M F w. specialize (M w). revert w M. induction m as [[a|e|y]|k IH|g k IH|e k IH|k IH xx IHx]; intros w H; cbn [dials tcatch] in *; auto.
  - destruct (p e); [apply F|exact Logic.I].
  - destruct H as (H1 & H2 & H3). auto.
  - destruct H as (H1 & H2). split; auto.
  - intros w'. destruct (H w'). auto.
Qed.
Lemma dl_finally {A} (m : task A) f : (forall w, place (f w) = place w) -> dl m -> dl (tfinally m f).
Proof.
  intros F M w. specialize (M w). revert w M. induction m as [[a|e|y]|k IH|g k IH|e k IH|k IH xx IHx]; intros w H; cbn [dials tfinally fst snd] in *; auto.
  - destruct H as (H1 & H2 & H3). auto.
  - destruct H as (H1 & H2). split; auto.
  - intros w'. destruct (H w'). auto.
Qed.
Lemma place_registers c codes : forall w, place (fold_left (fun w code => register c code (HClient code) w) codes w) = place w.
Proof. induction codes as [|x codes IH]; intros w; [reflexivity|]. cbn [fold_left]. rewrite IH. reflexivity. Qed.
Lemma place_lose c w : place (snd (lose c w)) = place w.
Proof. unfold lose. destruct (connected c w); [destruct (w_cb w)|]; reflexivity. Qed.
Lemma lose_no_open c w : Forall no_open (fst (lose c w)).
Proof. unfold lose. destruct (connected c w); [destruct (w_cb w)|]; repeat constructor. Qed.
Ltac pl := let w := fresh in intros w; first [reflexivity|apply place_registers|unfold pumps_entry; destruct (din _ _); reflexivity|unfold store_pump; reflexivity].
Lemma st_ret {A} (a : A) : dl (tret a). Proof. intros w. exact Logic.I. Qed.
Lemma st_raise {A} e : dl (@traise A e). Proof. intros w. exact Logic.I. Qed.
Lemma st_get {A B} (f : world -> A) (m : A -> task B) : (forall a, dl (m a)) -> dl (tbind (tget f) m).
Proof. intros H w. apply (H (f w) w). Qed.
Lemma st_look {A B} (f : world -> A) (m : A -> task B) : (forall w, dl (m (f w))) -> dl (tbind (tget f) m).
Proof. intros H w. apply (H w w). Qed.
Lemma st_lift {A B} (r : res A) (m : A -> task B) : (forall a, dl (m a)) -> dl (tbind (tlift r) m).
Proof. intros H. destruct r; [apply H|apply st_raise]. Qed.
Lemma st_lift1 {A} (r : res A) : dl (tlift r).
Proof. destruct r; [apply st_ret|apply st_raise]. Qed.
Lemma st_do f : (forall w, place (f w) = place w) -> dl (tdo f).
Proof. intros H w. split; [constructor|]. split; [apply H|exact Logic.I]. Qed.
Lemma st_emit e : no_open e -> dl (temit e). Proof. intros N w. split; [repeat constructor; exact N|]. split; [reflexivity|exact Logic.I]. Qed.
Lemma st_decode m : dl (tdecode m).
Proof. intros w. cbn [tdecode dials]. destruct (m (w_data w)) as [d [x|e]]; (split; [constructor|]); (split; [reflexivity|exact Logic.I]). Qed.
Lemma st_wait {B} e (k : kind -> task B) : (forall w, here w e) -> (forall r, dl (k r)) -> dl (tbind (twait e) k).
Proof. intros H K w. split; [apply H|]. intros r w'. apply (K r w'). Qed.
Lemma st_sleep ms : dl (tsleep ms).
Proof. intros w. split; [exact Logic.I|]. intros r w'. destruct r; exact Logic.I. Qed.
Ltac st := first [apply st_ret | apply st_raise | apply st_lift1 | apply st_emit; exact Logic.I | apply st_decode | apply st_sleep | intros ?; exact Logic.I].

Lemma st_loop X p c : forall left attempt mr, dl (trequest_loop left attempt mr c X p).
Proof.
  induction left as [|left IH]; intros attempt mr; cbn [trequest_loop]; [st|].
  assert (F : forall e, dl (if attempt =? mr then traise e else tsleep (1000 * (COM_RETRY_WAIT * (attempt + 1))) ;;; trequest_loop left (attempt + 1) mr c X p)).
  { intros e. destruct (attempt =? mr); [st|]. apply dl_bind; [st|]. intros _. apply IH. }
  assert (C : dl (ok <- tget (connected c) ;; if ok then tret (@None bytes) else traise ESLConnection)).
  { apply st_get. intros a. destruct a; st. }
  apply st_get. intros ok. destruct ok; cbn [negb]; [|st]. apply st_get. intros q. destruct (c_closing q); [exact C|].
  apply dl_bind.
  - apply st_get. intros q'. destruct (c_open q'); [|st]. apply st_lift. intros _. st.
  - intros _ w0. split; [exact Logic.I|]. intros r w'. revert w'. match goal with |- forall w', dials ?m w' => change (dl m) end. destruct r; cbn [tret tbind]; try exact C; try apply F;
      repeat (first [apply F | st | match goal with |- context [if ?x then _ else _] => destruct x end]).
Qed.
Lemma st_request X p c mr : dl (tmake_request c X p mr). Proof. apply st_loop. Qed.
Lemma st_data X p dec mr c : dl (tdata_request X p dec mr c).
Proof. apply dl_bind; [apply st_request|]. intros r. destruct (nonempty r); [|st]. apply dl_bind; [st|intros _; st]. Qed.
Lemma st_version mr c : dl (trequest_gateway_version mr c). Proof. apply st_get. intros fl. apply st_data. Qed.
Lemma st_pump i mr c : dl (trequest_pump_status i mr c). Proof. apply st_lift. intros p. apply st_data. Qed.
Lemma st_date mr c : dl (trequest_date_time mr c).
Proof.
  apply dl_bind; [apply st_request|]. intros r. destruct (nonempty r); [|st]. apply st_get. intros now. apply dl_bind; [st|intros _; st].
Qed.
Lemma st_command_request X p mr c : dl (tcommand_request X p mr c).
Proof. apply st_lift. intros q. apply dl_bind; [apply st_request|]. intros [[|]|]; st. Qed.
Lemma st_challenge c mr : dl (tgateway_connect c mr).
Proof.
  apply st_get. intros q. apply dl_bind; [destruct (c_open q); st|]. intros _. apply dl_bind; [st|]. intros _.
  apply st_get. intros ok. destruct ok; cbn [negb]; [|st]. apply dl_bind; [apply st_request|]. intros [x|]; st.
Qed.
Lemma st_login c mr : dl (tgateway_login c mr).
Proof. apply st_lift. intros m. apply dl_bind; [apply st_request|]. intros; st. Qed.

Lemma st_m_proto : dl tm_proto_or_fail. Proof. apply st_get. intros [c|]; st. Qed.
Lemma st_proto : dl tproto_or_fail. Proof. apply st_get. intros [c|]; st. Qed.
Lemma st_close c force : dl (tasync_close c force).
Proof.
  apply dl_bind; [apply st_do; pl|]. intros _. apply st_wait; [intros ?; exact Logic.I|]. intros r.
  assert (K : dl (q <- tget (get_conn c) ;;
      (if c_open q then temit (CloseTransport c) ;;; tdo (mark_shut c) else tret tt) ;;;
      still <- tget (connected c) ;;
      if negb still then tret tt
      else
        r2 <- twait (AwaitClosed c) ;;
        match r2 with
        | KDone => Do (lose c) (tret tt)
        | KCancelTask => traise ECancelled
        | _ => tstuck Unfit
        end)).
  { apply st_get. intros q. apply dl_bind.
    - destruct (c_open q); [|st]. apply dl_bind; [st|]. intros _. apply st_do; pl.
    - intros _. apply st_get. intros still. destruct still; cbn [negb]; [|st]. apply st_wait; [intros ?; exact Logic.I|]. intros r2. destruct r2; try st.
      intros w. split; [apply lose_no_open|]. split; [apply place_lose|exact Logic.I]. }
  destruct r; try exact K; st.
Qed.
Lemma st_if {A} (x : bool) (m1 m2 : task A) : dl m1 -> dl m2 -> dl (if x then m1 else m2).
Proof. destruct x; auto. Qed.
Lemma st_remove : dl tremove_client.
Proof.
  apply dl_catch; [|intros; st]. apply dl_bind; [apply st_m_proto|]. intros c. apply st_get. intros id. apply st_command_request.
Qed.
Lemma st_lock {A} (m : task A) : dl m -> dl (twith_lock m).
Proof. intros H w w'. split; [|exact Logic.I]. apply dl_finally; [pl|exact H]. Qed.
Lemma st_unsubscribe : dl tunsubscribe_gateway.
Proof.
  apply st_get. intros a. apply st_if; [st|]. apply st_lock. apply st_get. intros x. apply st_if; [|st].
  apply dl_bind; [apply st_do; pl|]. intros _. apply dl_bind; [apply st_m_proto|]. intros c.
  apply dl_bind; [apply st_do; pl|]. intros _. apply dl_bind; [apply st_do; pl|]. intros _. apply st_remove.
Qed.
Lemma st_disconnect force : dl (tasync_disconnect force).
Proof.
  apply st_look. intros w. apply dl_bind.
  - destruct (is_client w); [apply st_unsubscribe|st].
  - intros _. apply dl_bind; [apply st_proto|]. intros c. apply st_close.
Qed.
Lemma st_attempt {A} connect (method : Z -> nat -> task A) mr : dl connect -> (forall mr c, dl (method mr c)) ->
  dl (tattempt_request connect method mr).
Proof. intros C M. apply dl_bind; [exact C|]. intros ok. apply st_if; [st|]. apply dl_bind; [apply st_proto|]. intros c. apply M. Qed.
Lemma st_connected {A} connect (method : Z -> nat -> task A) d : dl connect -> (forall mr c, dl (method mr c)) ->
  dl (tconnected_request connect method d).
Proof.
  intros C M. apply st_get. intros mr. apply dl_catch; [apply st_attempt; assumption|]. intros _.
  apply dl_bind; [apply st_disconnect|]. intros _. apply dl_bind; [st|]. intros _. apply st_attempt; assumption.
Qed.
Lemma st_subscribe connect : dl connect -> dl (tsubscribe_gateway connect).
Proof.
  intros C. apply st_get. intros a. apply st_if; [st|]. apply st_lock. apply st_get. intros x. apply st_if; [|st]. apply st_get. intros id.
  apply dl_bind; [apply st_connected; [exact C|intros; apply st_command_request]|]. intros _.
  apply dl_bind; [apply st_do; pl|]. intros _. apply dl_bind; [apply st_m_proto|]. intros c. apply st_do; pl.
Qed.
Lemma st_attach connect c mr : dl connect -> dl (tattach connect c mr).
Proof.
  intros C. apply dl_bind; [apply st_do; pl|]. intros _. apply st_get. intros need. apply st_if; [|st].
  apply dl_bind; [apply st_do; pl|]. intros _. apply dl_bind; [apply st_do; pl|]. intros _. apply st_subscribe, C.
Qed.
Lemma st_poll connect key_ m : dl connect -> (forall mr c, dl (m mr c)) -> dl (tpoll connect key_ m).
Proof. intros C M. apply dl_bind; [apply st_connected; assumption|]. intros [x|]; [|st]. apply st_do; pl. Qed.
Lemma st_to_gateway ip port mr w : dialled w ip port -> dials (tconnect_to_gateway ip port mr) w.
Proof.
  intros D. apply dials_bind; [intros c; apply dl_bind; [apply st_challenge|]; intros mac; apply dl_bind; [apply st_login|]; intros ok; st|].
  split; [exact D|]. intros r w'. destruct r; exact Logic.I.
Qed.
(** async_connect on a gateway that is not connected, from line 139 on: gateway.py:139-164 *)
Definition logged_in (n : nat) (pkg : option (nat * pystr)) : task bool :=
  match pkg with
  | None => tret false
  | Some (c, mac) =>
      tdo (store_connection c mac) ;;;
      mr1 <- tget w_retries ;;
      v <- trequest_gateway_version mr1 c ;;
      tdo (fun w => set_last (dset K_VERSION (match v with Some b => VBytes b | None => VNone end) (w_last w)) w) ;;;
      d <- tget w_data ;;
      if Gateway.truthy (version d) then
        tpoll (tasync_connect n no_args) K_CONFIG trequest_pool_config ;;;
        c2 <- tproto_or_fail ;;
        mr2 <- tget w_retries ;;
        tattach (tasync_connect n no_args) c2 mr2 ;;;
        tret true
      else tret false
  end.
Definition opening (n : nat) : task bool :=
  no <- tget no_address ;;
  if no : bool then traise ESLError
  else
    ip <- tget (fun w => a_ip (w_addr w)) ;;
    port <- tget (fun w => a_port (w_addr w)) ;;
    mr <- tget w_retries ;;
    pkg <- tconnect_to_gateway ip port mr ;;
    logged_in n pkg.
Lemma connect_opens n x : tasync_connect (S n) x = (up <- tget is_connected ;; if up : bool then tret true else tdo (store_args x) ;;; opening n).
Proof. reflexivity. Qed.
Lemma st_opening n : dl (tasync_connect n no_args) -> dl (opening n).
Proof.
  intros IH w. unfold opening. cbn [tget tbind tret dials]. destruct (no_address w) eqn:E; [exact Logic.I|]. cbn [dials].
  apply dials_bind; [|apply st_to_gateway; unfold dialled; unfold no_address in E; destruct (a_ip (w_addr w)) as [[|z ip]|]; try discriminate E; repeat split; discriminate].
  intros [[c mac]|]; [|st]. cbn [logged_in].
  apply dl_bind; [apply st_do; pl|]. intros _. apply st_get. intros mr1.
  apply dl_bind; [apply st_version|]. intros v. apply dl_bind; [apply st_do; pl|]. intros _.
  apply st_get. intros d. apply st_if; [|st].
  apply dl_bind; [apply st_poll; [apply IH|intros; apply st_data]|]. intros _.
  apply dl_bind; [apply st_proto|]. intros c2. apply st_get. intros mr2. apply dl_bind; [apply st_attach, IH|]. intros _. st.
Qed.
Lemma place_no_args w : place (store_args no_args w) = place w.
Proof. unfold place, store_args. cbn. destruct (a_ip (w_addr w)); reflexivity. Qed.
Lemma st_connect : forall n, dl (tasync_connect n no_args).
Proof.
  induction n as [|n IH]; [st|]. rewrite connect_opens. apply st_get. intros up. destruct up; [st|].
  apply dl_bind; [apply st_do, place_no_args|]. intros _. apply st_opening, IH.
Qed.
Lemma st_command {A} n (method : Z -> nat -> task A) d : (forall mr c, dl (method mr c)) -> dl (tcommand n method d).
Proof. intros M. apply st_connected; [apply st_connect|exact M]. Qed.
Lemma st_get_poll n key_ m : (forall mr c, dl (m mr c)) -> dl (tget_poll n key_ m).
Proof. intros M. apply st_poll; [apply st_connect|exact M]. Qed.
Lemma st_setting n X p d : dl (tcommand n (tcommand_request X p) d).
Proof. apply st_command. intros mr c. apply st_command_request. Qed.
Lemma st_pumps n : forall ids, dl (tpumps_loop n ids).
Proof.
  induction ids as [|i ids IH]; cbn [tpumps_loop]; [st|]. apply st_get. intros f. apply st_lift. intros flags.
  apply dl_bind; [|intros _; exact IH]. apply st_if; [st|]. apply dl_bind; [apply st_do; pl|]. intros _.
  apply dl_bind; [apply st_command; intros; apply st_pump|]. intros [x|]; [|st]. apply st_do. intros w0. unfold store_pump. repeat match goal with |- context [match ?x with _ => _ end] => destruct x end; reflexivity.
Qed.
Lemma st_require x : dl (trequire x).
Proof. apply st_lift. intros ok. destruct ok; st. Qed.
Lemma st_subscribe_client n cb code : dl (tasync_subscribe_client n cb code).
Proof.
  apply st_get. intros a. apply st_if; [st|]. apply dl_bind; [apply st_do; pl|]. intros _. apply dl_bind; [apply st_m_proto|]. intros c.
  apply dl_bind; [apply st_do; pl|]. intros _. apply st_get. intros need. apply dl_bind; [apply st_if; [apply st_subscribe, st_connect|st]|]. intros _. st.
Qed.
Lemma st_perform n c : (forall x, c <> Connect x) -> dl (tperform n c).
Proof.
  intros N. destruct c; cbn [tperform];
    try (apply st_get_poll; intros; first [apply st_data|apply st_date]; fail);
    try (repeat match goal with
         | |- dl (tbind (tget _) _) => apply st_get; intros ?
         | |- dl (tbind (trequire _) _) => apply dl_bind; [apply st_require|intros _]
         | |- dl (tbind (tlift _) _) => apply st_lift; intros ?
         | x : _ * _ |- _ => destruct x
         end; apply st_setting; fail).
  - destruct (N _ eq_refl).
  - apply st_disconnect.
  - apply st_pumps.
  - unfold tasync_update. apply st_get. intros d. destruct d; [st|].
    apply dl_bind; [apply st_get_poll; intros; apply st_data|intros _].
    apply dl_bind; [apply st_pumps|intros _].
    apply dl_bind; [apply st_get_poll; intros; apply st_data|intros _].
    apply dl_bind; [apply st_get_poll; intros; apply st_data|intros _].
    apply st_get_poll; intros; apply st_date.
  - destruct ((0 <? k) && (k <? 6)); [|st]. apply st_do; pl.
  - apply dl_bind; [|intros; st]. apply st_command. intros mr c. apply st_request.
  - apply st_get. intros [c|]; [|st]. apply st_do; pl.
  - apply st_get. intros [c|]; [|st]. apply st_do; pl.
  - apply dl_bind; [apply st_subscribe_client|]. intros _. st.
  - unfold tremove_subscription. apply st_get. intros on. apply st_if; [st|]. apply dl_bind; [apply st_do; pl|]. intros _.
    apply st_get. intros more. apply st_get. intros a. apply st_if; [|st]. apply dl_bind; [apply st_m_proto|]. intros c. apply st_do; pl.
  - apply st_unsubscribe.
  - unfold tasync_ping. apply dl_catch; [|intros; st]. apply dl_bind; [apply st_m_proto|]. intros c. apply st_command_request.
Qed.

(** what a task waits for does not bind it *)
Definition parked {A} (m : task A) : Prop :=
  match m with Done _ => True | Wait e k => forall r w, dials (k r) w | Lock k x => dl k /\ dl x | _ => False end.
Lemma advance_dials (m : task unit) : forall w t w' m', dials m w -> advance m w = (t, w', m') ->
  place w' = place w /\ Forall (here w') t /\ parked m'.
Proof.
  induction m as [o|k IH|f k IH|e k IH|k IH xx IHx]; intros w t w' m' H A; cbn [dials advance] in *.
  - injection A as <- <- <-. repeat split. constructor.
  - eapply IH; eassumption.
  - destruct H as (H1 & H2 & H3). destruct (f w) as [t1 w1]. destruct (advance k w1) as [[t2 w2] m2] eqn:A2. injection A as <- <- <-. cbn [fst snd] in *.
    destruct (IH _ _ _ _ H3 A2) as (I1 & I2 & I3). split; [congruence|]. split; [|exact I3]. apply Forall_app. split; [|exact I2].
    eapply Forall_impl; [|exact H1]. intros [] E; try exact Logic.I. destruct E.
  - injection A as <- <- <-. destruct H as (H1 & H2). split; [reflexivity|]. split; [constructor; [exact H1|constructor]|exact H2].
  - assert (D : dl k /\ dl xx) by (split; intros w0; apply (H w0)). destruct (m_locked (w_cm w)).
    + injection A as <- <- <-. split; [reflexivity|]. split; [constructor|exact D].
    + destruct (IH _ _ _ _ (proj1 (H _)) A) as (I1 & I2 & I3). split; [rewrite I1; reflexivity|auto].
Qed.

(** an event of a schedule *)
Definition to_place (P : pool) (e : Pool.event) : option pystr * Z * Z * Z * pystr :=
  match e with
  | Pool.Call (Connect x) => if is_connected (p_world P) then place (p_world P) else moved x (place (p_world P))
  | _ => place (p_world P)
  end.
Definition rest (P : pool) : Prop := forall t, In t (p_tasks P) -> parked t.
Lemma place_args x w : place (store_args x w) = moved x (place w).
Proof. unfold place, moved, store_args, over, overo. cbn. destruct (x_ip x), (x_port x), (x_type x), (x_subtype x), (x_name x); reflexivity. Qed.
Lemma where_step n P e : rest P -> let P' := pstep (S n) P e in
  place (p_world P') = to_place P e /\ rest P' /\
  exists x, p_log P' = p_log P ++ x /\ forall i ip port ms, In (By i (Open ip port ms)) x -> dialled (p_world P') ip port.
Proof.
  intros R. destruct P as [w ts g]. unfold rest in *. cbv zeta. cbn [p_world p_tasks p_log] in *.
  assert (Same : place w = place w /\ (forall t, In t ts -> parked t) /\ exists x, g = g ++ x /\ forall i ip port ms, In (By i (Open ip port ms)) x -> dialled w ip port).
  { split; [reflexivity|]. split; [exact R|]. exists []. split; [symmetry; apply app_nil_r|]. intros i ip port ms []. }
  assert (Op : forall w' i t j ip port ms, Forall (here w') t -> In (By j (Open ip port ms)) (map (By i) t) -> dialled w' ip port).
  { intros w' i t j ip port ms F J. apply in_map_iff in J. destruct J as (e' & E & J). injection E as _ ->. rewrite Forall_forall in F. exact (F _ J). }
  assert (Run : forall i m0 w0 head t w' t', dials m0 w0 -> place w0 = place w -> (forall j ip port ms, ~ In (By j (Open ip port ms)) head) -> advance m0 w0 = (t, w', t') ->
    place w' = place w /\ (forall m, In m (lset i t' ts) -> parked m) /\ exists x, g ++ head ++ map (By i) t = g ++ x /\ forall j ip port ms, In (By j (Open ip port ms)) x -> dialled w' ip port).
  { intros i m0 w0 head t w' t' D Pw Nh A. destruct (advance_dials _ _ _ _ _ D A) as (A1 & A2 & A3). split; [congruence|]. split.
    - intros m J. apply P_Tune.in_lset in J. destruct J as [->|J]; auto.
    - eexists. split; [reflexivity|]. intros j ip port ms J. apply in_app_or in J. destruct J as [J|J]; [destruct (Nh _ _ _ _ J)|eapply Op; eassumption]. }
  destruct e as [c|i k clk|i|c|c code x|]; [cbn [pstep p_world p_tasks p_log]..|].
  - assert (K : forall t w' m', place w' = to_place (mkPool w ts g) (Pool.Call c) -> Forall (here w') t -> parked m' ->
      place w' = to_place (mkPool w ts g) (Pool.Call c) /\ (forall m, In m (ts ++ [m']) -> parked m) /\
      exists x, g ++ Started (List.length ts) c (w_data w) :: map (By (List.length ts)) t = g ++ x /\ forall j ip port ms, In (By j (Open ip port ms)) x -> dialled w' ip port).
    { intros t w' m' A1 A2 A3. split; [exact A1|]. split.
      - intros m J. apply in_app_or in J. destruct J as [J|[<-|[]]]; auto.
      - eexists. split; [reflexivity|]. intros j ip port ms [J|J]; [discriminate J|eapply Op; eassumption]. }
    destruct (advance (tperform (S n) c) w) as [[t w'] m'] eqn:A.
    assert (D : (forall x, c <> Connect x) -> place w' = place w /\ Forall (here w') t /\ parked m').
    { intros N. eapply advance_dials; [apply st_perform, N|exact A]. }
    destruct c as [x| | | | | | | | | | | | | | | | | | | | | | | |]; try (destruct D as (D1 & D2 & D3); [discriminate|]; apply K; assumption). clear D.
    cbn [tperform] in A. rewrite connect_opens in A. cbn [to_place p_world] in *.
    change (advance (tbind (if is_connected w then tret true else tdo (store_args x) ;;; opening n) (fun _ => tret tt)) w = (t, w', m')) in A.
    destruct (is_connected w).
    + cbn in A. injection A as <- <- <-. apply K; [reflexivity|constructor|exact Logic.I].
    + change (advance (Do (fun w => ([], store_args x w)) (tbind (opening n) (fun _ => tret tt))) w = (t, w', m')) in A. cbn [advance] in A.
      destruct (advance (tbind (opening n) (fun _ => tret tt)) (store_args x w)) as [[t1 w1] m1] eqn:A1. injection A as <- <- <-. cbn [app].
      destruct (advance_dials _ _ _ _ _ (dl_bind _ _ (st_opening _ (st_connect n)) (fun _ => st_ret tt) (store_args x w)) A1) as (D1 & D2 & D3).
      apply K; [rewrite D1; apply place_args|exact D2|exact D3].
  - destruct (nth_error ts i) as [[| | |e f|f xx]|] eqn:N; try exact Same; pose proof (R _ (nth_error_In _ _ N)) as Pk; cbn [parked] in Pk.
    + destruct (fits e k); [|exact Same]. destruct (advance _ _) as [[t w'] t'] eqn:A. eapply Run; [apply Pk| | |exact A].
      * destruct e; try reflexivity. destruct k; reflexivity.
      * intros j ip port ms [J|[]]. discriminate J.
    + destruct k; try exact Same. destruct (advance _ _) as [[t w'] t'] eqn:A. apply (Run i xx (set_clock clk w) [By i (Got (mkResp KCancelTask [] None clk))] t w' t'); [apply Pk|reflexivity| |exact A]. intros j ip port ms [J|[]]. discriminate J.
  - destruct (nth_error ts i) as [[| | |e f|f xx]|] eqn:N; try exact Same; pose proof (R _ (nth_error_In _ _ N)) as Pk; cbn [parked] in Pk.
    destruct (advance _ _) as [[t w'] t'] eqn:A. eapply (Run i (Lock f xx) w []); [intros w0; split; apply Pk|reflexivity|intros j ip port ms []|exact A].
  - pose proof (place_lose c w) as L. pose proof (lose_no_open c w) as Q. destruct (lose c w) as [t w']. cbn [fst snd p_world p_tasks p_log] in *. split; [exact L|]. split; [exact R|].
    eexists. split; [reflexivity|]. intros j ip port ms J. apply in_map_iff in J. destruct J as (y & J & _). discriminate J.
  - destruct (handler_of c code w) as [[h|h]|]; try exact Same. split; [reflexivity|]. split; [exact R|]. eexists. split; [reflexivity|]. intros j ip port ms [J|[]]. discriminate J.
  - destruct (pstep_handle (S n) w ts g) as [->|(c0 & code0 & b0 & l0 & cbs & _ & _ & ->)]; [exact Same|]. split; [reflexivity|]. split; [exact R|].
    eexists. split; [reflexivity|]. intros j ip port ms [J|[]]. discriminate J.
Qed.
Lemma rest_run n es : forall P, rest P -> rest (prun (S n) P es).
Proof. induction es as [|e es IH]; intros P R; [exact R|]. apply IH. apply (where_step n P e R). Qed.
