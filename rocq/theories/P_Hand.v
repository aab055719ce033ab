(** The handler of a subscribed code stays on the client manager's connection (C127). *)
From Verif Require Import Py F64 Struct Utf Utility Const Spec Enum Decode Messages Calls World Request Gateway Api Tasks Pool SpecPool.
From Verif Require Import P_Base P_Gw1.
From Verif Require P_Moves P_Gw11 P_Tune.
Open Scope t_scope.

Definition find_h (x : Z) (l : list (Z * handler)) : option (Z * handler) := find (fun h => fst h =? x) l.
Lemma find_set x h l : find_h x (hset x h l) = Some (x, h).
Proof.
  unfold find_h. induction l as [|[k v] l IH]; cbn [hset find fst]; [rewrite Z.eqb_refl; reflexivity|].
  destruct (Z.eqb_spec x k) as [->|N]; cbn [find fst]; [rewrite Z.eqb_refl; reflexivity|]. destruct (Z.eqb_spec k x); [congruence|exact IH].
Qed.
Lemma find_other x y h l : x <> y -> find_h x (hset y h l) = find_h x l.
Proof.
  unfold find_h. intros N. induction l as [|[k v] l IH]; cbn [hset find fst]; [destruct (Z.eqb_spec y x); [congruence|reflexivity]|].
  destruct (Z.eqb_spec y k) as [->|N']; cbn [find fst]; [destruct (Z.eqb_spec k x); [congruence|reflexivity]|]. destruct (k =? x); [reflexivity|exact IH].
Qed.
Lemma find_filter x y l : x <> y -> find_h x (filter (fun p : Z * handler => negb (fst p =? y)) l) = find_h x l.
Proof.
  unfold find_h. intros N. induction l as [|[k v] l IH]; cbn [filter find fst]; [reflexivity|].
  destruct (Z.eqb_spec k y) as [->|N']; cbn [negb find fst]; [destruct (Z.eqb_spec y x); [congruence|exact IH]|]. destruct (k =? x); [reflexivity|exact IH].
Qed.
Lemma get_upd c c' f w : get_conn c (upd_conn c' f w) = if Nat.eqb c c' && (c' <? List.length (w_conns w))%nat then f (get_conn c' w) else get_conn c w.
Proof.
  unfold get_conn, upd_conn. cbn [set_conns w_conns]. rewrite P_Moves.nth_lset. destruct (Nat.eqb_spec c c') as [->|N]; cbn [andb]; [|reflexivity].
  destruct (Nat.ltb_spec c' (List.length (w_conns w))); reflexivity.
Qed.

Section Code.
Variable x : Z.   (* the code *)
(** [G]: the connections on which a remove-client message was sent *)
Definition V (G : nat -> Prop) (w : world) : Prop :=
  is_u32 (m_id (w_cm w)) /\
  forall c, m_proto (w_cm w) = Some c -> c_connected (get_conn c w) = true -> c_closing (get_conn c w) = false -> c_open (get_conn c w) = true -> ~ G c ->
    In x (map fst (m_listeners (w_cm w))) -> find_h x (c_handlers (get_conn c w)) = Some (x, HClient x).
Definition grow (G : nat -> Prop) (t : trace) : nat -> Prop := fun c => G c \/ exists p, In (Send c 12524 p) t.
Lemma V_ext (G G' : nat -> Prop) w : (forall c, G c -> G' c) -> V G w -> V G' w.
Proof. intros S (I & H). split; [exact I|]. intros c A1 A2 A3 A4 A5 A6. apply H; auto. Qed.
Lemma V_grow G t w : V G w -> V (grow G t) w. Proof. apply V_ext. intros c H. left. exact H. Qed.

Fixpoint wpc {A} (m : task A) (Q : (nat -> Prop) -> out A -> world -> Prop) (G : nat -> Prop) (w : world) : Prop :=
  match m with
  | Done o => Q G o w
  | Look k => wpc (k w) Q G w
  | Do f k => wpc k Q (grow G (fst (f w))) (snd (f w))
  | Wait e k => V G w /\ forall r G' w', V G' w' -> wpc (k r) Q G' w'
  | Lock k y => V G w /\ (forall G' w', V G' w' -> wpc k Q G' (put_cm (cmset_locked true) w')) /\ (forall G' w', V G' w' -> wpc y Q G' w')
  end.
Definition VQ {A} (G : nat -> Prop) (o : out A) (w : world) : Prop := V G w.
Definition kp {A} (m : task A) : Prop := forall G w, V G w -> wpc m VQ G w.

Lemma wpc_mono {A} (m : task A) : forall (Q Q' : (nat -> Prop) -> out A -> world -> Prop) G w, (forall G o w, Q G o w -> Q' G o w) -> wpc m Q G w -> wpc m Q' G w.
Proof.
  induction m as [o|k IH|f k IH|e k IH|k IH y IHy]; intros Q Q' G w H S; cbn [wpc] in *; eauto.
  - destruct S as (S1 & S2). split; [exact S1|]. intros. eapply IH; eauto.
  - destruct S as (S1 & S2 & S3). split; [exact S1|]. split; intros; [eapply IH|eapply IHy]; eauto.
Qed.
Lemma wpc_bind {A B} (m : task A) (f : A -> task B) : forall (Q : (nat -> Prop) -> out B -> world -> Prop) G w,
  wpc m (fun G o w => match o with Val a => wpc (f a) Q G w | Exc e => Q G (Exc e) w | Stuck y => Q G (Stuck y) w end) G w -> wpc (tbind m f) Q G w.
Proof.
  induction m as [[a|e|y]|k IH|g k IH|e k IH|k IH y IHy]; intros Q G w S; cbn [wpc tbind] in *; auto.
  - destruct S as (S1 & S2). auto.
  - destruct S as (S1 & S2 & S3). auto.
Qed.
Lemma wpc_catch {A} (m : task A) (p : exn -> bool) (h : exn -> task A) : forall (Q : (nat -> Prop) -> out A -> world -> Prop) G w,
  wpc m (fun G o w => match o with Exc e => if p e then wpc (h e) Q G w else Q G (Exc e) w | _ => Q G o w end) G w -> wpc (tcatch m p h) Q G w.
Proof.
  induction m as [[a|e|y]|k IH|g k IH|e k IH|k IH y IHy]; intros Q G w S; cbn [wpc tcatch] in *; auto.
  - destruct (p e); exact S.
  - destruct S as (S1 & S2). auto.
  - destruct S as (S1 & S2 & S3). auto.
Qed.
Lemma wpc_finally {A} (m : task A) (f : world -> world) : forall (Q : (nat -> Prop) -> out A -> world -> Prop) G w,
  wpc m (fun G o w => match o with Stuck _ => Q G o w | _ => Q (grow G []) o (f w) end) G w -> wpc (tfinally m f) Q G w.
Proof.
  induction m as [[a|e|y]|k IH|g k IH|e k IH|k IH y IHy]; intros Q G w S; cbn [wpc tfinally fst snd] in *; auto.
  - destruct S as (S1 & S2). auto.
  - destruct S as (S1 & S2 & S3). auto.
Qed.
Lemma kp_bind {A B} (m : task A) (f : A -> task B) : kp m -> (forall a, kp (f a)) -> kp (tbind m f).
Proof. intros M F G w H. apply wpc_bind. eapply wpc_mono; [|apply M, H]. intros G' [a|e|y] w' H'; [apply F, H'|exact H'|exact H']. Qed.
Lemma kp_catch {A} (m : task A) p (h : exn -> task A) : kp m -> (forall e, kp (h e)) -> kp (tcatch m p h).
Proof. intros M F G w H. apply wpc_catch. eapply wpc_mono; [|apply M, H]. intros G' [a|e|y] w' H'; try exact H'. destruct (p e); [apply F, H'|exact H']. Qed.

(** ** single changes *)
Lemma V_same G w w' : w_conns w' = w_conns w -> m_proto (w_cm w') = m_proto (w_cm w) -> m_listeners (w_cm w') = m_listeners (w_cm w) -> m_id (w_cm w') = m_id (w_cm w) -> V G w -> V G w'.
Proof. unfold V, get_conn. intros -> -> -> ->. auto. Qed.
Lemma V_conn G c f w : (forall k, (c_connected (f k) = true -> c_connected k = true) /\ (c_closing (f k) = false -> c_closing k = false) /\ (c_open (f k) = true -> c_open k = true) /\
  (find_h x (c_handlers (f k)) = find_h x (c_handlers k) \/ find_h x (c_handlers (f k)) = Some (x, HClient x))) -> V G w -> V G (upd_conn c f w).
Proof.
  intros F (I & H). split; [exact I|]. intros c0 A1 A2 A3 A4 A5 A6. cbn [upd_conn set_conns w_cm] in A1, A6. rewrite get_upd in *.
  destruct (Nat.eqb_spec c0 c) as [->|N]; cbn [andb] in *; [|auto]. destruct (c <? _)%nat; [|auto]. destruct (F (get_conn c w)) as (F1 & F2 & F3 & [F4|F4]); [|exact F4]. rewrite F4. auto 10.
Qed.
Definition still (f : world -> world) : Prop := forall G w, V G w -> V G (f w).
Ltac same := let G := fresh in let w := fresh in intros G w; apply V_same; reflexivity.
Lemma s_data d : still (set_data d). Proof. same. Qed.
Lemma s_last d : still (set_last d). Proof. same. Qed.
Lemma s_clock d : still (set_clock d). Proof. same. Qed.
Lemma s_retries d : still (set_retries d). Proof. same. Qed.
Lemma s_args a : still (store_args a). Proof. intros G w. unfold store_args. destruct a. apply V_same; reflexivity. Qed.
Lemma s_connection c mac : still (store_connection c mac). Proof. same. Qed.
Lemma s_client b : still (put_cm (cmset_client b)). Proof. same. Qed.
Lemma s_locked b : still (put_cm (cmset_locked b)). Proof. same. Qed.
Lemma s_pumps : still pumps_entry. Proof. intros G w. unfold pumps_entry. destruct (din _ _); [auto|apply V_same; reflexivity]. Qed.
Lemma s_pump i b : still (store_pump i b). Proof. intros G w. unfold store_pump. destruct (dget K_PUMPS (w_last w)) as [[]|]; try (apply V_same; reflexivity); auto. Qed.
Lemma s_keepalive b c : still (keepalive b c). Proof. intros G w. apply V_conn. intros k. cbn. auto. Qed.
Lemma s_closing c : still (mark_closing c). Proof. intros G w. apply V_conn. intros k. cbn. split; [auto|]. split; [discriminate|auto]. Qed.
Lemma s_shut c : still (mark_shut c). Proof. intros G w. apply V_conn. intros k. cbn. split; [auto|]. split; [auto|]. split; [discriminate|auto]. Qed.
Lemma s_lose c : still (fun w => snd (lose c w)).
Proof. intros G w H. unfold lose. destruct (connected c w); [|exact H]. cbn [snd]. revert H. apply V_conn. intros k. cbn. split; [discriminate|]. split; [auto|]. split; [discriminate|auto]. Qed.
Lemma s_register c : still (register c x (HClient x)).
Proof. intros G w. apply V_conn. intros k. cbn [c_connected c_closing c_open c_handlers]. rewrite find_set. auto. Qed.
Lemma s_register_other c y h : y <> x -> still (register c y h).
Proof. intros N G w. apply V_conn. intros k. cbn [c_connected c_closing c_open c_handlers]. rewrite find_other by congruence. auto. Qed.
Lemma s_unregister_other c y : y <> x -> still (unregister c y).
Proof. intros N G w. apply V_conn. intros k. cbn [c_connected c_closing c_open c_handlers]. rewrite find_filter by congruence. auto. Qed.

(** ** the calls *)
Lemma kp_done {A} (o : out A) : kp (Done o). Proof. intros G w H. exact H. Qed.
Lemma kp_get {A B} (f : world -> A) (m : A -> task B) : (forall a, kp (m a)) -> kp (tbind (tget f) m).
Proof. intros H G w. apply H. Qed.
Lemma kp_look {A} (f : world -> task A) : (forall w, kp (f w)) -> kp (Look f).
Proof. intros H G w. cbn [wpc]. apply H. Qed.
Lemma kp_lift {A B} (r : res A) (m : A -> task B) : (forall a, kp (m a)) -> kp (tbind (tlift r) m).
Proof. intros H. destruct r; [apply H|apply kp_done]. Qed.
Lemma kp_lift1 {A} (r : res A) : kp (tlift r). Proof. destruct r; apply kp_done. Qed.
Lemma kp_do f : still f -> kp (tdo f).
Proof. intros F G w H. cbn [tdo tret wpc fst snd]. apply V_grow, F, H. Qed.
Lemma kp_emit e : kp (temit e). Proof. intros G w H. cbn [temit tret wpc fst snd]. apply V_grow, H. Qed.
Lemma kp_wait {A} e (k : kind -> task A) : (forall r, kp (k r)) -> kp (Wait e k).
Proof. intros K G w H. split; [exact H|]. intros. apply K. assumption. Qed.
Lemma kp_lock {A} (m : task A) : kp m -> kp (twith_lock m).
Proof.
  intros M G w H. split; [exact H|]. split; [|intros G' w' H'; exact H']. intros G' w' H'. apply wpc_finally. eapply wpc_mono; [|apply M, s_locked, H'].
  intros G0 [a|e|y] w0 H0; [apply V_grow, s_locked, H0|apply V_grow, s_locked, H0|exact H0].
Qed.
Lemma kp_if {A} (b : bool) (m1 m2 : task A) : kp m1 -> kp m2 -> kp (if b then m1 else m2). Proof. destruct b; auto. Qed.
Lemma kp_decode m : kp (tdecode m).
Proof. apply kp_look. intros w G w0 H. destruct (m (w_data w)) as [d [r|e]]; cbn [wpc tret traise fst snd]; apply V_grow, s_data, H. Qed.
Lemma kp_sleep ms : kp (tsleep ms).
Proof. apply kp_wait. intros r. destruct r; apply kp_done. Qed.
Ltac kd := first [apply kp_done | apply kp_lift1 | apply kp_emit | apply kp_decode | apply kp_sleep].
Lemma kp_loop X p c : forall left attempt mr, kp (trequest_loop left attempt mr c X p).
Proof.
  induction left as [|left IH]; intros attempt mr; cbn [trequest_loop]; [kd|].
  assert (F : forall e, kp (if attempt =? mr then traise e else tsleep (1000 * (COM_RETRY_WAIT * (attempt + 1))) ;;; trequest_loop left (attempt + 1) mr c X p)).
  { intros e. destruct (attempt =? mr); [kd|]. apply kp_bind; [kd|]. intros _. apply IH. }
  assert (C : kp (ok <- tget (connected c) ;; if ok then tret (@None bytes) else traise ESLConnection)).
  { apply kp_get. intros a. destruct a; kd. }
  apply kp_get. intros ok. destruct ok; cbn [negb]; [|kd]. apply kp_get. intros q. destruct (c_closing q); [exact C|].
  apply kp_bind.
  - apply kp_get. intros q'. destruct (c_open q'); [|kd]. apply kp_lift. intros _. kd.
  - intros _. apply kp_wait. intros r. destruct r; cbn [tret tbind]; try exact C; try apply F;
      repeat (first [apply F | kd | match goal with |- context [if ?x then _ else _] => destruct x end]).
Qed.
Lemma kp_request X p c mr : kp (tmake_request c X p mr). Proof. apply kp_loop. Qed.
Lemma kp_data X p dec mr c : kp (tdata_request X p dec mr c).
Proof. apply kp_bind; [apply kp_request|]. intros r. destruct (nonempty r); [|kd]. apply kp_bind; [kd|intros _; kd]. Qed.
Lemma kp_version mr c : kp (trequest_gateway_version mr c). Proof. apply kp_get. intros fl. apply kp_data. Qed.
Lemma kp_pumpst i mr c : kp (trequest_pump_status i mr c). Proof. apply kp_lift. intros p. apply kp_data. Qed.
Lemma kp_date mr c : kp (trequest_date_time mr c).
Proof.
  apply kp_bind; [apply kp_request|]. intros r. destruct (nonempty r); [|kd]. apply kp_get. intros now. apply kp_bind; [kd|intros _; kd].
Qed.
Lemma kp_command_request X p mr c : kp (tcommand_request X p mr c).
Proof. apply kp_lift. intros q. apply kp_bind; [apply kp_request|]. intros [[|]|]; kd. Qed.
Lemma kp_challenge c mr : kp (tgateway_connect c mr).
Proof.
  apply kp_get. intros q. apply kp_bind; [destruct (c_open q); kd|]. intros _. apply kp_bind; [kd|]. intros _.
  apply kp_get. intros ok. destruct ok; cbn [negb]; [|kd]. apply kp_bind; [apply kp_request|]. intros [y|]; kd.
Qed.
Lemma kp_login c mr : kp (tgateway_login c mr).
Proof. apply kp_lift. intros m. apply kp_bind; [apply kp_request|]. intros; kd. Qed.
Lemma kp_m_proto : kp tm_proto_or_fail. Proof. apply kp_get. intros [c|]; kd. Qed.
Lemma kp_proto : kp tproto_or_fail. Proof. apply kp_get. intros [c|]; kd. Qed.
Lemma kp_close c force : kp (tasync_close c force).
Proof.
  apply kp_bind; [apply kp_do, s_closing|]. intros _. apply kp_wait. intros r.
  assert (K : kp (q <- tget (get_conn c) ;;
      (if c_open q then temit (CloseTransport c) ;;; tdo (mark_shut c) else tret tt) ;;;
      still <- tget (connected c) ;;
      if negb still then tret tt
      else
        r2 <- twait (AwaitClosed c) ;;
        match r2 with
        | KDone => Do (lose c) (tret tt)
        | KCancelTask => traise ECancelled
        | _ => tstuck Unfit
        end)).
  { apply kp_get. intros q. apply kp_bind.
    - destruct (c_open q); [|kd]. apply kp_bind; [kd|]. intros _. apply kp_do, s_shut.
    - intros _. apply kp_get. intros st. destruct st; cbn [negb]; [|kd]. apply kp_wait. intros r2. destruct r2; try kd.
      intros G w H. cbn [wpc tret]. apply V_grow. exact (s_lose c G w H). }
  destruct r; try exact K; kd.
Qed.

(** what follows the wait for the answer to remove-client *)
Definition after (c : nat) (r : kind) : task (option bytes) :=
  match r with
  | KReply rc b | KTimeoutReply rc b =>
     if rc =? CODE_REMOVE_CLIENT_QUERY + 1 then tret (Some b)
     else if rc =? CODE_ERROR_LOGIN_REJECTED then traise ESLLogin
     else if (rc =? CODE_ERROR_INVALID_REQUEST) || (rc =? CODE_ERROR_BAD_PARAMETER)
          then (if 0 =? 0 then traise ESLRequest else tsleep (1000 * (COM_RETRY_WAIT * (0 + 1))) ;;; tret None)
     else (if 0 =? 0 then traise ESLResponse else tsleep (1000 * (COM_RETRY_WAIT * (0 + 1))) ;;; tret None)
  | KTimeout => if 0 =? 0 then traise ESLConnection else tsleep (1000 * (COM_RETRY_WAIT * (0 + 1))) ;;; tret None
  | KCancelFut | KCancelTask => ok <- tget (connected c) ;; if ok : bool then tret None else traise ESLConnection
  | KDone | KOSError => tstuck Unfit
  end.
Lemma kp_after c r : kp (after c r).
Proof.
  destruct r; unfold after; try kd; try (apply kp_get; intros []; kd); repeat (first [kd | match goal with |- context [if ?x then _ else _] => destruct x end]).
Qed.
(** the one place where the handlers go: the connection is not up, or is being closed, or the
    message goes out before anybody else runs *)
Lemma wpc_remove G w c : V G w -> m_proto (w_cm w) = Some c -> wpc tremove_client VQ G (unregister_all c w).
Proof.
  intros (I & H) M. set (w2 := unregister_all c w).
  assert (V2 : forall G', (c_connected (get_conn c w2) = false \/ c_closing (get_conn c w2) = true \/ c_open (get_conn c w2) = false \/ G' c) -> V G' w2).
  { intros G' D. split; [exact I|]. intros c0 A1 A2 A3 A4 A5 A6. cbn [w2 unregister_all upd_conn set_conns w_cm] in A1. rewrite M in A1. injection A1 as <-. exfalso. intuition congruence. }
  unfold tremove_client. apply wpc_catch. apply wpc_bind. unfold tm_proto_or_fail. cbn [tget tbind tret wpc].
  change (m_proto (w_cm w2)) with (m_proto (w_cm w)). rewrite M. cbn [tret wpc tbind]. change (m_id (w_cm w2)) with (m_id (w_cm w)).
  assert (P : pack_Is [VInt 0; VInt (m_id (w_cm w))] = Ok (List.concat (map u32le [0; m_id (w_cm w)]))).
  { apply (pack_Is_ok [0; m_id (w_cm w)]). constructor; [unfold is_u32; lia|constructor; [exact I|constructor]]. }
  unfold tcommand_request. destruct (P_Gw11.pack2_small 0 (m_id (w_cm w)) _ CODE_REMOVE_CLIENT_QUERY ltac:(unfold is_u16, CODE_REMOVE_CLIENT_QUERY; lia) P) as (msg & MM).
  rewrite P. cbn [tlift tret tbind]. unfold tmake_request. change (Z.to_nat (0 + 1)) with 1%nat. cbn [trequest_loop tget tbind wpc]. unfold connected. fold w2.
  destruct (c_connected (get_conn c w2)) eqn:Cn; cbn [negb tbind tret traise wpc is_comm_error]; [|apply V_grow || idtac; apply V2; auto].
  destruct (c_closing (get_conn c w2)) eqn:Cl; [unfold connected; cbn [tbind wpc tget tret]; rewrite Cn; cbn; apply V2; auto|].
  unfold tsend. cbn [tget tbind tret wpc]. 
  assert (Fin : forall G' w', V G' w' -> forall r, wpc (tbind (after c r) (fun r => match r with Some [] => tret tt | _ => traise ESLResponse end))
     (fun G (o : out unit) w => match o with Exc e => if is_comm_error e then wpc (tret tt) VQ G w else V G w | _ => V G w end) G' w').
  { intros G' w' H' r. apply wpc_bind. eapply wpc_mono; [|apply kp_after, H']. intros G0 [a|e|y] w0 H0; [destruct a as [[|]|]; exact H0|destruct (is_comm_error e); exact H0|exact H0]. }
  destruct (c_open (get_conn c w2)) eqn:Op; cbn [wpc tbind tret].
  - rewrite MM. cbn [tlift tret tbind temit wpc fst snd]. split; [apply V2; right; right; right; right; eexists; left; reflexivity|].
    intros r G' w' H'. apply Fin. exact H'.
  - split; [apply V2; auto|]. intros r G' w' H'. apply Fin. exact H'.
Qed.
Lemma kp_remove : kp tremove_client.
Proof.
  apply kp_catch; [|intros; kd]. apply kp_bind; [apply kp_m_proto|]. intros c. apply kp_get. intros id. apply kp_command_request.
Qed.
Lemma kp_unsubscribe : kp tunsubscribe_gateway.
Proof.
  apply kp_get. intros a. apply kp_if; [kd|]. apply kp_lock. apply kp_get. intros b. apply kp_if; [|kd].
  apply kp_bind; [apply kp_do, s_client|]. intros _ G w H. apply wpc_bind. unfold tm_proto_or_fail. cbn [tget tbind tret wpc].
  destruct (m_proto (w_cm w)) as [c|] eqn:M; cbn [tret traise wpc]; [|exact H]. cbn [tdo tbind tret wpc fst snd].
  apply (wpc_remove (grow (grow G []) []) (keepalive false c w) c); [|exact M]. apply V_grow, V_grow, s_keepalive, H.
Qed.
Lemma kp_disconnect force : kp (tasync_disconnect force).
Proof.
  apply kp_get. intros b. apply kp_bind; [apply kp_if; [apply kp_unsubscribe|kd]|]. intros _. apply kp_bind; [apply kp_proto|]. intros c. apply kp_close.
Qed.
Lemma kp_attempt {A} connect (method : Z -> nat -> task A) mr : kp connect -> (forall mr c, kp (method mr c)) -> kp (tattempt_request connect method mr).
Proof. intros C M. apply kp_bind; [exact C|]. intros ok. apply kp_if; [kd|]. apply kp_bind; [apply kp_proto|]. intros c. apply M. Qed.
Lemma kp_connected {A} connect (method : Z -> nat -> task A) d : kp connect -> (forall mr c, kp (method mr c)) -> kp (tconnected_request connect method d).
Proof.
  intros C M. apply kp_get. intros mr. apply kp_catch; [apply kp_attempt; assumption|]. intros _.
  apply kp_bind; [apply kp_disconnect|]. intros _. apply kp_bind; [kd|]. intros _. apply kp_attempt; assumption.
Qed.
Lemma kp_subscribe connect : kp connect -> kp (tsubscribe_gateway connect).
Proof.
  intros C. apply kp_get. intros a. apply kp_if; [kd|]. apply kp_lock. apply kp_get. intros b. apply kp_if; [|kd]. apply kp_get. intros id.
  apply kp_bind; [apply kp_connected; [exact C|intros; apply kp_command_request]|]. intros _.
  apply kp_bind; [apply kp_do, s_client|]. intros _. apply kp_bind; [apply kp_m_proto|]. intros c. apply kp_do, s_keepalive.
Qed.
(** attaching registers every subscribed code on the new connection *)
Definition regs (c : nat) (l : list Z) (w : world) : world := fold_left (fun w code => register c code (HClient code) w) l w.
Lemma regs_same c l : forall w, w_cm (regs c l w) = w_cm w /\ List.length (w_conns (regs c l w)) = List.length (w_conns w).
Proof.
  induction l as [|y l IH]; intros w; [auto|]. cbn [regs fold_left]. destruct (IH (register c y (HClient y) w)) as (A & B). unfold regs in *. rewrite A, B.
  split; [reflexivity|]. cbn [register upd_conn set_conns w_conns]. apply P_Moves.lset_len.
Qed.
Lemma regs_find c l : forall w, (c < List.length (w_conns w))%nat -> (In x l \/ find_h x (c_handlers (get_conn c w)) = Some (x, HClient x)) ->
  find_h x (c_handlers (get_conn c (regs c l w))) = Some (x, HClient x).
Proof.
  induction l as [|y l IH]; intros w L D; [destruct D as [[]|D]; exact D|]. cbn [regs fold_left]. apply IH.
  - cbn [register upd_conn set_conns w_conns]. rewrite P_Moves.lset_len. exact L.
  - unfold register. rewrite get_upd, Nat.eqb_refl. destruct (Nat.ltb_spec c (List.length (w_conns w))); [|lia]. cbn [andb c_handlers].
    destruct (Z.eq_dec y x) as [->|N]; [right; apply find_set|]. rewrite find_other by congruence. destruct D as [[D|D]|D]; auto. congruence.
Qed.
Lemma get_beyond c w : (List.length (w_conns w) <= c)%nat -> c_connected (get_conn c w) = false.
Proof. intros L. unfold get_conn. rewrite nth_overflow by exact L. reflexivity. Qed.
Lemma kp_attach connect c mr : kp connect -> kp (tattach connect c mr).
Proof.
  intros C G w (I & H). unfold tattach. cbn [tdo tbind tget tret wpc fst snd]. set (w1 := put_cm _ w).
  assert (L1 : m_listeners (w_cm w1) = m_listeners (w_cm w)) by reflexivity.
  unfold client_needed. rewrite L1. destruct (m_listeners (w_cm w)) as [|z l] eqn:EL.
  - cbn [wpc tret]. split; [exact I|]. intros c0 _ _ _ _ _ A6. rewrite L1 in A6. destruct A6.
  - cbn [w1 put_cm set_cm w_cm cmset_client cmset_retries cmset_proto m_is_client negb]. cbn [tdo tbind tret wpc fst snd]. fold w1.
    apply kp_subscribe; [exact C|]. set (w2 := unregister_all c w1).
    change (fold_left (fun w code => register c code (HClient code) w) (map fst (m_listeners (w_cm w2))) w2) with (regs c (map fst (m_listeners (w_cm w2))) w2).
    assert (E2 : w_cm w2 = w_cm w1) by reflexivity. destruct (regs_same c (map fst (m_listeners (w_cm w2))) w2) as (RS & RL).
    pose proof (fun Lt => regs_find c (map fst (m_listeners (w_cm w2))) w2 Lt) as RF. remember (regs c (map fst (m_listeners (w_cm w2))) w2) as w3 eqn:Ew3. clear Ew3.
    split; [rewrite RS; exact I|]. rewrite RS. intros c0 A1 A2 _ _ _ A6. cbn in A1. injection A1 as <-.
    destruct (Nat.lt_ge_cases c (List.length (w_conns w2))) as [Lt|Ge]; [|rewrite get_beyond in A2 by (rewrite RL; exact Ge); discriminate A2].
    apply RF; [exact Lt|left; exact A6].
Qed.
Lemma kp_poll connect key_ m : kp connect -> (forall mr c, kp (m mr c)) -> kp (tpoll connect key_ m).
Proof. intros C M. apply kp_bind; [apply kp_connected; assumption|]. intros [b|]; [|kd]. apply kp_do. intros G w. apply s_last. Qed.
Lemma kp_create ip port : kp (tcreate_connection ip port).
Proof. apply kp_wait. intros r. destruct r; try kd. apply kp_look. intros w. kd. Qed.
Lemma kp_to_gateway ip port mr : kp (tconnect_to_gateway ip port mr).
Proof.
  apply kp_bind; [apply kp_create|]. intros c. apply kp_bind; [apply kp_challenge|]. intros mac. apply kp_bind; [apply kp_login|]. intros ok. kd.
Qed.
Lemma kp_connect : forall n a, kp (tasync_connect n a).
Proof.
  induction n as [|n IH]; intros a; [kd|]. cbn [tasync_connect]. apply kp_get. intros up. destruct up; [kd|].
  apply kp_bind; [apply kp_do, s_args|]. intros _. apply kp_get. intros no. destruct no; [kd|].
  do 3 (apply kp_get; intros ?). apply kp_bind; [apply kp_to_gateway|]. intros [[c mac]|]; [|kd].
  apply kp_bind; [apply kp_do, s_connection|]. intros _. apply kp_get. intros mr1.
  apply kp_bind; [apply kp_version|]. intros v. apply kp_bind; [apply kp_do; intros G w'; apply s_last|]. intros _.
  apply kp_get. intros d. apply kp_if; [|kd].
  apply kp_bind; [apply kp_poll; [apply IH|intros; apply kp_data]|]. intros _.
  apply kp_bind; [apply kp_proto|]. intros c2. apply kp_get. intros mr2. apply kp_bind; [apply kp_attach, IH|]. intros _. kd.
Qed.
Lemma kp_command {A} n (method : Z -> nat -> task A) d : (forall mr c, kp (method mr c)) -> kp (tcommand n method d).
Proof. intros M. apply kp_connected; [apply kp_connect|exact M]. Qed.
Lemma kp_get_poll n key_ m : (forall mr c, kp (m mr c)) -> kp (tget_poll n key_ m).
Proof. intros M. apply kp_poll; [apply kp_connect|exact M]. Qed.
Lemma kp_setting n X p d : kp (tcommand n (tcommand_request X p) d).
Proof. apply kp_command. intros mr c. apply kp_command_request. Qed.
Lemma kp_pumps n : forall ids, kp (tpumps_loop n ids).
Proof.
  induction ids as [|i ids IH]; cbn [tpumps_loop]; [kd|]. apply kp_get. intros f. apply kp_lift. intros flags.
  apply kp_bind; [|intros _; exact IH]. apply kp_if; [kd|]. apply kp_bind; [apply kp_do, s_pumps|]. intros _.
  apply kp_bind; [apply kp_command; intros; apply kp_pumpst|]. intros [b|]; [|kd]. apply kp_do, s_pump.
Qed.
Lemma kp_require y : kp (trequire y).
Proof. apply kp_lift. intros ok. destruct ok; kd. Qed.
Lemma in_add y cb l : In x (map fst (add_listener y cb l)) -> y = x \/ In x (map fst l).
Proof.
  induction l as [|[k s] l IH]; cbn [add_listener map fst In]; [tauto|]. destruct (Z.eqb_spec y k) as [->|N]; cbn [map fst In]; [tauto|]. intuition.
Qed.
Lemma in_drop y cb l : In x (map fst (drop_listener y cb l)) -> In x (map fst l).
Proof.
  induction l as [|[k s] l IH]; cbn [drop_listener map fst In]; [tauto|]. destruct (y =? k); [destruct (filter _ s); cbn [map fst In]; tauto|]. cbn [map fst In]. intuition.
Qed.
Lemma kp_sub n cb y : kp (tasync_subscribe_client n cb y).
Proof.
  intros G w H. unfold tasync_subscribe_client. cbn [tget tbind tret wpc]. destruct (attached w) eqn:At; cbn [negb wpc tret]; [|exact H].
  unfold tdo at 1. cbn [tbind tret wpc fst snd]. set (w1 := put_cm _ w). apply wpc_bind. unfold tm_proto_or_fail. cbn [tget tbind tret wpc].
  unfold attached in At. assert (M1 : m_proto (w_cm w1) = m_proto (w_cm w)) by reflexivity. rewrite M1. destruct (m_proto (w_cm w)) as [c|] eqn:M; [|discriminate At]. cbn [tret wpc].
  unfold tdo at 1. cbn [tbind tret wpc fst snd]. destruct H as (I & H).
  assert (V2 : V G (register c y (HClient y) w1)).
  { split; [exact I|]. intros c0 A1 A2 A3 A4 A5 A6. cbn [register upd_conn set_conns w_cm] in A1, A6. rewrite M1 in A1. injection A1 as <-.
    unfold register in *. rewrite get_upd, Nat.eqb_refl in *. change (w_conns w1) with (w_conns w) in *. change (get_conn c w1) with (get_conn c w) in *.
    destruct (Nat.ltb_spec c (List.length (w_conns w))) as [Lt|Ge]; cbn [andb] in *; [|unfold connected in At; rewrite get_beyond in At by exact Ge; discriminate At].
    cbn [c_handlers c_connected c_closing c_open] in *. destruct (Z.eq_dec y x) as [->|N]; [apply find_set|]. rewrite find_other by congruence.
    apply H; auto. cbn [w1 put_cm set_cm w_cm cmset_listeners m_listeners] in A6. destruct (in_add _ _ _ A6); [congruence|assumption]. }
  assert (K : kp (need <- tget client_needed ;; (if need : bool then tsubscribe_gateway (tasync_connect n no_args) else tret tt) ;;; tret (Some tt))).
  { apply kp_get. intros need. apply kp_bind; [apply kp_if; [apply kp_subscribe, kp_connect|kd]|]. intros _. kd. }
  apply K. apply V_grow, V_grow, V2.
Qed.
Lemma listened_not y w : listened y w = false -> ~ In y (map fst (m_listeners (w_cm w))).
Proof.
  unfold listened. intros E J. apply in_map_iff in J. destruct J as (p & <- & J). rewrite <- not_true_iff_false in E. apply E. apply existsb_exists. exists p. split; [exact J|apply Z.eqb_refl].
Qed.
Lemma kp_unsub cb y : kp (tremove_subscription cb y).
Proof.
  intros G w H. unfold tremove_subscription. cbn [tget tbind tret wpc]. destruct (has_listener y cb _); cbn [negb wpc tret]; [|exact H].
  unfold tdo at 1. cbn [tbind tret wpc fst snd]. set (w1 := put_cm _ w). cbn [tget tbind tret wpc].
  assert (V1 : V (grow G []) w1).
  { apply V_grow. destruct H as (I & H). split; [exact I|]. intros c0 A1 A2 A3 A4 A5 A6. apply H; auto. cbn [w1 put_cm set_cm w_cm cmset_listeners m_listeners] in A6. eapply in_drop, A6. }
  destruct (listened y w1) eqn:Ln; cbn [negb andb]; [exact V1|]. destruct (attached w1); [|exact V1].
  apply wpc_bind. unfold tm_proto_or_fail. cbn [tget tbind tret wpc]. destruct (m_proto (w_cm w1)) as [c|]; cbn [tret traise wpc]; [|exact V1].
  cbn [tdo tret wpc fst snd]. apply V_grow. destruct (Z.eq_dec y x) as [->|N]; [|apply s_unregister_other; assumption].
  apply listened_not in Ln. destruct V1 as (I & _). split; [exact I|]. intros c0 _ _ _ _ _ A6. destruct (Ln A6).
Qed.
Theorem kp_perform n c : (forall h, c <> RegisterHandler x h) -> c <> RemoveHandler x -> kp (tperform n c).
Proof.
  intros N1 N2. destruct c; cbn [tperform];
    try (apply kp_get_poll; intros; first [apply kp_data|apply kp_date]; fail);
    try (repeat match goal with
         | |- kp (tbind (tget _) _) => apply kp_get; intros ?
         | |- kp (tbind (trequire _) _) => apply kp_bind; [apply kp_require|intros _]
         | |- kp (tbind (tlift _) _) => apply kp_lift; intros ?
         | x : _ * _ |- _ => destruct x
         end; apply kp_setting; fail).
  - apply kp_bind; [apply kp_connect|intros; kd].
  - apply kp_disconnect.
  - apply kp_pumps.
  - unfold tasync_update. apply kp_get. intros d. destruct d; [kd|].
    apply kp_bind; [apply kp_get_poll; intros; apply kp_data|intros _].
    apply kp_bind; [apply kp_pumps|intros _].
    apply kp_bind; [apply kp_get_poll; intros; apply kp_data|intros _].
    apply kp_bind; [apply kp_get_poll; intros; apply kp_data|intros _].
    apply kp_get_poll; intros; apply kp_date.
  - apply kp_if; [|kd]. apply kp_do, s_retries.
  - apply kp_bind; [|intros; kd]. apply kp_command. intros mr c. apply kp_request.
  - apply kp_get. intros [c|]; [|kd]. apply kp_do, s_register_other. intros ->. exact (N1 _ eq_refl).
  - apply kp_get. intros [c|]; [|kd]. apply kp_do, s_unregister_other. intros ->. exact (N2 eq_refl).
  - apply kp_bind; [apply kp_sub|intros; kd].
  - apply kp_unsub.
  - apply kp_unsubscribe.
  - unfold tasync_ping. apply kp_catch; [|intros; kd]. apply kp_bind; [apply kp_m_proto|]. intros c. apply kp_command_request.
Qed.

(** ** along a schedule *)
Definition taken_off (g : log) : nat -> Prop := fun c => exists i p, In (By i (Send c 12524 p)) g.
Lemma advance_kp (m : task unit) : forall G w t w' m', wpc m VQ G w -> advance m w = (t, w', m') -> V (grow G t) w' /\ kp m'.
Proof.
  induction m as [o|k IH|f k IH|e k IH|k IH y IHy]; intros G w t w' m' S A; cbn [wpc advance] in *.
  - injection A as <- <- <-. split; [apply V_grow, S|apply kp_done].
  - eapply IH in A; eauto.
  - destruct (f w) as [t1 w1]. cbn [fst snd] in S. destruct (advance k w1) as [[t2 w2] m2] eqn:A2. injection A as <- <- <-.
    destruct (IH _ _ _ _ _ S A2) as (K1 & K2). split; [|exact K2]. eapply V_ext; [|exact K1]. intros c [[H|(p & H)]|(p & H)]; [left; exact H|right; exists p; apply in_or_app; auto..].
  - injection A as <- <- <-. destruct S as (S1 & S2). split; [apply V_grow, S1|]. intros G0 w0 H0. split; [exact H0|exact S2].
  - destruct S as (S1 & S2 & S3). destruct (m_locked (w_cm w)).
    + injection A as <- <- <-. split; [apply V_grow, S1|]. intros G0 w0 H0. split; [exact H0|]. split; assumption.
    + eapply IH in A; [exact A|]. apply S2, S1.
Qed.
Definition Hd (P : pool) : Prop := V (taken_off (p_log P)) (p_world P) /\ forall t, In t (p_tasks P) -> kp t.
Lemma off_by g i t : forall c, grow (taken_off g) t c -> taken_off (g ++ map (By i) t) c.
Proof.
  intros c [(j & p & H)|(p & H)]; [exists j, p; apply in_or_app; left; exact H|]. exists i, p. apply in_or_app. right. apply in_map. exact H.
Qed.
Lemma off_app g g' c : taken_off g c -> taken_off (g ++ g') c.
Proof. intros (j & p & H). exists j, p. apply in_or_app. left. exact H. Qed.
Definition not_overridden (e : event) : Prop := match e with Pool.Call (RegisterHandler y _) => y <> x | Pool.Call (RemoveHandler y) => y <> x | _ => True end.
Lemma Hd_step n P e : (forall c, m_proto (w_cm (p_world P)) = Some c -> (c < List.length (w_conns (p_world P)))%nat) -> not_overridden e -> Hd P -> Hd (pstep n P e).
Proof.
  intros B NO (J & T). destruct P as [w ts g]. cbn [p_world p_tasks p_log] in *.
  assert (Same : Hd (mkPool w ts g)) by (split; assumption).
  assert (Grow : forall w' g', V (taken_off g) w' -> Hd (mkPool w' ts (g ++ g'))).
  { intros w' g' H. split; [|exact T]. cbn [p_world p_log]. eapply V_ext; [|exact H]. intros c. apply off_app. }
  assert (Run : forall i m0 w0 head t w' t', wpc m0 VQ (taken_off g) w0 -> advance m0 w0 = (t, w', t') -> Hd (mkPool w' (lset i t' ts) (g ++ head ++ map (By i) t))).
  { intros i m0 w0 head t w' t' S A. destruct (advance_kp _ _ _ _ _ _ S A) as (K1 & K2). split; cbn [p_world p_log p_tasks].
    - eapply V_ext; [|exact K1]. intros c H. rewrite app_assoc. apply off_by. destruct H as [H|H]; [left; apply off_app, H|right; exact H].
    - intros y I. apply P_Tune.in_lset in I. destruct I as [->|I]; [exact K2|exact (T _ I)]. }
  destruct e as [c|i k clk|i|c|c code b|]; [cbn [pstep p_world p_tasks p_log]..|].
  - destruct (advance (tperform n c) w) as [[t w'] t'] eqn:A.
    assert (K : kp (tperform n c)) by (apply kp_perform; [intros h ->; apply NO; reflexivity|intros ->; apply NO; reflexivity]).
    destruct (advance_kp _ _ _ _ _ _ (K _ _ J) A) as (K1 & K2). split; cbn [p_world p_log p_tasks].
    + eapply V_ext; [|exact K1]. intros c0 H. apply (off_by g (List.length ts)) in H. destruct H as (j & p & H). exists j, p. apply in_app_or in H. apply in_or_app. destruct H; [left; exact H|right; right; eassumption].
    + intros y I. apply in_app_or in I. destruct I as [I|[<-|[]]]; [exact (T _ I)|exact K2].
  - destruct (nth_error ts i) as [[| | |e f|f xx]|] eqn:N; try exact Same.
    + destruct (fits e k); [|exact Same]. destruct (advance _ _) as [[t w'] t'] eqn:A. eapply Run; [|exact A].
      pose proof (T _ (nth_error_In _ _ N)) as K. destruct (K _ _ J) as (_ & K2). apply K2. apply s_clock.
      assert (O : V (taken_off g) (set_conns (w_conns w ++ [new_conn]) w)).
      { destruct J as (I & H). split; [exact I|]. cbn [set_conns w_cm]. intros c A1. unfold get_conn in *. cbn [set_conns w_conns]. rewrite app_nth1 by (apply B, A1). apply H, A1. }
      destruct e; try exact J. destruct k; try exact J. exact O.
    + destruct k; try exact Same. destruct (advance _ _) as [[t w'] t'] eqn:A. eapply Run; [|exact A].
      pose proof (T _ (nth_error_In _ _ N)) as K. destruct (K _ _ J) as (_ & _ & K2). apply K2, s_clock, J.
  - destruct (nth_error ts i) as [[| | | |f xx]|] eqn:N; try exact Same.
    destruct (advance _ _) as [[t w'] t'] eqn:A. eapply (Run i _ _ []); [|exact A]. apply (T _ (nth_error_In _ _ N)), J.
  - pose proof (s_lose c _ _ J) as L. cbv beta in L. destruct (lose c w) as [t w']. apply Grow, L.
  - destruct (handler_of c code w) as [[h|h]|]; try exact Same. apply Grow, J.
  - destruct (pstep_handle n w ts g) as [->|(c0 & code0 & b0 & l0 & cbs & _ & _ & ->)]; [exact Same|]. apply Grow, s_data, J.
Qed.
End Code.
