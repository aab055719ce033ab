(** Closure: a relation between the world before, the trace and the world after that is
    reflexive, transitive and holds for every primitive step holds for every coroutine of
    the request layer and of the gateway. *)
From Verif Require Import Py F64 Struct Utf Utility Const Enum Decode World Request Gateway Traces P_Base P_Monad.
Open Scope m_scope.

Definition wrel := world -> trace -> world -> Prop.
Definition Sat (R : wrel) {A} (m : M A) : Prop := forall w t w' o, m w = (t, w', o) -> R w t w'.

(** updates of a connection other than losing it *)
Definition mild (f : conn -> conn) : Prop :=
  forall k, c_connected (f k) = c_connected k /\ (c_open (f k) = true -> c_open k = true) /\
            (c_closing k = true -> c_closing (f k) = true).

(** the wait is one that anything may follow *)
Definition plain_wait (e : ev) : Prop :=
  match e with AwaitReply _ _ | AwaitFutures _ _ | AwaitClosed _ | Sleep _ => True | _ => False end.

Definition opened (r : resp) (w : world) : world :=
  match r_kind r with KDone => set_conns (w_conns w ++ [new_conn]) w | _ => w end.

(** the debug entries connecting writes *)
Definition connect_key (k : key) : Prop := k = K_VERSION \/ k = K_CONFIG.

(** [ok c code p]: the messages allowed *)
Record closed (ok : Z -> bytes -> Prop) (R : wrel) : Prop := {
  R_refl : forall w, R w [] w;
  R_trans : forall w t1 w1 t2 w2, R w t1 w1 -> R w1 t2 w2 -> R w (t1 ++ t2) w2;
  R_send : forall w c code p, c_open (get_conn c w) = true -> ok code p -> R w [Send c code p] w;
  R_raw : forall w c b, c_open (get_conn c w) = true -> R w [Raw c b] w;
  R_shut : forall w c, R w [CloseTransport c] w;
  R_wait0 : forall w e, w_env w = [] -> plain_wait e -> R w [e] w;
  R_wait : forall w e r rest l w1, w_env w = r :: rest -> plain_wait e ->
    interfere r (set_env rest w) = (l, w1) -> R w (e :: Got r :: l) w1;
  R_open0 : forall w, w_env w = [] -> R w [Open (a_ip (w_addr w)) (a_port (w_addr w)) 2000] w;
  R_open : forall w r rest l w1, w_env w = r :: rest ->
    interfere r (opened r (set_env rest w)) = (l, w1) ->
    R w (Open (a_ip (w_addr w)) (a_port (w_addr w)) 2000 :: Got r :: l) w1;
  R_lose : forall w c l w1, lose c w = (l, w1) -> R w l w1;
  R_data : forall w d, R w [] (set_data d w);
  R_last : forall w k v, connect_key k -> R w [] (set_last (dset k v (w_last w)) w);
  R_cm : forall w m, R w [] (set_cm m w);
  R_conn : forall w c f, mild f -> R w [] (upd_conn c f w);
  R_store : forall w c mac, R w [] (store_connection c mac w);
  R_args : forall w, R w [] (store_args no_args w) }.

Section Sat.
Variables (ok : Z -> bytes -> Prop) (R : wrel) (H : closed ok R).

Lemma sat_ret {A} (a : A) : Sat R (mret a).
Proof. intros w t w' o E. injection E as <- <- <-. apply (R_refl _ _ H). Qed.
Lemma sat_raise {A} e : Sat R (@mraise A e).
Proof. intros w t w' o E. injection E as <- <- <-. apply (R_refl _ _ H). Qed.
Lemma sat_stuck {A} e : Sat R (@mstuck A e).
Proof. intros w t w' o E. injection E as <- <- <-. apply (R_refl _ _ H). Qed.
Lemma sat_bind {A B} (m : M A) (f : A -> M B) : Sat R m -> (forall a, Sat R (f a)) -> Sat R (mbind m f).
Proof.
  intros Hm Hf w t w' o E. unfold mbind in E. destruct (m w) as [[t1 w1] o1] eqn:E1. specialize (Hm _ _ _ _ E1).
  destruct o1 as [a|e|y]; try (injection E as <- <- <-; exact Hm).
  destruct (f a w1) as [[t2 w2] o2] eqn:E2. injection E as <- <- <-. eapply (R_trans _ _ H); [exact Hm|]. eapply Hf; exact E2.
Qed.
Lemma sat_catch {A} (m : M A) p h : Sat R m -> (forall e, Sat R (h e)) -> Sat R (mcatch m p h).
Proof.
  intros Hm Hf w t w' o E. unfold mcatch in E. destruct (m w) as [[t1 w1] o1] eqn:E1. specialize (Hm _ _ _ _ E1).
  destruct o1 as [a|e|y]; try (injection E as <- <- <-; exact Hm).
  destruct (p e); [|injection E as <- <- <-; exact Hm].
  destruct (h e w1) as [[t2 w2] o2] eqn:E2. injection E as <- <- <-. eapply (R_trans _ _ H); [exact Hm|]. eapply Hf; exact E2.
Qed.
Lemma sat_finally {A} (m : M A) f : Sat R m -> (forall w, R w [] (f w)) -> Sat R (mfinally m f).
Proof.
  intros Hm Hf w t w' o E. unfold mfinally in E. destruct (m w) as [[t1 w1] o1] eqn:E1. specialize (Hm _ _ _ _ E1).
  destruct o1; injection E as <- <- <-; try exact Hm; rewrite <- (app_nil_r t1); (eapply (R_trans _ _ H); [exact Hm|apply Hf]).
Qed.
Lemma sat_get {A} (f : world -> A) : Sat R (mget f).
Proof. intros w t w' o E. injection E as <- <- <-. apply (R_refl _ _ H). Qed.
(** a read whose value matters to what follows *)
Lemma sat_get_bind {A B} (f : world -> A) (k : A -> M B) :
  (forall w t w' o, k (f w) w = (t, w', o) -> R w t w') -> Sat R (mbind (mget f) k).
Proof. intros Hk w t w' o E. rewrite bind_get in E. eauto. Qed.
Lemma sat_put f : (forall w, R w [] (f w)) -> Sat R (mput f).
Proof. intros Hf w t w' o E. injection E as <- <- <-. apply Hf. Qed.
Lemma sat_lift {A} (r : res A) : Sat R (mlift r).
Proof. destruct r; [apply sat_ret|apply sat_raise]. Qed.
Lemma sat_decode d : Sat R (mdecode d).
Proof. intros w t w' o E. unfold mdecode in E. destruct (d (w_data w)) as [d1 r]. injection E as <- <- <-. apply (R_data _ _ H). Qed.
Lemma sat_ask e : plain_wait e -> Sat R (ask e nopre).
Proof.
  intros P w t w' o E. unfold ask, nopre in E. destruct (w_env w) as [|r rest] eqn:W.
  - injection E as <- <- <-. apply (R_wait0 _ _ H); assumption.
  - destruct (interfere r (set_env rest w)) as [l w1] eqn:I. injection E as <- <- <-. eapply (R_wait _ _ H); eauto.
Qed.
Lemma sat_if {A} (b : bool) (m1 m2 : M A) : Sat R m1 -> Sat R m2 -> Sat R (if b then m1 else m2).
Proof. destruct b; auto. Qed.
Lemma sat_sleep ms : Sat R (msleep ms).
Proof.
  unfold msleep. apply sat_bind; [apply sat_ask; exact Logic.I|]. intros r.
  destruct (r_kind r); auto using sat_ret, sat_raise, sat_stuck.
Qed.

(** requests *)
Lemma sat_send c code p : ok code p -> Sat R (send c code p).
Proof.
  intros K w t w' o E. unfold send in E. rewrite bind_get in E.
  destruct (c_open (get_conn c w)) eqn:C.
  - destruct (makeMessage 0 code p) as [b|e]; cbn [mlift] in E.
    + rewrite bind_ret in E. injection E as <- <- <-. apply (R_send _ _ H); assumption.
    + injection E as <- <- <-. apply (R_refl _ _ H).
  - injection E as <- <- <-. apply (R_refl _ _ H).
Qed.
Lemma sat_loop n : forall a mr c code p, ok code p -> Sat R (request_loop n a mr c code p).
Proof.
  induction n as [|n IH]; intros a mr c code p K; cbn [request_loop]; [apply sat_ret|].
  assert (F : forall e, Sat R (if a =? mr then mraise e else msleep (1000 * (COM_RETRY_WAIT * (a + 1))) ;;;
             request_loop n (a + 1) mr c code p)).
  { intros e. apply sat_if; [apply sat_raise|]. apply sat_bind; [apply sat_sleep|intros _; apply IH; exact K]. }
  assert (G : forall rc b, Sat R (
        if rc =? code + 1 then mret (Some b)
        else if rc =? CODE_ERROR_LOGIN_REJECTED then mraise ESLLogin
        else if (rc =? CODE_ERROR_INVALID_REQUEST) || (rc =? CODE_ERROR_BAD_PARAMETER)
             then if a =? mr then mraise ESLRequest else msleep (1000 * (COM_RETRY_WAIT * (a + 1))) ;;;
             request_loop n (a + 1) mr c code p
        else if a =? mr then mraise ESLResponse else msleep (1000 * (COM_RETRY_WAIT * (a + 1))) ;;;
             request_loop n (a + 1) mr c code p)).
  { intros rc b. repeat apply sat_if; auto using sat_ret, sat_raise. 
    all: apply sat_bind; [apply sat_sleep|intros _; apply IH; exact K]. }
  assert (C : Sat R (ok <- mget (connected c) ;; if ok then @mret (option bytes) None else mraise ESLConnection)).
  { apply sat_bind; [apply sat_get|]. intros b. apply sat_if; [apply sat_ret|apply sat_raise]. }
  apply sat_bind; [apply sat_get|]. intros up. apply sat_if; [apply sat_raise|].
  apply sat_bind; [apply sat_get|]. intros k. apply sat_if; [exact C|].
  apply sat_bind; [apply sat_send; exact K|]. intros _.
  apply sat_bind; [apply sat_ask; exact Logic.I|]. intros r.
  destruct (r_kind r); auto using sat_stuck.
Qed.
Lemma sat_request c code p mr : ok code p -> Sat R (make_request c code p mr).
Proof. apply sat_loop. Qed.
Lemma sat_data_request code p dec mr c : ok code p -> Sat R (data_request code p dec mr c).
Proof.
  intros K. unfold data_request. apply sat_bind; [apply sat_request; exact K|]. intros r.
  destruct (nonempty r); [|apply sat_ret]. apply sat_bind; [apply sat_decode|intros _; apply sat_ret].
Qed.
Lemma sat_pump i mr c : (forall p, pack_Is [VInt 0; VInt i] = Ok p -> ok 12584 p) -> Sat R (request_pump_status i mr c).
Proof.
  intros K. unfold request_pump_status. destruct (pack_Is [VInt 0; VInt i]) as [p|e]; cbn [mlift].
  - intros w t w' o E. rewrite bind_ret in E. eapply sat_data_request; [|exact E]. auto.
  - intros w t w' o E. rewrite bind_raise in E. injection E as <- <- <-. apply (R_refl _ _ H).
Qed.
Lemma sat_version mr c : ok 8120 [] -> Sat R (request_gateway_version mr c).
Proof. intros K. unfold request_gateway_version. apply sat_bind; [apply sat_get|]. intros fl. apply sat_data_request. exact K. Qed.
Lemma sat_date_time mr c : ok 8110 [] -> Sat R (request_date_time mr c).
Proof.
  intros K. unfold request_date_time. apply sat_bind; [apply sat_request; exact K|]. intros r.
  destruct (nonempty r); [|apply sat_ret]. apply sat_bind; [apply sat_get|intros now].
  apply sat_bind; [apply sat_decode|intros _; apply sat_ret].
Qed.
Lemma sat_command code (p : res bytes) mr c : (forall b, p = Ok b -> ok code b) -> Sat R (command_request code p mr c).
Proof.
  intros K. destruct p as [b|e].
  - intros w t w' o E. unfold command_request in E. cbn [mlift] in E. rewrite bind_ret in E. revert E.
    apply sat_bind; [apply sat_request; auto|]. intros [[|]|]; auto using sat_ret, sat_raise.
  - intros w t w' o E. unfold command_request in E. cbn [mlift] in E. rewrite bind_raise in E. injection E as <- <- <-.
    apply (R_refl _ _ H).
Qed.

(** connecting *)
Lemma sat_create w t w' o : create_connection (a_ip (w_addr w)) (a_port (w_addr w)) w = (t, w', o) -> R w t w'.
Proof.
  unfold create_connection. rewrite bind_get. unfold mbind, ask. destruct (w_env w) as [|r rest] eqn:E.
  - intros X. injection X as <- <- <-. apply (R_open0 _ _ H). exact E.
  - fold (opened r (set_env rest w)). destruct (interfere r (opened r (set_env rest w))) as [l w1] eqn:I.
    intros X. pose proof (R_open _ _ H _ _ _ _ _ E I) as K.
    destruct (r_kind r); injection X as <- <- <-; rewrite app_nil_r; exact K.
Qed.
Lemma sat_gateway_connect c mr : ok 14 [] -> Sat R (gateway_connect c mr).
Proof.
  intros K. unfold gateway_connect. apply sat_get_bind. intros w t w' o E.
  assert (E' : exists t0 , t = (if c_open (get_conn c w) then [Raw c CONNECT_STRING] else []) ++ t0 /\
     (msleep 250 ;;; ok <- mget (connected c) ;; if negb ok then mraise ESLConnection
      else r <- make_request c CODE_CHALLENGE_QUERY [] mr ;;
      match r with Some b => mlift (decodeMessageString b) | None => mraise EType end)%m w = (t0, w', o)).
  { destruct (c_open (get_conn c w)).
    - rewrite bind_emit in E. match type of E with (match ?x with _ => _ end) = _ => destruct x as [[t0 w0] o0] eqn:Ex end.
      injection E as <- <- <-. exists t0. split; [reflexivity|]. first [exact Ex|reflexivity].
    - rewrite bind_ret in E. exists t. split; [reflexivity|exact E]. }
  destruct E' as (t0 & -> & E0).
  assert (T : R w t0 w').
  { revert E0. apply sat_bind; [apply sat_sleep|]. intros _. apply sat_bind; [apply sat_get|]. intros up.
    apply sat_if; [apply sat_raise|]. apply sat_bind; [apply sat_request; exact K|].
    intros [b|]; auto using sat_lift, sat_raise. }
  destruct (c_open (get_conn c w)) eqn:C; [|exact T].
  eapply (R_trans _ _ H); [apply (R_raw _ _ H); exact C|exact T].
Qed.
Lemma sat_login c mr : (forall p, ok 27 p) -> Sat R (gateway_login c mr).
Proof.
  intros K. unfold gateway_login. apply sat_bind; [apply sat_lift|]. intros m.
  apply sat_bind; [apply sat_request; apply K|]. intros r. apply sat_ret.
Qed.
Lemma sat_connect_to w t w' o mr : ok 14 [] -> (forall p, ok 27 p) ->
  connect_to_gateway (a_ip (w_addr w)) (a_port (w_addr w)) mr w = (t, w', o) -> R w t w'.
Proof.
  intros K1 K2 E. unfold connect_to_gateway, mbind at 1 in E.
  destruct (create_connection (a_ip (w_addr w)) (a_port (w_addr w)) w) as [[t1 w1] o1] eqn:E1.
  apply sat_create in E1. destruct o1 as [c|e|y]; try (injection E as <- <- <-; exact E1).
  match type of E with (match ?x with _ => _ end) = _ => destruct x as [[t2 w2] o2] eqn:E2 end.
  injection E as <- <- <-. eapply (R_trans _ _ H); [exact E1|]. revert E2.
  apply sat_bind; [apply sat_gateway_connect; exact K1|]. intros mac.
  apply sat_bind; [apply sat_login; exact K2|]. intros b. apply sat_ret.
Qed.

(** updates *)
Lemma mild_id_handlers h : mild (fun k => mkConn (c_connected k) (c_closing k) (c_open k) (h k) (c_keepalive k)).
Proof. intros k. cbn. auto. Qed.
Lemma put_put_cm f : forall w, R w [] (put_cm f w).
Proof. intros w. apply (R_cm _ _ H). Qed.
Lemma put_register c code h : forall w, R w [] (register c code h w).
Proof. intros w. apply (R_conn _ _ H). intros k; cbn; auto. Qed.
Lemma put_unregister c code : forall w, R w [] (unregister c code w).
Proof. intros w. apply (R_conn _ _ H). intros k; cbn; auto. Qed.
Lemma put_unregister_all c : forall w, R w [] (unregister_all c w).
Proof. intros w. apply (R_conn _ _ H). intros k; cbn; auto. Qed.
Lemma put_keepalive b c : forall w, R w [] (keepalive b c w).
Proof. intros w. apply (R_conn _ _ H). intros k; cbn; auto. Qed.
Lemma put_closing c : forall w, R w [] (mark_closing c w).
Proof. intros w. apply (R_conn _ _ H). intros k; cbn; auto. Qed.
Lemma put_shut c : forall w, R w [] (mark_shut c w).
Proof. intros w. apply (R_conn _ _ H). intros k; cbn; repeat split; auto; discriminate. Qed.
Lemma put_fold c codes : forall w, R w [] (fold_left (fun w code => register c code (HClient code) w) codes w).
Proof.
  induction codes as [|code codes IH]; intros w; cbn [fold_left]; [apply (R_refl _ _ H)|].
  exact (R_trans _ _ H _ [] _ [] _ (put_register c code (HClient code) w) (IH _)).
Qed.

Lemma sat_lock {A} (m : M A) : Sat R m -> Sat R (with_lock m).
Proof.
  intros Hm. unfold with_lock. apply sat_bind; [apply sat_get|]. intros b. apply sat_if; [apply sat_stuck|].
  apply sat_bind; [apply sat_put, put_put_cm|]. intros _. apply sat_finally; [exact Hm|apply put_put_cm].
Qed.
Lemma sat_mproto : Sat R m_proto_or_fail.
Proof. unfold m_proto_or_fail. apply sat_bind; [apply sat_get|]. intros [c|]; auto using sat_ret, sat_raise. Qed.
Lemma sat_proto : Sat R proto_or_fail.
Proof. unfold proto_or_fail. apply sat_bind; [apply sat_get|]. intros [c|]; auto using sat_ret, sat_raise. Qed.

Lemma sat_lose c : Sat R (fun w => let '(t, w') := lose c w in (t, w', Val tt)).
Proof.
  intros w t w' o E. destruct (lose c w) as [l w1] eqn:L. injection E as <- <- <-. eapply (R_lose _ _ H); exact L.
Qed.
Lemma sat_shut c : Sat R (memit (CloseTransport c)).
Proof. intros w t w' o E. injection E as <- <- <-. apply (R_shut _ _ H). Qed.
Lemma sat_close c force : Sat R (async_close c force).
Proof.
  unfold async_close. apply sat_bind; [apply sat_put, put_closing|]. intros _.
  apply sat_bind; [apply sat_ask; exact Logic.I|]. intros r.
  assert (G : Sat R (k <- mget (get_conn c) ;;
      (if c_open k then memit (CloseTransport c) ;;; mput (mark_shut c) else mret tt) ;;;
      still <- mget (connected c) ;;
      if negb still then mret tt
      else
        r2 <- ask (AwaitClosed c) nopre ;;
        match r_kind r2 with
        | KDone => fun w => let '(t, w') := lose c w in (t, w', Val tt)
        | KCancelTask => mraise ECancelled
        | _ => mstuck Unfit
        end)).
  { apply sat_bind; [apply sat_get|]. intros k. apply sat_bind.
    - apply sat_if; [|apply sat_ret]. apply sat_bind; [apply sat_shut|intros _; apply sat_put, put_shut].
    - intros _. apply sat_bind; [apply sat_get|]. intros still. apply sat_if; [apply sat_ret|].
      apply sat_bind; [apply sat_ask; exact Logic.I|]. intros r2.
      destruct (r_kind r2); auto using sat_stuck, sat_raise, sat_lose. }
  destruct (r_kind r); auto using sat_stuck.
Qed.

Hypothesis K_remove : forall p, ok 12524 p.
Lemma sat_remove : Sat R remove_client.
Proof.
  unfold remove_client. apply sat_catch; [|intros; apply sat_ret].
  apply sat_bind; [apply sat_mproto|]. intros c. apply sat_bind; [apply sat_get|]. intros id.
  apply sat_command. intros; apply K_remove.
Qed.
Lemma sat_unsubscribe : Sat R unsubscribe_gateway.
Proof.
  unfold unsubscribe_gateway. apply sat_bind; [apply sat_get|]. intros a. apply sat_if; [apply sat_ret|].
  apply sat_lock. apply sat_bind; [apply sat_get|]. intros b. apply sat_if; [|apply sat_ret].
  apply sat_bind; [apply sat_put, put_put_cm|]. intros _. apply sat_bind; [apply sat_mproto|]. intros c.
  apply sat_bind; [apply sat_put, put_keepalive|]. intros _. apply sat_bind; [apply sat_put, put_unregister_all|].
  intros _. apply sat_remove.
Qed.
Lemma sat_disconnect force : Sat R (async_disconnect force).
Proof.
  unfold async_disconnect. apply sat_bind; [apply sat_get|]. intros b. apply sat_bind.
  - apply sat_if; [apply sat_unsubscribe|apply sat_ret].
  - intros _. apply sat_bind; [apply sat_proto|]. intros c. apply sat_close.
Qed.

Section Connect.
Variable connect : M bool.
Hypothesis K_connect : Sat R connect.
Lemma sat_attempt {A} (method : Z -> nat -> M A) mr : (forall mr c, Sat R (method mr c)) -> Sat R (attempt_request connect method mr).
Proof.
  intros K. unfold attempt_request. apply sat_bind; [exact K_connect|]. intros b. apply sat_if; [apply sat_raise|].
  apply sat_bind; [apply sat_proto|]. intros c. apply K.
Qed.
Lemma sat_connected {A} (method : Z -> nat -> M A) delay : (forall mr c, Sat R (method mr c)) -> Sat R (connected_request connect method delay).
Proof.
  intros K. unfold connected_request. apply sat_bind; [apply sat_get|]. intros mr. apply sat_catch; [apply sat_attempt; exact K|].
  intros e. apply sat_bind; [apply sat_disconnect|]. intros _. apply sat_bind; [apply sat_sleep|]. intros _. apply sat_attempt; exact K.
Qed.
Hypothesis K_add : forall p, ok 12522 p.
Lemma sat_subscribe : Sat R (subscribe_gateway connect).
Proof.
  unfold subscribe_gateway. apply sat_bind; [apply sat_get|]. intros a. apply sat_if; [apply sat_ret|].
  apply sat_lock. apply sat_bind; [apply sat_get|]. intros b. apply sat_if; [|apply sat_ret].
  apply sat_bind; [apply sat_get|]. intros id. apply sat_bind.
  - apply sat_connected. intros mr c. apply sat_command. intros; apply K_add.
  - intros _. apply sat_bind; [apply sat_put, put_put_cm|]. intros _. apply sat_bind; [apply sat_mproto|]. intros c.
    apply sat_put, put_keepalive.
Qed.
Lemma sat_attach c mr : Sat R (attach connect c mr).
Proof.
  unfold attach. apply sat_bind; [apply sat_put, put_put_cm|]. intros _. apply sat_bind; [apply sat_get|]. intros need.
  apply sat_if; [|apply sat_ret]. apply sat_bind; [apply sat_put, put_unregister_all|]. intros _.
  apply sat_bind; [apply sat_put|intros _; apply sat_subscribe]. intros w. apply put_fold.
Qed.
Lemma sat_poll k (method : Z -> nat -> M (option bytes)) : (forall mr c, Sat R (method mr c)) ->
  (forall w v, R w [] (set_last (dset k v (w_last w)) w)) -> Sat R (poll connect k method).
Proof.
  intros K L. unfold poll. apply sat_bind; [apply sat_connected; exact K|]. intros [b|]; [|apply sat_ret].
  apply sat_put. intros w. apply L.
Qed.
End Connect.

Hypothesis K_add : forall p, ok 12522 p.
Hypothesis K_challenge : ok 14 [].
Hypothesis K_login : forall p, ok 27 p.
Hypothesis K_version : ok 8120 [].
Hypothesis K_config : ok 12532 (le_enc 4 0 ++ le_enc 4 0).
Lemma sat_connect_step n x : Sat R (async_connect n no_args) -> (forall w, R w [] (store_args x w)) ->
  Sat R (async_connect (S n) x).
Proof.
  intros IH KX. cbn [async_connect].
  apply sat_bind; [apply sat_get|]. intros up. apply sat_if; [apply sat_ret|].
  apply sat_bind; [apply sat_put; intros w; apply KX|]. intros _.
  apply sat_bind; [apply sat_get|]. intros no. apply sat_if; [apply sat_raise|].
  apply sat_get_bind. intros w t w' o E. rewrite bind_get in E. rewrite bind_get in E. unfold mbind at 1 in E.
  match type of E with context[connect_to_gateway ?a ?b ?c ?d] => destruct (connect_to_gateway a b c d) as [[t1 w1] o1] eqn:E1 end.
  apply sat_connect_to in E1; [|exact K_challenge|exact K_login].
  destruct o1 as [pkg|e|y]; try (injection E as <- <- <-; exact E1).
  match type of E with (match ?x with _ => _ end) = _ => destruct x as [[t2 w2] o2] eqn:E2 end.
  injection E as <- <- <-. eapply (R_trans _ _ H); [exact E1|]. revert E2.
  destruct pkg as [[c mac]|]; [|apply sat_ret].
  apply sat_bind; [apply sat_put; intros; apply (R_store _ _ H)|]. intros _.
  apply sat_bind; [apply sat_get|]. intros mr1. apply sat_bind; [apply sat_version; exact K_version|]. intros v.
  apply sat_bind; [apply sat_put; intros; apply (R_last _ _ H); left; reflexivity|]. intros _.
  apply sat_bind; [apply sat_get|]. intros d. apply sat_if; [|apply sat_ret].
  apply sat_bind; [apply sat_poll; [exact IH|intros; apply sat_data_request; exact K_config|intros; apply (R_last _ _ H); right; reflexivity]|]. intros _.
  apply sat_bind; [apply sat_proto|]. intros c2. apply sat_bind; [apply sat_get|]. intros mr2.
  apply sat_bind; [apply sat_attach; [exact IH|exact K_add]|]. intros _. apply sat_ret.
Qed.
Lemma sat_connect n : Sat R (async_connect n no_args).
Proof. induction n as [|n IH]; [apply sat_stuck|]. apply sat_connect_step; [exact IH|apply (R_args _ _ H)]. Qed.
Lemma sat_connect_args n x : (forall w, R w [] (store_args x w)) -> Sat R (async_connect n x).
Proof. destruct n as [|n]; intros K; [apply sat_stuck|]. apply sat_connect_step; [apply sat_connect|exact K]. Qed.
Lemma sat_api {A} n (method : Z -> nat -> M A) delay : (forall mr c, Sat R (method mr c)) -> Sat R (command n method delay).
Proof. intros K. apply sat_connected; [apply sat_connect|exact K]. Qed.
Lemma sat_api_poll n k (method : Z -> nat -> M (option bytes)) : (forall mr c, Sat R (method mr c)) ->
  (forall w v, R w [] (set_last (dset k v (w_last w)) w)) -> Sat R (poll (async_connect n no_args) k method).
Proof. intros K L. apply sat_poll; [apply sat_connect|exact K|exact L]. Qed.
Lemma sat_require b : Sat R (require b).
Proof. unfold require. apply sat_bind; [apply sat_lift|]. intros x. apply sat_if; [apply sat_ret|apply sat_raise]. Qed.
Lemma sat_pumps n ids : (forall i p, In i ids -> pack_Is [VInt 0; VInt i] = Ok p -> ok 12584 p) ->
  (forall w v, R w [] (set_last (dset K_PUMPS v (w_last w)) w)) -> Sat R (pumps_loop n ids).
Proof.
  intros K L. induction ids as [|i ids IH]; cbn [pumps_loop]; [apply sat_ret|].
  apply sat_bind; [apply sat_get|]. intros f. apply sat_bind; [apply sat_lift|]. intros flags.
  apply sat_bind; [|intros _; apply IH; intros; eapply K; [right; eassumption|eassumption]].
  apply sat_if; [apply sat_ret|]. apply sat_bind.
  - apply sat_put. intros w. unfold pumps_entry. destruct (din K_PUMPS (w_last w)); [apply (R_refl _ _ H)|apply L].
  - intros _. apply sat_bind; [apply sat_api; intros; apply sat_pump; intros; eapply K; [left; reflexivity|eassumption]|].
    intros [b|]; [|apply sat_ret]. apply sat_put. intros w. unfold store_pump.
    destruct (dget K_PUMPS (w_last w)) as [[]|]; try apply (R_refl _ _ H). apply L.
Qed.
End Sat.
