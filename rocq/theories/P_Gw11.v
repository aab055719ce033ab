From Verif Require Import Py F64 Struct Utf Utility Const Spec Enum Decode World Request Gateway Traces Paths Api P_Base P_Util P_Monad P_Request P_Sat P_Paths P_Frame P_Gw1 P_Gw6 P_Gw7 P_Calm P_Gw8 P_Gw9 P_Gw10.
Open Scope m_scope.

(** ------------------------------------------------------------------ *)
(** * connecting: what happens when nothing can be opened *)
Lemma create_inv ip port w t w' o : create_connection ip port w = (t, w', o) ->
  exists t', t = Open ip port 2000 :: t' /\ kept w w' /\
   ((exists c, o = Val c /\ (1 <= granted t)%nat) \/ o = Exc ESLConnection \/ o = Exc ECancelled \/ exists y, o = Stuck y).
Proof.
  unfold create_connection. rewrite bind_get. unfold mbind, ask. destruct (w_env w) as [|r rest].
  - intros E. injection E as <- <- <-. eexists. split; [reflexivity|]. split; [apply kept_refl|]. eauto 8.
  - match goal with |- context[interfere r ?x] => destruct (interfere r x) as [l w1] eqn:Ei; assert (Kp : kept w w1) end.
    { apply interfere_fields in Ei. destruct (r_kind r); unfold kept; cbn [set_conns set_env w_addr w_cb w_proto w_last w_retries w_cm w_host] in Ei; intuition. }
    destruct (r_kind r) eqn:K; intros E; injection E as <- <- <-; eexists; (split; [reflexivity|]); (split; [exact Kp|]); eauto 8.
    left. eexists. split; [reflexivity|]. cbn [granted app]. rewrite K. lia.
Qed.
Lemma connect_to_open ip port mr w t w' o : connect_to_gateway ip port mr w = (t, w', o) -> exists t', t = Open ip port 2000 :: t'.
Proof.
  unfold connect_to_gateway. intros E. apply bind_inv in E.
  destruct E as [(t1 & w1 & a & t2 & E1 & E2 & ->)|[(e & E1 & X)|(y & E1 & X)]]; apply create_inv in E1; destruct E1 as (t' & -> & _); cbn; eauto.
Qed.
Lemma connect_to_refused ip port mr w t w' o : connect_to_gateway ip port mr w = (t, w', o) -> granted t = 0%nat ->
  kept w w' /\ (o = Exc ESLConnection \/ o = Exc ECancelled \/ exists y, o = Stuck y).
Proof.
  unfold connect_to_gateway. intros E G. apply bind_inv in E.
  destruct E as [(t1 & w1 & a & t2 & E1 & E2 & ->)|[(e & E1 & ->)|(y & E1 & ->)]]; apply create_inv in E1; destruct E1 as (t' & E1 & Kp & D).
  - exfalso. destruct D as [(c & _ & G1)|[D|[D|(y & D)]]]; try discriminate. pose proof (granted_app t1 t2). lia.
  - split; [exact Kp|]. destruct D as [(c & D & _)|[D|[D|(y & D)]]]; try discriminate; injection D as ->; auto.
  - eauto.
Qed.

Lemma connect_down n x w t w' o : async_connect (S n) x w = (t, w', o) -> is_connected w = false ->
  (no_address (store_args x w) = true /\ t = [] /\ w' = store_args x w /\ o = Exc ESLError) \/
  (no_address (store_args x w) = false /\
   exists t1 w1 o1 t2, connect_to_gateway (a_ip (w_addr (store_args x w))) (a_port (w_addr (store_args x w))) (w_retries w) (store_args x w) = (t1, w1, o1) /\
     t = t1 ++ t2 /\ match o1 with Exc e => t2 = [] /\ w' = w1 /\ o = Exc e | Stuck y => t2 = [] /\ w' = w1 /\ o = Stuck y | Val _ => True end).
Proof.
  intros E U. rewrite connect_S in E. unfold connect_body in E. rewrite bind_get, U, bind_put, bind_get in E.
  destruct (no_address (store_args x w)) eqn:N.
  - injection E as <- <- <-. left. auto.
  - right. split; [reflexivity|]. rewrite !bind_get in E. change (w_retries (store_args x w)) with (w_retries w) in E.
    apply bind_inv in E. destruct E as [(t1 & w1 & a & t2 & E1 & E2 & ->)|[(e & E1 & ->)|(y & E1 & ->)]].
    + exists t1, w1, (Val a), t2. auto.
    + exists t, w', (Exc e), []. rewrite app_nil_r. auto.
    + exists t, w', (Stuck y), []. rewrite app_nil_r. auto.
Qed.
Lemma connect_up n x w : is_connected w = true -> async_connect (S n) x w = ([], w, Val true).
Proof. intros U. rewrite connect_S. unfold connect_body. rewrite bind_get, U. reflexivity. Qed.
(** a connect that opens nothing *)
Lemma connect_noopen n x w t w' o : async_connect n x w = (t, w', o) -> opens t = [] ->
  t = [] /\ match o with Val b => b = true /\ is_connected w = true /\ w' = w
            | Exc e => e = ESLError /\ is_connected w = false /\ no_address (store_args x w) = true /\ w' = store_args x w
            | Stuck y => n = 0%nat /\ w' = w end.
Proof.
  intros E O. destruct n as [|n]; [injection E as <- <- <-; auto|].
  destruct (is_connected w) eqn:U.
  - rewrite connect_up in E by exact U. injection E as <- <- <-. auto.
  - apply connect_down in E; [|exact U]. destruct E as [(N & -> & -> & ->)|(N & t1 & w1 & o1 & t2 & E1 & -> & _)]; [auto|].
    apply connect_to_open in E1. destruct E1 as (t' & ->). rewrite opens_app in O. discriminate.
Qed.
(** ... or gets none *)
Lemma connect_refused n x w t w' o : async_connect (S n) x w = (t, w', o) -> granted t = 0%nat -> is_connected w = false ->
  no_address (store_args x w) = false ->
  kept (store_args x w) w' /\ (o = Exc ESLConnection \/ o = Exc ECancelled \/ exists y, o = Stuck y).
Proof.
  intros E G U N. apply connect_down in E; [|exact U]. destruct E as [(N' & _)|(_ & t1 & w1 & o1 & t2 & E1 & -> & D)]; [congruence|].
  pose proof (granted_app t1 t2). apply connect_to_refused in E1; [|lia].
  destruct E1 as (Kp & [->|[->|(y & ->)]]); destruct D as (_ & -> & ->); eauto.
Qed.

(** ------------------------------------------------------------------ *)
(** * C62: no answers *)
(** no response in the trace carries an answer *)

Lemma run_exn c code data mr n a w t w' e : lrun c code data mr n a w t w' (Exc e) -> (exists m, makeMessage 0 code data = Ok m) -> sent_exn e.
Proof.
  unfold sent_exn. intros H (m & Mm). remember (Exc e) as o eqn:O. revert e O.
  induction H; intros e0 O; try discriminate; try (injection O as <-; left; reflexivity).
  - congruence.
  - unfold judge in H3. destruct (r_kind r) as [rc b| |rc b| | | |].
    1,3: destruct (rc =? code + 1); [congruence|]; destruct (rc =? 13); [subst o; injection O as <-; left; reflexivity|];
      destruct ((rc =? 30) || (rc =? 31)); destruct H3 as (_ & ->); injection O as <-; left; reflexivity.
    + destruct H3 as (_ & ->); injection O as <-; left; reflexivity.
    + destruct (connected c w1); subst o; [discriminate|injection O as <-; left; reflexivity].
    + destruct (connected c w1); subst o; [discriminate|injection O as <-; left; reflexivity].
    + subst o. discriminate.
    + subst o. discriminate.
  - destruct (r_kind r2); try contradiction; subst; try discriminate. injection O as <-. right. reflexivity.
  - apply IHlrun. exact O.
Qed.
Lemma replies_got r t : In r (replies t) -> In (Got r) t.
Proof.
  induction t as [|e t IH]; [intros []|]. cbn [replies]. intros I. destruct e; try (right; auto; fail).
  destruct t as [|e' t]; [contradiction|]. destruct e'; try (right; auto; fail). destruct I as [->|I]; [right; left; reflexivity|right; auto].
Qed.
Lemma run_noanswer c code data mr n a w t w' b : lrun c code data mr n a w t w' (Val (Some b)) -> unanswered t -> False.
Proof.
  intros H U. apply run_answer in H. destruct H as (rs & r & E & A). specialize (U r). rewrite U in A; [discriminate|].
  apply replies_got. rewrite E. apply in_or_app. right. left. reflexivity.
Qed.
Lemma unanswered_app a b : unanswered (a ++ b) -> unanswered a /\ unanswered b.
Proof. unfold unanswered. intros U. split; intros r I; apply U; apply in_or_app; auto. Qed.

Lemma command_exn X pl mr c w t w' o : command_request X pl mr c w = (t, w', o) -> (forall p, pl = Ok p -> exists m, makeMessage 0 X p = Ok m) ->
  (exists e, pl = Err e /\ t = [] /\ w' = w /\ o = Exc e) \/
  (exists p, pl = Ok p /\ ((exists e, o = Exc e /\ sent_exn e) \/ (exists y, o = Stuck y) \/ (o = Val tt /\ ~ unanswered t))).
Proof.
  intros E P. unfold command_request in E. destruct pl as [p|e]; cbn [mlift] in E.
  2:{ rewrite bind_raise in E. injection E as <- <- <-. left. eauto. }
  right. exists p. split; [reflexivity|]. specialize (P p eq_refl). rewrite bind_ret in E. apply bind_inv in E.
  destruct E as [(t1 & w1 & a & t2 & E1 & E2 & ->)|[(e & E1 & ->)|(y & E1 & ->)]].
  - apply request_run in E1. destruct a as [[|x b]|].
    + injection E2 as <- <- <-. right. right. split; [reflexivity|]. intros U. rewrite app_nil_r in U. eapply run_noanswer; eassumption.
    + injection E2 as <- <- <-. left. eexists. split; [reflexivity|]. left. reflexivity.
    + injection E2 as <- <- <-. left. eexists. split; [reflexivity|]. left. reflexivity.
  - apply request_run in E1. left. exists e. split; [reflexivity|]. eapply run_exn; eassumption.
  - right. left. eauto.
Qed.

Lemma pack2_small a b p X : is_u16 X -> pack_Is [VInt a; VInt b] = Ok p -> exists m, makeMessage 0 X p = Ok m.
Proof.
  intros U E. apply small_message; [exact U|]. apply pack_Is_inv in E. destruct E as (zs & L & _ & ->).
  destruct zs as [|x [|y [|z zs]]]; try discriminate. reflexivity.
Qed.
Lemma remove_exn w t w' o : remove_client w = (t, w', o) -> is_u32 (m_id (w_cm w)) -> (exists c, m_proto (w_cm w) = Some c) ->
  o = Val tt \/ o = Exc ECancelled \/ exists y, o = Stuck y.
Proof.
  intros E I (c & P). unfold remove_client, mcatch in E. destruct (mbind m_proto_or_fail _ w) as [[t1 w1] o1] eqn:E1.
  unfold m_proto_or_fail in E1. rewrite bind_assoc, bind_get, P, bind_ret, bind_get in E1.
  apply command_exn in E1; [|intros p; apply pack2_small; vm_compute; intuition discriminate].
  destruct E1 as [(e & E1 & _)|(p & _ & D)].
  - change [VInt 0; VInt (m_id (w_cm w))] with (map VInt [0; m_id (w_cm w)]) in E1. rewrite pack_Is_ok in E1; [discriminate|].
    constructor; [unfold is_u32; lia|constructor; [exact I|constructor]].
  - destruct D as [(e & -> & [Ce| ->])|[(y & ->)|(-> & _)]].
    + rewrite Ce in E. injection E as <- <- <-. auto.
    + injection E as <- <- <-. auto.
    + injection E as <- <- <-. eauto.
    + injection E as <- <- <-. auto.
Qed.
Lemma close_exn c force w t w' o : async_close c force w = (t, w', o) -> o = Val tt \/ o = Exc ECancelled \/ exists y, o = Stuck y.
Proof.
  unfold async_close. rewrite bind_put. intros E. apply bind_inv in E.
  destruct E as [(t1 & w1 & r & t2 & E1 & E2 & ->)|[(e & E1 & ->)|(y & E1 & ->)]]; [| |eauto].
  2:{ exfalso. unfold ask in E1. destruct (w_env _); [discriminate|]. destruct (interfere _ _). discriminate. }
  assert (K : forall w2 t3 w3 o3,
    ((k <- mget (get_conn c) ;; (if c_open k then memit (CloseTransport c) ;;; mput (mark_shut c) else mret tt) ;;;
      still <- mget (connected c) ;; if negb still then mret tt else
        r2 <- ask (AwaitClosed c) nopre ;;
        match r_kind r2 with KDone => fun w => let '(t, w') := lose c w in (t, w', Val tt) | KCancelTask => mraise ECancelled | _ => mstuck Unfit end) w2
       = (t3, w3, o3)) -> o3 = Val tt \/ o3 = Exc ECancelled \/ exists y, o3 = Stuck y).
  { clear. intros w2 t3 w3 o3 E. rewrite bind_get in E. apply bind_inv in E.
    destruct E as [(t1 & w1 & r & t2 & E1 & E2 & ->)|[(e & E1 & ->)|(y & E1 & ->)]].
    - rewrite bind_get in E2. destruct (negb _); [injection E2 as <- <- <-; auto|]. apply bind_inv in E2.
      destruct E2 as [(t5 & w5 & r2 & t6 & E5 & E6 & ->)|[(e & E5 & ->)|(y & E5 & ->)]]; [| |eauto].
      + destruct (r_kind r2); try (injection E6 as <- <- <-; eauto; fail). destruct (lose c w5). injection E6 as <- <- <-. auto.
      + exfalso. unfold ask in E5. destruct (w_env _); [discriminate|]. destruct (interfere _ _). discriminate.
    - destruct (c_open _); [rewrite bind_emit in E1|]; discriminate.
    - eauto. }
  destruct (r_kind r); try (injection E2 as <- <- <-; eauto; fail); eapply K; exact E2.
Qed.
Lemma unsubscribe_exn w t w' o : unsubscribe_gateway w = (t, w', o) -> is_u32 (m_id (w_cm w)) ->
  o = Val tt \/ o = Exc ECancelled \/ exists y, o = Stuck y.
Proof.
  intros E I. unfold unsubscribe_gateway in E. rewrite bind_get in E. destruct (attached w) eqn:A; cbn [negb] in E; [|injection E as <- <- <-; auto].
  unfold with_lock in E. rewrite bind_get in E. destruct (m_locked (w_cm w)); [injection E as <- <- <-; eauto|].
  rewrite bind_put in E. unfold mfinally in E. set (w0 := put_cm _ w) in E. destruct (mbind _ _ w0) as [[t1 w1] o1] eqn:E1.
  assert (D : o1 = Val tt \/ o1 = Exc ECancelled \/ exists y, o1 = Stuck y).
  { rewrite bind_get in E1. destruct (m_is_client (w_cm w0)); [|injection E1 as <- <- <-; auto].
    rewrite bind_put in E1. unfold m_proto_or_fail in E1. rewrite bind_assoc, bind_get in E1.
    unfold attached in A. destruct (m_proto (w_cm w)) as [c|] eqn:P; [|discriminate].
    change (m_proto (w_cm (put_cm (cmset_client false) w0))) with (m_proto (w_cm w)) in E1. rewrite P, bind_ret, !bind_put in E1.
    eapply remove_exn; [exact E1|exact I|exists c; exact P]. }
  destruct D as [->|[->|(y & ->)]]; injection E as <- <- <-; eauto.
Qed.
Lemma disconnect_exn force w t w' o : async_disconnect force w = (t, w', o) -> is_u32 (m_id (w_cm w)) -> (exists c, w_proto w = Some c) ->
  o = Val tt \/ o = Exc ECancelled \/ exists y, o = Stuck y.
Proof.
  intros E I (c & P). unfold async_disconnect in E. rewrite bind_get in E. apply bind_inv in E.
  destruct E as [(t1 & w1 & a & t2 & E1 & E2 & ->)|[(e & E1 & ->)|(y & E1 & ->)]]; [| |eauto].
  - assert (K : w_proto w1 = Some c).
    { destruct (is_client w); [apply unsubscribe_kg in E1; destruct E1 as (_ & _ & E1 & _); congruence|injection E1 as _ <- _; exact P]. }
    unfold proto_or_fail in E2. rewrite bind_assoc, bind_get, K, bind_ret in E2. eapply close_exn; exact E2.
  - destruct (is_client w); [|discriminate]. apply unsubscribe_exn in E1; [|exact I].
    destruct E1 as [E1|[E1|(y & E1)]]; try discriminate; injection E1 as ->; auto.
Qed.

(** an attempt that reaches nobody *)
Definition gw_same (w w' : world) : Prop :=
  w_proto w' = w_proto w /\ w_cm w' = w_cm w /\ no_address w' = no_address w.
Lemma kept_gws w w' : kept w w' -> gw_same w w'.
Proof. unfold kept, gw_same, no_address. intros (A & _ & B & _ & _ & C & _). rewrite A. auto. Qed.
Lemma attempt_deaf n X pl mr w t w' o : (forall p, pl = Ok p -> exists m, makeMessage 0 X p = Ok m) ->
  attempt_request (async_connect (S n) no_args) (command_request X pl) mr w = (t, w', o) ->
  granted t = 0%nat -> unanswered t -> no_address w = false ->
  (is_connected w = true /\ t = [] /\ exists e, pl = Err e /\ o = Exc e) \/ ((exists e, o = Exc e /\ sent_exn e) /\ gw_same w w') \/ exists y, o = Stuck y.
Proof.
  intros P E G U N. unfold attempt_request in E. apply bind_inv in E.
  destruct (is_connected w) eqn:Up.
  - rewrite (connect_up n no_args w Up) in E.
    destruct E as [(t1 & w1 & a & t2 & E1 & E2 & ->)|[(e & E1 & _)|(y & E1 & _)]]; try discriminate.
    injection E1 as <- <- <-. cbn [negb app] in *. unfold is_connected in Up. unfold proto_or_fail in E2. rewrite bind_assoc, bind_get in E2.
    destruct (w_proto w) as [c|]; [|discriminate]. rewrite bind_ret in E2.
    pose proof (q_kept _ _ _ (command_once X pl) _ _ _ _ _ _ E2) as K.
    apply command_exn in E2; [|exact P]. destruct E2 as [(e & Pe & -> & _ & ->)|(p & _ & [(e & -> & S)|[(y & ->)|(_ & B)]])]; eauto 8 using kept_gws.
    contradiction.
  - destruct E as [(t1 & w1 & a & t2 & E1 & E2 & ->)|[(e & E1 & ->)|(y & E1 & ->)]].
    + exfalso. pose proof (granted_app t1 t2). apply connect_refused in E1; [|lia|exact Up|exact N].
      destruct E1 as (_ & [E1|[E1|(y & E1)]]); discriminate.
    + right. left. apply connect_refused in E1; [|exact G|exact Up|exact N]. destruct E1 as (Kp & E1). split.
      * exists e. split; [reflexivity|]. destruct E1 as [E1|[E1|(y & E1)]]; try discriminate; injection E1 as ->; [left|right]; reflexivity.
      * apply kept_gws in Kp. exact Kp.
    + eauto.
Qed.
Lemma command_deaf n X pl delay w t w' o : (forall p, pl = Ok p -> exists m, makeMessage 0 X p = Ok m) ->
  (forall e, pl = Err e -> is_comm_error e = false) -> command (S n) (command_request X pl) delay w = (t, w', o) ->
  granted t = 0%nat -> unanswered t -> no_address w = false -> is_u32 (m_id (w_cm w)) -> w_proto w <> None ->
  (t = [] /\ exists e, pl = Err e /\ o = Exc e) \/ (exists e, o = Exc e /\ sent_exn e) \/ exists y, o = Stuck y.
Proof.
  intros P Rc E G U N Id Pr. unfold command, connected_request in E. rewrite bind_get in E. unfold mcatch in E.
  destruct (attempt_request (async_connect (S n) no_args) (command_request X pl) (w_retries w) w) as [[t1 w1] o1] eqn:E1.
  assert (P1 : exists t2, t = t1 ++ t2).
  { destruct o1 as [a|e|y]; try (injection E as <- <- <-; exists []; rewrite app_nil_r; reflexivity).
    destruct (is_comm_error e); [|injection E as <- <- <-; exists []; rewrite app_nil_r; reflexivity].
    match type of E with (match ?x with _ => _ end) = _ => destruct x as [[t2 w2] o2] end. injection E as <- <- <-. eauto. }
  destruct P1 as (tx & Tx). pose proof (granted_app t1 tx) as Ga. rewrite <- Tx in Ga.
  assert (U1 : unanswered t1) by (rewrite Tx in U; apply unanswered_app in U; tauto).
  apply attempt_deaf in E1; [|exact P|lia|exact U1|exact N].
  destruct E1 as [(_ & -> & e & Pe & ->)|[((e & -> & S) & K)|(y & ->)]].
  - rewrite (Rc e Pe) in E. injection E as <- <- <-. left; eauto.
  - destruct (is_comm_error e) eqn:Ce; [|injection E as <- <- <-; eauto].
    match type of E with (match ?x with _ => _ end) = _ => destruct x as [[t2 w2] o2] eqn:E2 end. injection E as <- <- <-.
    assert (tx = t2) by (eapply app_inv_head; symmetry; exact Tx). subst tx. apply unanswered_app in U. destruct U as (_ & U2).
    destruct K as (Kp & Kc & Kn). apply bind_inv in E2.
    assert (Pw : exists c, w_proto w1 = Some c) by (rewrite Kp; destruct (w_proto w); [eauto|congruence]).
    destruct E2 as [(td & wd & u0 & t3 & Ed & E3 & ->)|[(e' & Ed & ->)|(y & Ed & ->)]].
    + pose proof Ed as Ed'. apply disconnect_inv in Ed. destruct Ed as (cd & Pd & Dd & Kd). apply bind_inv in E3.
      destruct E3 as [(ts & ws & u1 & t4 & Es & E4 & ->)|[(e' & Es & ->)|(y & Es & ->)]]; [| |eauto].
      * assert (Ks : kept wd ws /\ connected cd ws = false).
        { clear - Es Dd. unfold msleep, mbind, ask in Es. destruct (w_env wd) as [|r rest] eqn:We; [discriminate|].
          unfold nopre in Es. destruct (interfere r (set_env rest wd)) as [l wi] eqn:I. destruct (r_kind r); try discriminate. injection Es as _ <- _.
          split; [eapply kept_interfere; exact I|]. eapply interfere_down; [exact I|exact Dd]. }
        destruct Ks as (Ks & Cs). pose proof (granted_app td (ts ++ t4)) as G1. pose proof (granted_app ts t4) as G2.
        apply unanswered_app in U2. destruct U2 as (_ & U2). apply unanswered_app in U2. destruct U2 as (_ & U2).
        assert (Nw : no_address ws = false).
        { destruct Ks as (Ka & _). destruct Kd as (Kda & _). unfold no_address in *. rewrite Ka, Kda. rewrite Kn. exact N. }
        assert (Uw : is_connected ws = false).
        { destruct Ks as (_ & _ & Ka & _). destruct Kd as (_ & _ & Kda & _). unfold is_connected. rewrite Ka, Kda, Pd. exact Cs. }
        apply attempt_deaf in E4; [|exact P|lia|exact U2|exact Nw].
        destruct E4 as [(Up2 & _)|[((e' & -> & S') & _)|(y & ->)]]; eauto. congruence.
      * right. left. exists e'. split; [reflexivity|]. right. clear - Es.
        unfold msleep, mbind, ask in Es. destruct (w_env wd) as [|r rest] eqn:We; [discriminate|].
        unfold nopre in Es. destruct (interfere r (set_env rest wd)) as [l wi] eqn:I. destruct (r_kind r); try discriminate; injection Es as _ _ <-; reflexivity.
    + apply disconnect_exn in Ed; [|rewrite Kc; exact Id|exact Pw].
      destruct Ed as [Ed|[Ed|(y & Ed)]]; try discriminate. injection Ed as ->. right. left. eexists. split; [reflexivity|]. right. reflexivity.
    + eauto.
  - injection E as <- <- <-. eauto.
Qed.

Lemma pack_Is_small l p X : is_u16 X -> (List.length l <= 10)%nat -> pack_Is l = Ok p -> exists m, makeMessage 0 X p = Ok m.
Proof.
  intros U L E. apply small_message; [exact U|]. apply pack_Is_inv in E. destruct E as (zs & -> & _ & ->). rewrite map_length in L.
  assert (G : zlen (List.concat (map u32le zs)) = 4 * Z.of_nat (List.length zs)).
  { clear. induction zs as [|z zs IH]; [reflexivity|]. cbn [map List.concat]. rewrite zlen_app, IH. cbn [List.length].
    change (zlen (u32le z)) with 4. lia. }
  rewrite G. lia.
Qed.
Lemma pack_Is_calm l e : pack_Is l = Err e -> is_comm_error e = false.
Proof.
  revert e. induction l as [|v l IH]; intros e; cbn [pack_Is]; [discriminate|].
  destruct (pack_I v) as [b|x] eqn:V; cbn [rbind].
  - destruct (pack_Is l) as [b'|x]; cbn [rbind]; [discriminate|]. intros E. injection E as ->. apply IH. reflexivity.
  - intros E. injection E as ->. destruct v; cbn [pack_I] in V; try (injection V as <-; reflexivity); unfold pack_u in V; destruct (_ && _); try discriminate; injection V as <-; reflexivity.
Qed.
Lemma pack_Hs_len l : forall b, pack_Hs l = Ok b -> zlen b = 2 * Z.of_nat (List.length l).
Proof.
  induction l as [|z l IH]; intros b; cbn [pack_Hs]; [intros E; injection E as <-; reflexivity|].
  unfold pack_u at 1. destruct (_ && _); [|discriminate]. cbn [rbind]. destruct (pack_Hs l) as [b'|]; [|discriminate]. cbn [rbind]. intros E. injection E as <-.
  specialize (IH _ eq_refl). unfold zlen in *. cbn [List.length app le_enc]. lia.
Qed.
Lemma pack_Hs_calm l e : pack_Hs l = Err e -> is_comm_error e = false.
Proof.
  revert e. induction l as [|v l IH]; intros e; cbn [pack_Hs]; [discriminate|].
  unfold pack_u at 1. destruct (_ && _); cbn [rbind]; [|intros E; injection E as <-; reflexivity].
  destruct (pack_Hs l) as [b'|x]; cbn [rbind]; [discriminate|]. intros E. injection E as ->. apply IH. reflexivity.
Qed.
Lemma f_trunc_calm f e : f_trunc f = Err e -> is_comm_error e = false.
Proof. unfold f_trunc. destruct f; intros E; try discriminate; injection E as <-; reflexivity. Qed.

Lemma perform_deaf n call w t w' o : is_command call -> perform (S n) call w = (t, w', o) ->
  granted t = 0%nat -> unanswered t -> no_address w = false -> is_u32 (m_id (w_cm w)) -> w_proto w <> None ->
  (t = [] /\ exists e, o = Exc e) \/ (exists e, o = Exc e /\ sent_exn e) \/ exists y, o = Stuck y.
Proof.
  intros C E G U N Id Pr.
  assert (K : forall X l delay, is_u16 X -> (List.length l <= 10)%nat -> command (S n) (command_request X (pack_Is l)) delay w = (t, w', o) ->
    (t = [] /\ exists e, o = Exc e) \/ (exists e, o = Exc e /\ sent_exn e) \/ exists y, o = Stuck y).
  { intros X l delay H L E1. apply command_deaf in E1; auto.
    - destruct E1 as [(-> & e & _ & ->)|E1]; eauto.
    - intros p Ep. eapply pack_Is_small; eassumption.
    - apply pack_Is_calm. }
  assert (T : forall t0 a delay, command (S n) (request_set_date_time t0 a) delay w = (t, w', o) ->
    (t = [] /\ exists e, o = Exc e) \/ (exists e, o = Exc e /\ sent_exn e) \/ exists y, o = Stuck y).
  { intros t0 a delay E1. unfold request_set_date_time in E1. apply command_deaf in E1; auto.
    - destruct E1 as [(-> & e & _ & ->)|E1]; eauto.
    - intros p Ep. apply small_message; [vm_compute; intuition discriminate|].
      destruct (encodeMessageTime t0) as [b|] eqn:Eb; [|discriminate]. cbn [rbind] in Ep. destruct (pack_Is [a]) as [b'|] eqn:Ea; [|discriminate].
      cbn [rbind] in Ep. injection Ep as <-. unfold encodeMessageTime in Eb. destruct (f_trunc _); [|discriminate]. cbn [rbind] in Eb.
      apply pack_Hs_len in Eb. apply pack_Is_inv in Ea. destruct Ea as (zs & L & _ & ->). destruct zs as [|x [|y zs]]; try discriminate.
      rewrite zlen_app, Eb. cbn [List.length map List.concat]. rewrite app_nil_r. change (zlen (u32le x)) with 4. lia.
    - intros e Ee. destruct (encodeMessageTime t0) as [b|e1] eqn:Eb; cbn [rbind] in Ee.
      + destruct (pack_Is [a]) as [b'|e2] eqn:Ea; cbn [rbind] in Ee; [discriminate|]. injection Ee as ->. eapply pack_Is_calm; exact Ea.
      + injection Ee as ->. unfold encodeMessageTime in Eb. destruct (f_trunc _) eqn:Ft; cbn [rbind] in Eb; [eapply pack_Hs_calm; exact Eb|].
        injection Eb as ->. eapply f_trunc_calm; exact Ft. }
  assert (S : forall t0 a, async_set_date_time (S n) t0 a w = (t, w', o) ->
    (t = [] /\ exists e, o = Exc e) \/ (exists e, o = Exc e /\ sent_exn e) \/ exists y, o = Stuck y).
  { intros t0 a E1. unfold async_set_date_time in E1. rewrite bind_get, bind_get in E1. apply lift_inv in E1.
    destruct E1 as [([? ?] & _ & E1)|(e & _ & -> & _ & ->)]; [|eauto]. eapply T; exact E1. }
  assert (u : forall X, In X [12530; 12528; 12538; 12556; 12576; 12594] -> is_u16 X).
  { intros X I. unfold is_u16. cbn in I. lia. }
  destruct call; try contradiction; cbn [perform] in E.
  - unfold async_set_circuit in E. rewrite bind_get in E.
    apply require_inv in E. destruct E as [(_ & E)|(-> & _ & e & -> & _)]; [|eauto].
    apply require_inv in E. destruct E as [(_ & E)|(-> & _ & e & -> & _)]; [|eauto].
    eapply K; [| |exact E]; [apply u; cbn; tauto|cbn; lia].
  - unfold async_set_heat_temp in E. rewrite bind_get in E.
    apply require_inv in E. destruct E as [(_ & E)|(-> & _ & e & -> & _)]; [|eauto].
    apply require_inv in E. destruct E as [(_ & E)|(-> & _ & e & -> & _)]; [|eauto].
    eapply K; [| |exact E]; [apply u; cbn; tauto|cbn; lia].
  - unfold async_set_heat_mode in E. rewrite bind_get in E.
    apply require_inv in E. destruct E as [(_ & E)|(-> & _ & e & -> & _)]; [|eauto].
    apply require_inv in E. destruct E as [(_ & E)|(-> & _ & e & -> & _)]; [|eauto].
    eapply K; [| |exact E]; [apply u; cbn; tauto|cbn; lia].
  - unfold async_set_color_lights in E.
    apply require_inv in E. destruct E as [(_ & E)|(-> & _ & e & -> & _)]; [|eauto].
    eapply K; [| |exact E]; [apply u; cbn; tauto|cbn; lia].
  - unfold async_set_scg_config in E. rewrite bind_get in E. apply lift_inv in E.
    destruct E as [([[[? ?] ?] ?] & _ & E)|(e & _ & -> & _ & ->)]; [|eauto]. eapply K; [| |exact E]; [apply u; cbn; tauto|cbn; lia].
  - unfold async_set_chem_data in E. rewrite bind_get in E. apply lift_inv in E.
    destruct E as [([[[[[? ?] ?] ?] ?] ?] & _ & E)|(e & _ & -> & _ & ->)]; [|eauto]. eapply K; [| |exact E]; [apply u; cbn; tauto|cbn; lia].
  - eapply S; exact E.
  - eapply S; exact E.
Qed.
