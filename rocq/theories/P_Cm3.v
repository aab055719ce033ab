(** Reconnecting restores the subscriptions. *)
From Verif Require Import Py F64 Struct Utf Utility Const Spec Enum Decode World Request Gateway Traces Paths Api P_Base P_Util P_Monad P_Request P_Sat P_Paths P_Frame P_Gw1 P_Gw6 P_Gw7 P_Calm P_Gw8 P_Gw9 P_Gw10 P_Gw11 P_Cm P_Cm2.
Open Scope m_scope.

(** ** requests do not touch the connections that stay up *)
Definition quiet (w w' : world) : Prop :=
  low w w' /\ forall c, (c < List.length (w_conns w))%nat -> connected c w' = true -> get_conn c w' = get_conn c w.
Lemma quiet_refl w : quiet w w. Proof. split; [apply low_refl|auto]. Qed.
Lemma quiet_trans a b c : quiet a b -> quiet b c -> quiet a c.
Proof.
  intros [A1 A2] [B1 B2]. split; [eapply low_trans; eassumption|]. intros k L C.
  assert (L2 : (k < List.length (w_conns b))%nat) by (destruct A1 as (_ & _ & A & _); lia).
  pose proof (B2 k L2 C) as E. rewrite E. apply A2; [exact L|]. unfold connected in *. rewrite <- E. exact C.
Qed.
Lemma lose_quiet c w l w1 : lose c w = (l, w1) -> forall k, connected k w1 = true -> get_conn k w1 = get_conn k w.
Proof.
  intros E k C. pose proof (lose_connected c w k) as D. rewrite E in D. cbn [snd] in D. rewrite C in D. unfold lose in E.
  destruct (connected c w); injection E as _ <-; [|reflexivity]. rewrite get_upd. destruct (Nat.eqb k c); [|reflexivity].
  cbn [negb] in D. rewrite andb_false_r in D. discriminate.
Qed.
Lemma lose_all_quiet cs : forall w l w1, lose_all cs w = (l, w1) -> forall k, connected k w1 = true -> get_conn k w1 = get_conn k w.
Proof.
  induction cs as [|c cs IH]; intros w l w1 E k C; cbn [lose_all] in E; [injection E as _ <-; reflexivity|].
  destruct (lose c w) as [t1 v1] eqn:E1. destruct (lose_all cs v1) as [t2 v2] eqn:E2. injection E as _ <-.
  pose proof (IH _ _ _ E2 k C) as G. rewrite G. eapply lose_quiet; [exact E1|]. unfold connected in *. rewrite <- G. exact C.
Qed.
Lemma interfere_quiet r w l w1 : interfere r w = (l, w1) -> forall k, connected k w1 = true -> get_conn k w1 = get_conn k w.
Proof.
  unfold interfere. intros E k C. pose proof (lose_all_quiet _ _ _ _ E k C) as G. rewrite G. destruct (r_data r); reflexivity.
Qed.
Lemma ask_quiet e : Rel quiet (ask e nopre).
Proof.
  intros w t w' o E N. split; [eapply ask_low; [intros; apply low_refl|exact E|exact N]|].
  intros c L C. unfold ask in E. destruct (w_env w) as [|r rest]; [injection E as _ <- _; reflexivity|].
  destruct (interfere r _) as [l w1] eqn:I. injection E as _ <- _. exact (interfere_quiet _ _ _ _ I c C).
Qed.
Lemma data_quiet d w : quiet w (set_data d w). Proof. split; [|auto]. repeat split; auto. Qed.
Ltac quiet1 := lazymatch goal with
  | |- Rel quiet (mbind _ _) => apply rel_bind; [apply quiet_trans| |intros ?]
  | |- Rel quiet (mret _) => apply rel_ret, quiet_refl
  | |- Rel quiet (mraise _) => apply rel_raise, quiet_refl
  | |- Rel quiet (mstuck _) => apply rel_stuck, quiet_refl
  | |- Rel quiet (mget _) => apply rel_get, quiet_refl
  | |- Rel quiet (mlift _) => apply rel_lift, quiet_refl
  | |- Rel quiet (memit _) => apply rel_emit, quiet_refl
  | |- Rel quiet (ask _ nopre) => apply ask_quiet
  | |- Rel quiet (if ?x then _ else _) => destruct x
  | |- Rel quiet (match ?x with _ => _ end) => destruct x
  end.
Lemma sleep_quiet ms : Rel quiet (msleep ms). Proof. unfold msleep. repeat quiet1. Qed.
Lemma loop_quiet n : forall a mr c code p, Rel quiet (request_loop n a mr c code p).
Proof.
  induction n as [|n IH]; intros; cbn [request_loop]; [quiet1|]. unfold send. cbv zeta.
  repeat first [quiet1 | apply sleep_quiet | apply IH].
Qed.
Lemma request_quiet c code p mr : Rel quiet (make_request c code p mr). Proof. apply loop_quiet. Qed.
Lemma decode_quiet m : Rel quiet (mdecode m).
Proof. intros w t w' o E _. apply mdecode_inv in E. destruct E as (_ & -> & _). apply data_quiet. Qed.
Lemma dreq_quiet code p dec mr c : Rel quiet (data_request code p dec mr c).
Proof. unfold data_request. quiet1; [apply request_quiet|]. repeat first [quiet1 | apply decode_quiet]. Qed.
Lemma version_quiet mr c : Rel quiet (request_gateway_version mr c).
Proof. unfold request_gateway_version. quiet1; [quiet1|apply dreq_quiet]. Qed.
Lemma command_quiet code pl mr c : Rel quiet (command_request code pl mr c).
Proof.
  unfold command_request. quiet1; [quiet1|]. quiet1; [apply request_quiet|]. repeat quiet1.
Qed.
Lemma quiet_low {A} (m : M A) : Rel quiet m -> Rel low m.
Proof. apply rel_weak. intros a b [H _]. exact H. Qed.

(** a connection that was just made, if it is still up *)
Lemma connect_to_new ip port mr w t w' c mac : connect_to_gateway ip port mr w = (t, w', Val (Some (c, mac))) ->
  connected c w' = true -> get_conn c w' = new_conn.
Proof.
  unfold connect_to_gateway. intros E C. apply bind_inv in E. destruct E as [(s1 & v1 & k & s2 & F1 & F2 & _)|[(e & _ & X)|(y & _ & X)]]; try discriminate.
  apply bind_inv in F2. destruct F2 as [(s3 & v3 & m3 & s4 & G1 & G2 & _)|[(e & _ & X)|(y & _ & X)]]; try discriminate.
  assert (L1 : quiet v1 v3).
  { eapply (rel_weak quiet quiet (gateway_connect k mr) (fun _ _ h => h)); [|exact G1|discriminate]. unfold gateway_connect.
    repeat first [quiet1 | apply sleep_quiet | apply request_quiet]. }
  apply bind_inv in G2. destruct G2 as [(s5 & v5 & m5 & s6 & H1 & H2 & _)|[(e & _ & X)|(y & _ & X)]]; try discriminate.
  assert (L2 : quiet v3 v5).
  { eapply (rel_weak quiet quiet (gateway_login k mr) (fun _ _ h => h)); [|exact H1|discriminate]. unfold gateway_login.
    repeat first [quiet1 | apply request_quiet]. }
  destruct m5; [|discriminate]. injection H2 as _ <- <- _.
  unfold create_connection in F1. rewrite bind_get in F1. unfold mbind, ask in F1. destruct (w_env w) as [|r rest]; [discriminate|].
  destruct (interfere r _) as [l u1] eqn:I. destruct (r_kind r) eqn:K; try discriminate.
  injection F1 as _ <- <-. pose proof (quiet_trans _ _ _ L1 L2) as [_ Q].
  assert (Ln : List.length (w_conns u1) = S (List.length (w_conns w))).
  { pose proof (interfere_fields _ _ _ _ I) as (_ & _ & _ & _ & _ & _ & _ & _ & J & _). rewrite J. cbn [set_conns w_conns set_env]. rewrite app_length. cbn. lia. }
  assert (G : get_conn (List.length (w_conns w)) v5 = get_conn (List.length (w_conns w)) u1) by (apply Q; [lia|exact C]).
  rewrite G. rewrite (interfere_quiet _ _ _ _ I). 2: { unfold connected in *. rewrite <- G. exact C. }
  unfold get_conn. cbn [set_conns w_conns set_env]. rewrite app_nth2 by lia. rewrite Nat.sub_diag. reflexivity.
Qed.

(** the gateway's connection, if up, is not being closed *)
Definition fine (w : world) : Prop :=
  forall c, w_proto w = Some c -> connected c w = true -> c_closing (get_conn c w) = false /\ c_open (get_conn c w) = true.
Lemma fine_down w : is_connected w = false -> fine w.
Proof. intros U c P C. unfold is_connected in U. rewrite P in U. congruence. Qed.
Lemma fine_quiet w w' : follows w -> quiet w w' -> fine w -> fine w'.
Proof.
  intros (_ & F & _) [(P & _ & _) Q] H c Pc C. rewrite P in Pc. pose proof (Q c (F c Pc) C) as G. rewrite G. apply H; [exact Pc|].
  unfold connected in *. rewrite <- G. exact C.
Qed.
Lemma low_down w w' : follows w -> low w w' -> is_connected w = false -> is_connected w' = false.
Proof.
  intros (_ & F & _) (P & _ & _ & M) U. unfold is_connected in *. rewrite P. destruct (w_proto w) as [c|] eqn:Pc; [|reflexivity]. apply M; auto.
Qed.
Lemma disconnect_down force w t w' u : async_disconnect force w = (t, w', Val u) -> is_connected w' = false.
Proof.
  intros E. apply disconnect_inv in E. destruct E as (c & P & D & (_ & _ & K & _)). unfold is_connected. rewrite K, P. exact D.
Qed.

Section Connect.
Variable connect : M bool.
Hypothesis Hh : Rel high connect.
Hypothesis Hf : forall w t w' b, follows w -> fine w -> connect w = (t, w', Val b) -> fine w'.
Lemma attempt_fine {A} (method : Z -> nat -> M A) mr w t w' a : (forall mr c, Rel quiet (method mr c)) -> follows w -> fine w ->
  attempt_request connect method mr w = (t, w', Val a) -> fine w'.
Proof.
  intros Q F H E. unfold attempt_request in E. apply bind_inv in E.
  destruct E as [(t1 & w1 & b & t2 & E1 & E2 & ->)|[(e & E1 & X)|(y & E1 & X)]]; try discriminate.
  pose proof (Hf _ _ _ _ F H E1) as H1. assert (F1 : follows w1) by (eapply Hh; [exact E1|discriminate|exact F]).
  destruct (negb b); [discriminate|]. unfold proto_or_fail in E2. rewrite bind_assoc, bind_get in E2. destruct (w_proto w1); [|discriminate].
  rewrite bind_ret in E2. eapply fine_quiet; [exact F1| |exact H1]. eapply Q; [exact E2|discriminate].
Qed.
Lemma connected_fine {A} (method : Z -> nat -> M A) delay w t w' a : (forall mr c, Rel quiet (method mr c)) -> follows w -> fine w ->
  connected_request connect method delay w = (t, w', Val a) -> fine w'.
Proof.
  intros Q F H E. unfold connected_request in E. rewrite bind_get in E. unfold mcatch in E.
  destruct (attempt_request connect method (w_retries w) w) as [[t1 w1] [b|e|y]] eqn:E1; [|destruct (is_comm_error e); [|discriminate]|discriminate].
  - injection E as <- <- <-. eapply attempt_fine; eassumption.
  - assert (F1 : follows w1) by (eapply (attempt_high connect Hh method); [intros; apply quiet_low, Q|exact E1|discriminate|exact F]).
    match type of E with (let '(_, _) := ?m ?v in _) = _ => destruct (m v) as [[s2 v2] o2] eqn:E2 end. injection E as _ -> ->.
    apply bind_inv in E2. destruct E2 as [(s3 & v3 & a3 & s4 & G1 & G2 & ->)|[(e3 & G1 & X)|(z3 & G1 & X)]]; try discriminate.
    assert (F3 : follows v3) by (eapply mid_high; [eapply disconnect_mid; [exact G1|discriminate]|exact F1]).
    apply disconnect_down in G1.
    apply bind_inv in G2. destruct G2 as [(s5 & v5 & a5 & s6 & K1 & K2 & ->)|[(e3 & K1 & X)|(z3 & K1 & X)]]; try discriminate.
    assert (L5 : low v3 v5) by (eapply sleep_low; [exact K1|discriminate]).
    eapply attempt_fine; [exact Q| | |exact K2].
    + eapply low_high; eassumption.
    + apply fine_down. eapply low_down; eassumption.
Qed.
Lemma fold_register_get c codes : forall w, (c < List.length (w_conns w))%nat ->
  let w' := fold_left (fun w code => register c code (HClient code) w) codes w in
  w_conns w' = lset c (let k := get_conn c w in mkConn (c_connected k) (c_closing k) (c_open k)
                 (fold_left (fun d code => hset code (HClient code) d) codes (c_handlers k)) (c_keepalive k)) (w_conns w) /\
  get_conn c w' = (let k := get_conn c w in mkConn (c_connected k) (c_closing k) (c_open k)
                 (fold_left (fun d code => hset code (HClient code) d) codes (c_handlers k)) (c_keepalive k)).
Proof.
  assert (X : forall w k, (c < List.length (w_conns w))%nat -> w_conns w = lset c k (w_conns w) -> get_conn c w = k).
  { intros w k L E. unfold get_conn. rewrite E, nth_lset by exact L. rewrite Nat.eqb_refl. reflexivity. }
  assert (LL : forall (l : list conn) x y, lset c x (lset c y l) = lset c x l).
  { intros l. generalize c as n. induction l as [|z l IH]; intros [|n] x y; cbn; auto. f_equal. apply IH. }
  assert (Sf : forall (l : list conn), lset c (nth c l dead_conn) l = l).
  { intros l. generalize c as n. induction l as [|z l IH]; intros [|n]; cbn; auto. f_equal. apply IH. }
  induction codes as [|k codes IH]; intros w L; cbn [fold_left]; cbv zeta.
  - split; [|destruct (get_conn c w); reflexivity]. unfold get_conn. rewrite <- (Sf (w_conns w)) at 1. f_equal. destruct (nth c (w_conns w) dead_conn); reflexivity.
  - assert (L1 : (c < List.length (w_conns (register c k (HClient k) w)))%nat).
    { unfold register, upd_conn. cbn [set_conns w_conns]. rewrite lset_length. exact L. }
    specialize (IH _ L1). cbv zeta in IH. destruct IH as [I1 I2].
    assert (G : get_conn c (register c k (HClient k) w) = let q := get_conn c w in mkConn (c_connected q) (c_closing q) (c_open q) (hset k (HClient k) (c_handlers q)) (c_keepalive q)).
    { unfold register. rewrite get_upd, Nat.eqb_refl. apply Nat.ltb_lt in L. rewrite L. reflexivity. }
    cbv zeta in G. rewrite G in I1, I2. cbn [c_connected c_closing c_open c_handlers c_keepalive] in I1, I2. split; [|exact I2].
    rewrite I1. unfold register, upd_conn. cbn [set_conns w_conns]. apply LL.
Qed.

Lemma upd_fine c f w : mild f -> (forall k, c_closing (f k) = c_closing k /\ c_open (f k) = c_open k) -> fine w -> fine (upd_conn c f w).
Proof.
  intros Hm Hk H x P C. change (w_proto (upd_conn c f w)) with (w_proto w) in P. unfold connected in C. rewrite get_upd in *.
  destruct (Nat.eqb_spec x c) as [->|]; cbn [andb] in *; [|apply H; [exact P|exact C]].
  destruct (Nat.ltb c (List.length (w_conns w))).
  - destruct (Hk (get_conn c w)) as [-> ->]. apply H; [exact P|]. destruct (Hm (get_conn c w)) as (E & _). unfold connected. congruence.
  - apply H; [exact P|exact C].
Qed.
Lemma fine_cm f w : fine w -> fine (put_cm f w). Proof. intros H. exact H. Qed.
Lemma fold_fine c codes : forall w, fine w -> fine (fold_left (fun w code => register c code (HClient code) w) codes w).
Proof.
  induction codes as [|k codes IH]; intros w H; [exact H|]. cbn [fold_left]. apply IH. apply upd_fine; [| |exact H]; intros q; cbn; auto.
Qed.
Lemma follows_cm f w : (forall m, m_proto (f m) = m_proto m) -> follows w -> follows (put_cm f w).
Proof.
  intros Hp (F1 & F2 & F3). split; [|split]; cbn [put_cm set_cm w_cm w_proto w_conns]; rewrite ?Hp; auto.
Qed.
Lemma subscribe_fine w t w' a : follows w -> fine w -> subscribe_gateway connect w = (t, w', Val a) -> fine w'.
Proof.
  intros F H E. unfold subscribe_gateway in E. rewrite bind_get in E. destruct (attached w); cbn [negb] in E; [|injection E as _ <- _; exact H].
  unfold with_lock in E. rewrite bind_get in E. destruct (m_locked (w_cm w)); [discriminate|]. rewrite bind_put in E. unfold mfinally in E.
  set (w0 := put_cm (cmset_locked true) w) in E. assert (F0 : follows w0) by (apply follows_cm; [reflexivity|exact F]).
  assert (H0 : fine w0) by exact H. clearbody w0. rewrite bind_get in E. destruct (is_client w0); cbn [negb] in E; [injection E as _ <- _; apply fine_cm, H0|].
  match type of E with (let '(_, _) := ?m ?v in _) = _ => destruct (m v) as [[s2 v2] [x|e|y]] eqn:E2 end; [|discriminate..].
  injection E as _ <- _. apply fine_cm. rewrite bind_get in E2. apply bind_inv in E2.
  destruct E2 as [(s3 & v3 & a3 & s4 & G1 & G2 & ->)|[(e3 & G1 & X)|(z3 & G1 & X)]]; try discriminate.
  rewrite bind_put in G2. unfold m_proto_or_fail in G2. rewrite bind_assoc, bind_get in G2. destruct (m_proto _) as [c|]; [|discriminate].
  rewrite bind_ret in G2. injection G2 as _ <- _. apply upd_fine; [intros k; cbn; auto..|]. apply fine_cm.
  eapply connected_fine; [intros; apply command_quiet|exact F0|exact H0|exact G1].
Qed.
Lemma attach_follows c mr w : w_proto w = Some c -> follows w ->
  follows (put_cm (fun m => cmset_client false (cmset_retries mr (cmset_proto (Some c) m))) w).
Proof.
  intros P (F1 & F2 & F3). split; [|split]; cbn [put_cm set_cm w_cm cmset_client cmset_retries cmset_proto m_proto w_proto]; intros x Ex.
  - injection Ex as <-. apply F2, P.
  - apply F2, Ex.
  - intros _. injection Ex as <-. exact P.
Qed.
Lemma attach_fine c mr w t w' a : w_proto w = Some c -> follows w -> fine w -> attach connect c mr w = (t, w', Val a) -> fine w'.
Proof.
  intros P F H E. unfold attach in E. rewrite bind_put, bind_get in E. pose proof (attach_follows c mr w P F) as F0.
  set (w0 := put_cm _ w) in *. assert (H0 : fine w0) by exact H. clearbody w0.
  destruct (client_needed w0); [|injection E as _ <- _; exact H0]. rewrite bind_put, bind_put in E.
  eapply subscribe_fine; [| |exact E].
  - eapply (low_high w0); [|exact F0]. assert (U0 : low w0 (unregister_all c w0)) by (apply low_upd; intros k; cbn; auto).
    eapply low_trans; [exact U0|apply fold_register_low].
  - apply fold_fine, upd_fine; [intros k; cbn; auto..|exact H0].
Qed.
End Connect.

(** the states a connect goes through, when it returns *)
Lemma connect_val n x w t w' b : async_connect (S n) x w = (t, w', Val b) -> follows w -> is_connected w = false ->
  (low w w' /\ b = false) \/
  exists c mac ip port mr t1 w1 t2 w2,
    connect_to_gateway ip port mr (store_args x w) = (t1, w1, Val (Some (c, mac))) /\
    quiet (store_connection c mac w1) w2 /\ follows w2 /\ m_locked (w_cm w2) = m_locked (w_cm w) /\ m_listeners (w_cm w2) = m_listeners (w_cm w) /\
    m_id (w_cm w2) = m_id (w_cm w) /\ mono w w2 /\ (List.length (w_conns w) <= c < List.length (w_conns w2))%nat /\
    ((b = false /\ w' = w2 /\ t = t1 ++ t2) \/
     (b = true /\ exists t3 w3 t4 c3, poll (async_connect n no_args) K_CONFIG request_pool_config w2 = (t3, w3, Val tt) /\
       w_proto w3 = Some c3 /\ attach (async_connect n no_args) c3 (w_retries w3) w3 = (t4, w', Val tt) /\ t = t1 ++ t2 ++ t3 ++ t4)).
Proof.
  intros E F U. rewrite connect_S in E. unfold connect_body in E. rewrite bind_get, U, bind_put, bind_get in E.
  destruct (no_address (store_args x w)); [discriminate|]. rewrite !bind_get in E. apply bind_inv in E.
  destruct E as [(t1 & w1 & a & t2 & E1 & E2 & ->)|[(e & E1 & X)|(y & E1 & X)]]; try discriminate.
  assert (L1 : low (store_args x w) w1) by (eapply connect_to_low; [exact E1|discriminate]).
  destruct a as [[c mac]|]; [|injection E2 as _ <- <-; left; split; [exact L1|reflexivity]]. right.
  destruct (connect_to_index _ _ _ _ _ _ _ _ E1) as [Ci Cl].
  rewrite bind_put, bind_get in E2. apply bind_inv in E2.
  destruct E2 as [(s3 & w2 & v & s4 & G1 & G2 & ->)|[(e & G1 & X)|(y & G1 & X)]]; try discriminate.
  assert (Q1 : quiet (store_connection c mac w1) w2) by (eapply version_quiet; [exact G1|discriminate]).
  set (w2' := set_last (dset K_VERSION (match v with Some b => VBytes b | None => VNone end) (w_last w2)) w2) in *.
  assert (Q2 : quiet (store_connection c mac w1) w2') by exact Q1.
  assert (A : follows w2' /\ m_locked (w_cm w2') = m_locked (w_cm w) /\ m_listeners (w_cm w2') = m_listeners (w_cm w) /\ m_id (w_cm w2') = m_id (w_cm w) /\ mono w w2' /\ (List.length (w_conns w) <= c < List.length (w_conns w2'))%nat).
  { destruct L1 as (L1 & L2 & L3 & L4). destruct Q2 as [Q2 _]. pose proof Q2 as (P2 & M2 & N2 & _).
    cbn [store_connection set_proto set_addr w_cm w_conns w_proto] in P2, M2, N2. cbn [store_args set_cb set_addr w_cm w_conns] in L2, L3, Ci.
    split; [|rewrite M2, L2; split; [reflexivity|]; split; [reflexivity|]; split; [reflexivity|]].
    - eapply (low_high _ _ Q2). destruct F as (F1 & F2 & F3). split; [|split]; cbn [store_connection set_proto set_addr w_cm w_proto w_conns].
      + intros k Ek. rewrite L2 in Ek. apply F1 in Ek. lia.
      + intros k Ek. injection Ek as <-. exact Cl.
      + intros k Ek Ck. exfalso. rewrite L2 in Ek. assert (D : connected k w = false).
        { destruct (connected k w) eqn:D; [|reflexivity]. specialize (F3 k Ek D). unfold is_connected in U. rewrite F3 in U. congruence. }
        pose proof (L4 k (F1 k Ek) D) as Z. unfold connected, get_conn in Z, Ck. cbn [store_connection set_proto set_addr w_conns] in Ck. congruence.
    - split; [|lia]. apply (mono_trans _ (store_connection c mac w1)); [split; [exact L3|exact L4]|apply Q2]. }
  destruct A as (A1 & A2 & A3 & A4 & A5 & A6).
  exists c, mac. do 3 eexists. exists t1, w1, s3, w2'. split; [exact E1|]. split; [exact Q2|]. repeat (split; [assumption|]).
  rewrite bind_put, bind_get in G2. fold w2' in G2. destruct (truthy (version (w_data w2'))).
  2: { injection G2 as <- <- <-. left. rewrite app_nil_r. auto. }
  right. apply bind_inv in G2. destruct G2 as [(s5 & w3 & [] & s6 & K1 & K2 & ->)|[(e & K1 & X)|(y & K1 & X)]]; try discriminate.
  unfold proto_or_fail in K2. rewrite bind_assoc, bind_get in K2. destruct (w_proto w3) as [c3|] eqn:P3; [|discriminate].
  rewrite bind_ret, bind_get in K2. apply bind_inv in K2. destruct K2 as [(s7 & w4 & [] & s8 & H1 & H2 & ->)|[(e & H1 & X)|(y & H1 & X)]]; try discriminate.
  injection H2 as <- <- <-. split; [reflexivity|]. exists s5, w3, s7, c3. rewrite app_nil_r. auto.
Qed.
Lemma fine_last d w : fine w -> fine (set_last d w). Proof. intros H. exact H. Qed.
Lemma poll_fine connect k (method : Z -> nat -> M (option bytes)) w t w' a : Rel high connect ->
  (forall w t w' b, follows w -> fine w -> connect w = (t, w', Val b) -> fine w') -> (forall mr c, Rel quiet (method mr c)) ->
  follows w -> fine w -> poll connect k method w = (t, w', Val a) -> fine w'.
Proof.
  intros Hh Hf Q F H E. unfold poll in E. apply bind_inv in E. destruct E as [(t1 & w1 & r & t2 & E1 & E2 & ->)|[(e & E1 & X)|(y & E1 & X)]]; try discriminate.
  assert (H1 : fine w1) by (eapply connected_fine; eassumption). destruct r; injection E2 as _ <- _; [apply fine_last|]; exact H1.
Qed.
Lemma connect_fine n : forall x w t w' b, follows w -> fine w -> async_connect n x w = (t, w', Val b) -> fine w'.
Proof.
  induction n as [|n IH]; intros x w t w' b F H E; [discriminate|]. destruct (is_connected w) eqn:U.
  - rewrite connect_up in E by exact U. injection E as _ <- _. exact H.
  - apply connect_val in E; [|exact F|exact U]. destruct E as [(L & _)|(c & mac & ip & port & mr & t1 & w1 & t2 & w2 & E1 & Q & F2 & _ & _ & _ & _ & _ & D)].
    + apply fine_down. eapply low_down; eassumption.
    + assert (H2 : fine w2).
      { intros k P C. destruct Q as [(Qp & _ & Ql & _) Q]. destruct (connect_to_index _ _ _ _ _ _ _ _ E1) as [_ Cl].
        rewrite Qp in P. cbn [store_connection set_proto set_addr w_proto] in P. injection P as <-.
        pose proof (Q c Cl C) as G. assert (N : get_conn c w1 = new_conn).
        { eapply connect_to_new; [exact E1|]. unfold connected in *. rewrite G in C. exact C. }
        rewrite G. change (get_conn c (store_connection c mac w1)) with (get_conn c w1). rewrite N. auto. }
      destruct D as [(-> & -> & ->)|(-> & t3 & w3 & t4 & c3 & E3 & P3 & E4 & ->)]; [exact H2|].
      assert (H3 : fine w3) by (eapply poll_fine; [apply connect_high|apply IH|intros; apply dreq_quiet|exact F2|exact H2|exact E3]).
      assert (F3 : follows w3) by (eapply poll_high; [apply connect_high|intros; apply config_low|exact E3|discriminate|exact F2]).
      eapply (attach_fine (async_connect n no_args)); [apply connect_high|apply IH|exact P3|exact F3|exact H3|exact E4].
Qed.

(** ** with the lock held, a reconnect that returns leaves no connection: registering
    again would have to wait for that lock *)
Lemma connected_low c w w' : w_conns w' = w_conns w -> connected c w' = connected c w.
Proof. intros E. unfold connected, get_conn. rewrite E. reflexivity. Qed.
Lemma poll_cm n w t w' a : poll (async_connect n no_args) K_CONFIG request_pool_config w = (t, w', Val a) -> follows w ->
  follows w' /\ m_locked (w_cm w') = m_locked (w_cm w) /\ m_listeners (w_cm w') = m_listeners (w_cm w) /\ m_id (w_cm w') = m_id (w_cm w) /\ mono w w'.
Proof.
  intros E F. assert (H : high w w') by (eapply poll_high; [apply connect_high|intros; apply config_low|exact E|discriminate]).
  destruct H as (A & B & C & D & G). auto.
Qed.
Lemma needed_new c mr w : m_listeners (w_cm w) <> [] ->
  client_needed (put_cm (fun m => cmset_client false (cmset_retries mr (cmset_proto (Some c) m))) w) = true.
Proof. intros L. unfold client_needed. cbn. destruct (m_listeners (w_cm w)); [congruence|reflexivity]. Qed.
Lemma locked_connect n x w t w' : async_connect n x w = (t, w', Val true) -> m_locked (w_cm w) = true -> m_listeners (w_cm w) <> [] -> follows w ->
  (is_connected w = true /\ w' = w /\ t = []) \/ is_connected w' = false.
Proof.
  intros E L Ls F. destruct n as [|n]; [discriminate|]. destruct (is_connected w) eqn:U.
  - left. rewrite connect_up in E by exact U. injection E as <- <-. auto.
  - right. apply connect_val in E; [|exact F|exact U].
    destruct E as [(_ & X)|(c & mac & ip & port & mr & t1 & w1 & t2 & w2 & E1 & Q & F2 & Lk & Ll & _ & _ & _ & [(X & _)|(_ & t3 & w3 & t4 & c3 & E3 & P3 & E4 & ->)])]; try discriminate.
    destruct (poll_cm _ _ _ _ _ E3 F2) as (F3 & Lk3 & Ll3 & _).
    unfold attach in E4. rewrite bind_put, bind_get, needed_new in E4 by congruence. rewrite bind_put, bind_put in E4.
    match type of E4 with subscribe_gateway _ ?v = _ => set (w4 := v) in E4 end.
    assert (C4 : low (put_cm (fun m => cmset_client false (cmset_retries (w_retries w3) (cmset_proto (Some c3) m))) w3) w4).
    { unfold w4. eapply low_trans; [|apply fold_register_low]. unfold unregister_all. apply low_upd. intros k; cbn; auto. }
    destruct C4 as (P4 & M4 & _). cbn [put_cm set_cm w_proto w_cm] in P4, M4.
    unfold subscribe_gateway in E4. rewrite bind_get in E4. destruct (attached w4) eqn:At; cbn [negb] in E4.
    + exfalso. unfold with_lock in E4. rewrite bind_get in E4. rewrite M4 in E4. cbn [cmset_client cmset_retries cmset_proto m_locked] in E4.
      rewrite Lk3, Lk, L in E4. discriminate.
    + injection E4 as _ <-. unfold is_connected. rewrite P4, P3. unfold attached in At. rewrite M4 in At. exact At.
Qed.
Lemma locked_connected {A} n (method : Z -> nat -> M A) delay w t w' a : (forall mr c, Rel low (method mr c)) ->
  connected_request (async_connect n no_args) method delay w = (t, w', Val a) ->
  m_locked (w_cm w) = true -> m_listeners (w_cm w) <> [] -> follows w -> is_connected w' = true ->
  exists c, w_proto w = Some c /\ connected c w = true /\ method (w_retries w) c w = (t, w', Val a).
Proof.
  intros Q E L Ls F U'.
  assert (At : forall w t w' mr, follows w -> m_locked (w_cm w) = true -> m_listeners (w_cm w) <> [] -> is_connected w' = true ->
    attempt_request (async_connect n no_args) method mr w = (t, w', Val a) -> exists c, w_proto w = Some c /\ connected c w = true /\ method mr c w = (t, w', Val a)).
  { clear - Q. intros w t w' mr F L Ls U' E. unfold attempt_request in E. apply bind_inv in E.
    destruct E as [(t1 & w1 & b & t2 & E1 & E2 & ->)|[(e & E1 & X)|(y & E1 & X)]]; try discriminate.
    destruct b; cbn [negb] in E2; [|discriminate]. assert (F1 : follows w1) by (eapply connect_high; [exact E1|discriminate|exact F]).
    apply locked_connect in E1; auto. unfold proto_or_fail in E2. rewrite bind_assoc, bind_get in E2. destruct (w_proto w1) as [c|] eqn:P; [|discriminate].
    rewrite bind_ret in E2. destruct E1 as [(U & -> & ->)|D].
    - exists c. split; [exact P|]. split; [unfold is_connected in U; rewrite P in U; exact U|exact E2].
    - exfalso. assert (K : is_connected w' = false) by (eapply low_down; [exact F1|eapply Q; [exact E2|discriminate]|exact D]). congruence. }
  unfold connected_request in E. rewrite bind_get in E. unfold mcatch in E.
  destruct (attempt_request (async_connect n no_args) method (w_retries w) w) as [[t1 w1] [b|e|y]] eqn:E1; [|destruct (is_comm_error e); [|discriminate]|discriminate].
  - injection E as <- <- ->. eapply At; eassumption.
  - exfalso. assert (H1 : high w w1) by (eapply (attempt_high (async_connect n no_args) (connect_high n no_args) method); [exact Q|exact E1|discriminate]).
    match type of E with (let '(_, _) := ?m ?v in _) = _ => destruct (m v) as [[s2 v2] o2] eqn:E2 end. injection E as _ -> ->.
    apply bind_inv in E2. destruct E2 as [(s3 & v3 & a3 & s4 & G1 & G2 & ->)|[(e3 & G1 & X)|(z3 & G1 & X)]]; try discriminate.
    assert (H3 : high w1 v3) by (apply mid_high; eapply disconnect_mid; [exact G1|discriminate]).
    apply disconnect_down in G1.
    apply bind_inv in G2. destruct G2 as [(s5 & v5 & a5 & s6 & K1 & K2 & ->)|[(e3 & K1 & X)|(z3 & K1 & X)]]; try discriminate.
    assert (L5 : low v3 v5) by (eapply sleep_low; [exact K1|discriminate]).
    pose proof (high_trans _ _ _ (high_trans _ _ _ H1 H3) (low_high _ _ L5)) as (B1 & B2 & _ & _ & B3).
    apply At in K2; [|auto|congruence|congruence|exact U']. destruct K2 as (c & P & C & _).
    assert (F3 : follows v3) by (apply H3, H1, F).
    pose proof (low_down _ _ F3 L5 G1) as D. unfold is_connected in D. rewrite P in D. congruence.
Qed.

(** the table of handlers made from the codes *)
Lemma hset_in k h d x y : (In (x, y) (hset k h d) -> (x = k /\ y = h) \/ In (x, y) d) .
Proof.
  induction d as [|[k' v'] d IH]; cbn [hset].
  - intros [E|[]]. injection E as <- <-. auto.
  - destruct (Z.eqb_spec k k') as [->|].
    + intros [E|I]; [injection E as <- <-; auto|right; right; exact I].
    + intros [E|I]; [right; left; exact E|]. apply IH in I. destruct I as [I|I]; [auto|right; right; exact I].
Qed.
Lemma hset_here k h d : In (k, h) (hset k h d).
Proof. induction d as [|[k' v'] d IH]; cbn [hset]; [left; reflexivity|]. destruct (Z.eqb_spec k k') as [->|]; [left; reflexivity|right; exact IH]. Qed.
Lemma hset_other k h d x y : x <> k -> In (x, y) d -> In (x, y) (hset k h d).
Proof.
  intros N. induction d as [|[k' v'] d IH]; intros I; [destruct I|]. cbn [hset]. destruct (Z.eqb_spec k k') as [->|].
  - destruct I as [E|I]; [injection E as -> ->; congruence|right; exact I].
  - destruct I as [E|I]; [left; exact E|right; apply IH, I].
Qed.
Lemma table_of codes : forall d, (forall x y, In (x, y) d -> y = HClient x) ->
  forall x y, In (x, y) (fold_left (fun d code => hset code (HClient code) d) codes d) <-> y = HClient x /\ (In x codes \/ In (x, y) d).
Proof.
  induction codes as [|k codes IH]; intros d H x y; cbn [fold_left]; [cbn; split; [intros I; split; [apply (H x y), I|auto]|intros [_ [[]|I]]; exact I]|].
  rewrite IH. 2: { intros a b I. apply hset_in in I. destruct I as [[-> ->]|I]; [reflexivity|apply H, I]. }
  cbn [In]. split.
  - intros [-> [I|I]]; split; auto. apply hset_in in I. destruct I as [[-> _]|I]; auto.
  - intros [-> [[->|I]|I]]; split; auto; [right; apply hset_here|]. destruct (Z.eq_dec x k) as [->|N]; [right; apply hset_here|].
    right. apply hset_other; assumption.
Qed.

(** ** adding a client: an answer means it was sent *)
Lemma lrun_sent c code p mr n a w t w' b : lrun c code p mr n a w t w' (Val (Some b)) ->
  fine w -> w_proto w = Some c -> In (Send c code p) t.
Proof.
  intros R H P. inversion R; subst.
  - match goal with K : connected c w = true |- _ => destruct (H c P K) as [_ O] end. unfold sent. rewrite O. left. reflexivity.
  - destruct (r_kind r2); try contradiction; discriminate.
  - match goal with K : connected c w = true |- _ => destruct (H c P K) as [_ O] end. unfold sent. rewrite O. left. reflexivity.
Qed.
Lemma add_sent id mr c w t w' : request_add_client id mr c w = (t, w', Val tt) -> fine w -> w_proto w = Some c ->
  is_u32 id /\ In (Send c 12522 (u32le 0 ++ u32le id)) t.
Proof.
  unfold request_add_client, command_request. intros E H P. destruct (pack_Is [VInt 0; VInt id]) as [p|e] eqn:Pk; cbn [mlift] in E; [|discriminate].
  rewrite bind_ret in E. apply bind_inv in E. destruct E as [(t1 & w1 & a & t2 & E1 & E2 & ->)|[(e & E1 & X)|(y & E1 & X)]]; try discriminate.
  destruct a as [b|]; [|discriminate]. apply request_run in E1. pose proof (lrun_sent _ _ _ _ _ _ _ _ _ _ E1 H P) as I.
  assert (Q : is_u32 id /\ p = u32le 0 ++ u32le id).
  { destruct (pack_Is_inv _ _ Pk) as (zs & Ez & Fz & ->). destruct zs as [|z0 [|z1 [|z2 zs]]]; try discriminate. injection Ez as <- <-.
    inversion Fz as [|? ? _ Fz1]; subst. inversion Fz1; subst. split; [assumption|]. cbn [map List.concat]. rewrite app_nil_r. reflexivity. }
  destruct Q as [Q ->]. split; [exact Q|]. apply in_or_app. left. exact I.
Qed.

(** ** attaching *)
Lemma attach_served n c mr w t w' a : attach (async_connect n no_args) c mr w = (t, w', Val a) ->
  w_proto w = Some c -> follows w -> fine w -> m_locked (w_cm w) = false -> m_listeners (w_cm w) <> [] -> is_connected w' = true ->
  w_proto w' = Some c /\ is_client w' = true /\ c_keepalive (get_conn c w') = true /\
  (forall x y, In (x, y) (c_handlers (get_conn c w')) <-> y = HClient x /\ In x (map fst (m_listeners (w_cm w)))) /\
  is_u32 (m_id (w_cm w)) /\ In (Send c 12522 (u32le 0 ++ u32le (m_id (w_cm w)))) t.
Proof.
  intros E P F H L Ls U. unfold attach in E. rewrite bind_put, bind_get, needed_new in E by exact Ls. rewrite bind_put, bind_put in E.
  pose proof (attach_follows c mr w P F) as F0.
  set (w0 := put_cm _ w) in *. assert (H0 : fine w0) by exact H.
  match type of E with subscribe_gateway _ ?v = _ => set (w1 := v) in E end.
  assert (Lc : (c < List.length (w_conns w))%nat) by (apply F, P).
  assert (L1 : low w0 w1).
  { unfold w1. eapply low_trans; [|apply fold_register_low]. unfold unregister_all. apply low_upd. intros k; cbn; auto. }
  assert (H1 : fine w1).
  { unfold w1. apply fold_fine, upd_fine; [intros k; cbn; auto..|exact H0]. }
  assert (F1 : follows w1) by (eapply low_high; eassumption).
  assert (G1 : forall x y, In (x, y) (c_handlers (get_conn c w1)) <-> y = HClient x /\ In x (map fst (m_listeners (w_cm w)))).
  { assert (Lu : (c < List.length (w_conns (unregister_all c w0)))%nat) by (unfold unregister_all, upd_conn; cbn [set_conns w_conns]; rewrite lset_length; exact Lc).
    pose proof (fold_register_get c (map fst (m_listeners (w_cm (unregister_all c w0)))) _ Lu) as [_ G]. cbv zeta in G. fold w1 in G.
    rewrite G. cbn [c_handlers]. intros x y. unfold unregister_all at 2. rewrite get_upd, Nat.eqb_refl. cbn [andb].
    change (List.length (w_conns w0)) with (List.length (w_conns w)). apply Nat.ltb_lt in Lc. rewrite Lc. cbn [c_handlers].
    rewrite table_of by (intros ? ? []). change (m_listeners (w_cm (unregister_all c w0))) with (m_listeners (w_cm w)). cbn [In]. tauto. }
  clearbody w1. destruct L1 as (P1 & M1 & K1). cbn [put_cm set_cm w_proto w_cm w0] in P1, M1.
  unfold subscribe_gateway in E. rewrite bind_get in E. destruct (attached w1) eqn:At; cbn [negb] in E.
  2: { exfalso. injection E as _ <- _. unfold attached in At. rewrite M1 in At. cbn [cmset_client cmset_retries cmset_proto m_proto] in At.
       unfold is_connected in U. rewrite P1, P in U. congruence. }
  unfold with_lock in E. rewrite bind_get in E. rewrite M1 in E. cbn [cmset_client cmset_retries cmset_proto m_locked] in E. rewrite L, bind_put in E.
  unfold mfinally in E. set (w2 := put_cm (cmset_locked true) w1) in E.
  assert (Ic : is_client w2 = false) by (unfold is_client, w2; cbn [put_cm set_cm w_cm cmset_locked m_is_client]; rewrite M1; reflexivity).
  rewrite bind_get, Ic in E. cbn [negb] in E. rewrite bind_get in E.
  match type of E with (let '(_, _) := ?m ?v in _) = _ => destruct (m v) as [[s2 v2] [x|e|y]] eqn:E2 end; [|discriminate..].
  injection E as <- <- _. apply bind_inv in E2.
  destruct E2 as [(s3 & v3 & a3 & s4 & G3 & G4 & ->)|[(e3 & G3 & X)|(z3 & G3 & X)]]; try discriminate.
  rewrite bind_put in G4. unfold m_proto_or_fail in G4. rewrite bind_assoc, bind_get in G4.
  set (v3' := put_cm (cmset_client true) v3) in G4. destruct (m_proto (w_cm v3')) as [c'|] eqn:P3; [|discriminate].
  rewrite bind_ret in G4. injection G4 as <- <- _.
  assert (U3 : is_connected v3 = true).
  { revert U. unfold is_connected. cbn [put_cm set_cm w_proto keepalive upd_conn set_conns]. change (w_proto v3') with (w_proto v3). destruct (w_proto v3) as [k|]; [|auto].
    unfold connected. change (get_conn k (put_cm (cmset_locked false) (keepalive true c' v3'))) with (get_conn k (keepalive true c' v3')). unfold keepalive. rewrite get_upd.
    destruct (Nat.eqb_spec k c') as [->|]; cbn [andb]; [destruct (Nat.ltb c' (List.length (w_conns v3'))); auto|auto]. }
  assert (F2 : follows w2) by (apply follows_cm; [reflexivity|exact F1]).
  apply locked_connected in G3; [|intros; apply add_low|reflexivity|unfold w2; cbn [put_cm set_cm w_cm cmset_locked m_listeners]; rewrite M1; exact Ls|exact F2|exact U3].
  destruct G3 as (k & Pk & Ck & G3). change (w_proto w2) with (w_proto w1) in Pk. rewrite P1, P in Pk. injection Pk as <-.
  destruct a3.
  assert (Q3 : quiet w2 v3) by (eapply command_quiet; [exact G3|discriminate]).
  apply add_sent in G3; [|exact H1|change (w_proto w2) with (w_proto w1); congruence].
  destruct Q3 as [(A1 & A2 & A3) Q3]. change (w_proto w2) with (w_proto w1) in A1.
  assert (C3 : connected c v3 = true) by (unfold is_connected in U3; rewrite A1, P1, P in U3; exact U3).
  assert (Lc1 : (c < List.length (w_conns w1))%nat) by (apply F1; congruence).
  pose proof (Q3 c Lc1 C3) as G. change (get_conn c w2) with (get_conn c w1) in G.
  assert (Mp : m_proto (w_cm v3) = Some c) by (rewrite A2; unfold w2; cbn [put_cm set_cm w_cm cmset_locked m_proto]; rewrite M1; reflexivity).
  assert (c' = c) by (unfold v3' in P3; cbn [put_cm set_cm w_cm cmset_client m_proto] in P3; congruence). subst c'.
  assert (Gc : get_conn c (put_cm (cmset_locked false) (keepalive true c v3')) = let q := get_conn c v3 in mkConn (c_connected q) (c_closing q) (c_open q) (c_handlers q) true).
  { change (get_conn c (put_cm (cmset_locked false) (keepalive true c v3'))) with (get_conn c (keepalive true c v3')). unfold keepalive. rewrite get_upd, Nat.eqb_refl.
    assert (Z : (c < List.length (w_conns v3'))%nat) by (apply connected_in; exact C3). apply Nat.ltb_lt in Z. rewrite Z. reflexivity. }
  rewrite Gc. cbn [c_keepalive c_handlers]. rewrite G.
  split; [cbn [put_cm set_cm w_proto keepalive upd_conn set_conns]; change (w_proto v3') with (w_proto v3); congruence|].
  split; [unfold is_client, attached; cbn [put_cm set_cm w_cm keepalive upd_conn set_conns v3' cmset_locked cmset_client m_is_client m_proto andb];
          unfold v3' in P3; cbn [put_cm set_cm w_cm cmset_client m_proto] in P3; rewrite P3; unfold connected; rewrite Gc; exact C3|].
  split; [reflexivity|]. split; [exact G1|].
  unfold w2 in G3. cbn [put_cm set_cm w_cm cmset_locked m_id] in G3. rewrite M1 in G3. cbn [cmset_client cmset_retries cmset_proto m_id] in G3.
  split; [apply G3|]. apply in_or_app. left. apply G3.
Qed.

(** the gateway's connection stays the same or is a new one *)
Definition fresh (w w' : world) : Prop :=
  (List.length (w_conns w) <= List.length (w_conns w'))%nat /\
  (w_proto w' = w_proto w \/ exists c, w_proto w' = Some c /\ (List.length (w_conns w) <= c)%nat).
Lemma fresh_refl w : fresh w w. Proof. split; auto. Qed.
Lemma fresh_trans a b c : fresh a b -> fresh b c -> fresh a c.
Proof.
  intros [A1 A2] [B1 B2]. split; [lia|]. destruct B2 as [B2|(k & B2 & B3)]; [|right; exists k; split; [exact B2|lia]].
  rewrite B2. exact A2.
Qed.
Lemma low_fresh a b : low a b -> fresh a b. Proof. intros (A & _ & B & _). split; auto. Qed.
Lemma mid_fresh a b : mid a b -> fresh a b. Proof. intros (A & _ & _ & _ & _ & B & _). split; auto. Qed.
Lemma same_fresh a b : w_proto b = w_proto a -> w_conns b = w_conns a -> fresh a b. Proof. intros A B. split; [rewrite B|]; auto. Qed.
Ltac fresh1 := lazymatch goal with
  | |- Rel fresh (mbind _ _) => apply rel_bind; [apply fresh_trans| |intros ?]
  | |- Rel fresh (mret _) => apply rel_ret, fresh_refl
  | |- Rel fresh (mraise _) => apply rel_raise, fresh_refl
  | |- Rel fresh (mstuck _) => apply rel_stuck, fresh_refl
  | |- Rel fresh (mget _) => apply rel_get, fresh_refl
  | |- Rel fresh (if _ then _ else _) => apply rel_if
  | |- Rel fresh (msleep _) => eapply rel_weak; [apply low_fresh|apply sleep_low]
  | |- Rel fresh m_proto_or_fail => eapply rel_weak; [apply mid_fresh|apply mproto_mid]
  | |- Rel fresh proto_or_fail => eapply rel_weak; [apply mid_fresh|apply proto_mid]
  | |- Rel fresh (async_disconnect _) => eapply rel_weak; [apply mid_fresh|apply disconnect_mid]
  | |- Rel fresh (connect_to_gateway _ _ _) => eapply rel_weak; [apply low_fresh|apply connect_to_low]
  | |- Rel fresh (request_gateway_version _ _) => eapply rel_weak; [apply low_fresh|apply version_low]
  | |- Rel fresh (mput (put_cm _)) => apply rel_put; intros; apply same_fresh; reflexivity
  | |- Rel fresh (mput (keepalive _ _)) => apply rel_put; intros; apply low_fresh, low_upd; intros ?; cbn; auto
  | |- Rel fresh (mput (unregister_all _)) => apply rel_put; intros; apply low_fresh, low_upd; intros ?; cbn; auto
  | |- Rel fresh (mput (store_args _)) => apply rel_put; intros; apply same_fresh; reflexivity
  end.
Section Fresh.
Variable connect : M bool.
Hypothesis Hc : Rel fresh connect.
Lemma fresh_attempt {A} (method : Z -> nat -> M A) mr : (forall mr c, Rel low (method mr c)) -> Rel fresh (attempt_request connect method mr).
Proof.
  intros K. unfold attempt_request. fresh1; [exact Hc|]. apply rel_if; [fresh1|]. fresh1; [fresh1|]. eapply rel_weak; [apply low_fresh|apply K].
Qed.
Lemma fresh_connected {A} (method : Z -> nat -> M A) delay : (forall mr c, Rel low (method mr c)) -> Rel fresh (connected_request connect method delay).
Proof.
  intros K. unfold connected_request. fresh1; [fresh1|]. apply rel_catch; [apply fresh_trans|apply fresh_attempt, K|]. intros e.
  fresh1; [fresh1|]. fresh1; [fresh1|]. apply fresh_attempt, K.
Qed.
Lemma fresh_subscribe : Rel fresh (subscribe_gateway connect).
Proof.
  unfold subscribe_gateway. fresh1; [fresh1|]. apply rel_if; [fresh1|]. intros w t w' o. apply with_lock_rel; [intros v v' H _; exact H|].
  fresh1; [fresh1|]. apply rel_if; [|fresh1]. fresh1; [fresh1|]. fresh1; [apply fresh_connected; intros; apply add_low|].
  fresh1; [fresh1|]. fresh1; [fresh1|]. fresh1.
Qed.
Lemma fresh_attach c mr : Rel fresh (attach connect c mr).
Proof.
  unfold attach. fresh1; [fresh1|]. fresh1; [fresh1|]. apply rel_if; [|fresh1]. fresh1; [fresh1|].
  fresh1; [apply rel_put; intros; apply low_fresh, fold_register_low|]. apply fresh_subscribe.
Qed.
Lemma fresh_poll k (method : Z -> nat -> M (option bytes)) : (forall mr c, Rel low (method mr c)) -> Rel fresh (poll connect k method).
Proof.
  intros K. unfold poll. fresh1; [apply fresh_connected, K|]. destruct a; [apply rel_put; intros; apply same_fresh; reflexivity|fresh1].
Qed.
End Fresh.
Lemma connect_fresh n : forall x, Rel fresh (async_connect n x).
Proof.
  induction n as [|n IH]; intros x; [apply rel_stuck, fresh_refl|]. cbn [async_connect]. fresh1; [fresh1|]. apply rel_if; [fresh1|].
  fresh1; [fresh1|]. fresh1; [fresh1|]. apply rel_if; [fresh1|]. fresh1; [fresh1|]. fresh1; [fresh1|]. fresh1; [fresh1|].
  intros w t w' o E N. apply bind_inv in E. destruct E as [(t1 & w1 & p & t2 & E1 & E2 & ->)|[(e & E1 & ->)|(y & E1 & ->)]].
  2: { apply low_fresh. eapply connect_to_low; [exact E1|discriminate]. }
  2: { exfalso. apply (N y). reflexivity. }
  assert (L1 : fresh w w1) by (apply low_fresh; eapply connect_to_low; [exact E1|discriminate]).
  destruct p as [[c mac]|]; [|injection E2 as _ <- _; exact L1].
  destruct (connect_to_index _ _ _ _ _ _ _ _ E1) as [Ci Cl]. rewrite bind_put in E2.
  apply (fresh_trans _ (store_connection c mac w1)).
  { destruct L1 as [L1 _]. split; [exact L1|]. right. exists c. split; [reflexivity|lia]. }
  revert E2 N. generalize (store_connection c mac w1) as v. intros v E2 N.
  assert (K : forall m : M bool, Rel fresh m -> m v = (t2, w', o) -> fresh v w') by (intros m Hm Em; eapply Hm; [exact Em|exact N]).
  eapply K; [|exact E2]. clear -IH. fresh1; [fresh1|]. fresh1; [fresh1|]. fresh1; [apply rel_put; intros; apply same_fresh; reflexivity|].
  fresh1; [fresh1|]. apply rel_if; [|fresh1]. fresh1; [apply fresh_poll; [apply IH|intros; apply config_low]|]. fresh1; [fresh1|]. fresh1; [fresh1|].
  fresh1; [apply fresh_attach, IH|fresh1].
Qed.

Lemma connect_served n x w t w' : async_connect n x w = (t, w', Val true) -> follows w -> m_locked (w_cm w) = false ->
  is_connected w = false -> m_listeners (w_cm w) <> [] -> is_connected w' = true ->
  exists c, w_proto w' = Some c /\ (List.length (w_conns w) <= c)%nat /\ is_client w' = true /\ c_keepalive (get_conn c w') = true /\
  (forall x y, In (x, y) (c_handlers (get_conn c w')) <-> y = HClient x /\ In x (map fst (m_listeners (w_cm w)))) /\
  In (Send c 12522 (u32le 0 ++ u32le (m_id (w_cm w)))) t.
Proof.
  intros E F L U Ls U'. destruct n as [|n]; [discriminate|]. apply connect_val in E; [|exact F|exact U].
  destruct E as [(_ & X)|(c & mac & ip & port & mr & t1 & w1 & t2 & w2 & E1 & Q & F2 & Lk & Ll & Li & M2 & Cl & [(X & _)|(_ & t3 & w3 & t4 & c3 & E3 & P3 & E4 & ->)])]; try discriminate.
  destruct (poll_cm _ _ _ _ _ E3 F2) as (F3 & Lk3 & Ll3 & Li3 & M3).
  assert (H2 : fine w2).
  { intros k P C. destruct Q as [(Qp & _ & Ql & _) Q]. destruct (connect_to_index _ _ _ _ _ _ _ _ E1) as [_ Cl1].
    rewrite Qp in P. cbn [store_connection set_proto set_addr w_proto] in P. injection P as <-.
    pose proof (Q c Cl1 C) as G. assert (N : get_conn c w1 = new_conn).
    { eapply connect_to_new; [exact E1|]. unfold connected in *. rewrite G in C. exact C. }
    rewrite G. change (get_conn c (store_connection c mac w1)) with (get_conn c w1). rewrite N. auto. }
  assert (H3 : fine w3) by (eapply poll_fine; [apply connect_high|apply connect_fine|intros; apply dreq_quiet|exact F2|exact H2|exact E3]).
  assert (A : high w3 w') by (eapply (attach_high (async_connect n no_args) (connect_high n no_args)); [exact P3|exact E4|discriminate]).
  apply attach_served in E4; [|exact P3|exact F3|exact H3|congruence|congruence|exact U'].
  destruct E4 as (B1 & B2 & B3 & B4 & _ & B5). exists c3. rewrite Ll3, Ll in B4. rewrite Li3, Li in B5.
  split; [exact B1|]. split; [|split; [exact B2|split; [exact B3|split; [exact B4|]]]].
  - destruct (Nat.le_gt_cases (List.length (w_conns w)) c3) as [Z|Z]; [exact Z|]. exfalso.
    assert (Fr : fresh w2 w3) by (eapply fresh_poll; [apply connect_fresh|intros; apply config_low|exact E3|discriminate]).
    destruct Fr as [Fl [Fr|(k & Fr & Kl)]].
    + destruct Q as [(Qp & _) _]. cbn [store_connection set_proto set_addr w_proto] in Qp. rewrite Fr, Qp in P3. injection P3 as <-. lia.
    + rewrite Fr in P3. injection P3 as <-. destruct M2 as [M2 _]. lia.
  - apply in_or_app. right. apply in_or_app. right. apply in_or_app. right. exact B5.
Qed.
