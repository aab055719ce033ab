From Verif Require Import Py F64 Struct Utf Utility Const Spec Enum Decode World Request Gateway Traces Paths Api Hostile P_Base P_Util P_Monad P_Request P_Sat P_Paths P_Gw1 P_Gw6 P_Gw7 P_Calm P_Gw8 P_Gw9 P_Gw10.
Open Scope m_scope.

Definition hw (mac : pystr) (d l : dict) (cs : list conn) (p : option nat) (env : list resp) : world :=
  mkW (mkAddr (Some (u "10.0.0.9")) 80 0 0 (u "Unnamed-Screenlogic-Gateway") mac) None p d l COM_MAX_RETRIES
      (mkCM None [] false COM_MAX_RETRIES 777 false) cs env clock0 its_host.
Definition dD : dict := fst (decode_version (h_float its_host) version_reply []).
Definition dL : dict := [(K_VERSION, VBytes version_reply)].
Definition mC : pystr := u "mac!".

Lemma hw_get mac d l cs k p env : get_conn (List.length cs) (hw mac d l (cs ++ [k]) p env) = k.
Proof. unfold get_conn, hw. cbn [w_conns]. rewrite app_nth2, Nat.sub_diag by lia. reflexivity. Qed.
Lemma lset_last {A} (cs : list A) k x : lset (List.length cs) x (cs ++ [k]) = cs ++ [x].
Proof. induction cs as [|c cs IH]; cbn; [reflexivity|]. rewrite IH. reflexivity. Qed.
Lemma hw_upd mac d l cs k p env f : upd_conn (List.length cs) f (hw mac d l (cs ++ [k]) p env) = hw mac d l (cs ++ [f k]) p env.
Proof. unfold upd_conn. rewrite hw_get. unfold set_conns, hw. cbn. rewrite lset_last. reflexivity. Qed.
Lemma hw_connected mac d l cs k p env : connected (List.length cs) (hw mac d l (cs ++ [k]) p env) = c_connected k.
Proof. unfold connected. rewrite hw_get. reflexivity. Qed.
Lemma hw_calm mac d l cs p k env rest : interfere (says_then k []) (set_env rest (hw mac d l cs p env)) = ([], hw mac d l cs p rest).
Proof. reflexivity. Qed.
Lemma hw_ask mac d l cs p k rest e : ask e nopre (hw mac d l cs p (says_then k [] :: rest)) = ([e; Got (says_then k [])], hw mac d l cs p rest, Val (says_then k [])).
Proof. reflexivity. Qed.
Lemma hw_sleep mac d l cs p rest ms : msleep ms (hw mac d l cs p (says_then KDone [] :: rest)) = ([Sleep ms; Got (says_then KDone [])], hw mac d l cs p rest, Val tt).
Proof. unfold msleep. rewrite (bind_val _ _ _ _ _ _ (hw_ask mac d l cs p KDone rest (Sleep ms))). reflexivity. Qed.
Lemma hw_request mac d l cs p rest X b code : (exists m, makeMessage 0 X b = Ok m) -> forall rb, code = X + 1 ->
  make_request (List.length cs) X b COM_MAX_RETRIES (hw mac d l (cs ++ [new_conn]) p (says_then (KReply code rb) [] :: rest)) =
  ([Send (List.length cs) X b; AwaitReply (List.length cs) 2000; Got (says_then (KReply code rb) [])], hw mac d l (cs ++ [new_conn]) p rest, Val (Some rb)).
Proof.
  intros K rb ->. eapply request_answered; try exact K; try reflexivity.
  - vm_compute. discriminate.
  - rewrite hw_connected. reflexivity.
  - rewrite hw_get. reflexivity.
  - rewrite hw_get. reflexivity.
Qed.

Lemma u16_14 : is_u16 14. Proof. unfold is_u16. lia. Qed.
Lemma u16_27 : is_u16 27. Proof. unfold is_u16. lia. Qed.
Lemma u16_8120 : is_u16 8120. Proof. unfold is_u16. lia. Qed.
Lemma u16_12532 : is_u16 12532. Proof. unfold is_u16. lia. Qed.

(** opening and logging in *)
Lemma hw_open mac d l cs p rest : exists t,
  connect_to_gateway (Some (u "10.0.0.9")) 80 COM_MAX_RETRIES
    (hw mac d l cs p ([says_then KDone []; says_then KDone []; says_then (KReply 15 mac_reply) []; says_then (KReply 28 []) []] ++ rest))
  = (t, hw mac d l (cs ++ [new_conn]) p rest, Val (Some (List.length cs, mC))) /\ (1 <= granted t)%nat.
Proof.
  assert (E : exists t, connect_to_gateway (Some (u "10.0.0.9")) 80 COM_MAX_RETRIES
    (hw mac d l cs p ([says_then KDone []; says_then KDone []; says_then (KReply 15 mac_reply) []; says_then (KReply 28 []) []] ++ rest))
    = (t, hw mac d l (cs ++ [new_conn]) p rest, Val (Some (List.length cs, mC)))).
  { cbn [app].
    assert (E3 : exists t3, gateway_login (List.length cs) COM_MAX_RETRIES (hw mac d l (cs ++ [new_conn]) p (says_then (KReply 28 []) [] :: rest))
      = (t3, hw mac d l (cs ++ [new_conn]) p rest, Val true)).
    { unfold gateway_login. destruct create_login_message as [m|] eqn:Cm; [|exfalso; vm_compute in Cm; discriminate].
      cbn [mlift]. eexists. rewrite bind_ret.
      assert (Mm : exists mm, makeMessage 0 CODE_LOCALLOGIN_QUERY m = Ok mm).
      { apply small_message; [exact u16_27|]. vm_compute in Cm. injection Cm as <-. reflexivity. }
      rewrite (bind_val _ _ _ _ _ _ (hw_request mac d l cs p _ CODE_LOCALLOGIN_QUERY m 28 Mm [] eq_refl)). reflexivity. }
    destruct E3 as (t3 & E3). eexists. unfold connect_to_gateway.
    assert (E1 : create_connection (Some (u "10.0.0.9")) 80 (hw mac d l cs p (says_then KDone [] :: says_then KDone [] :: says_then (KReply 15 mac_reply) [] :: says_then (KReply 28 []) [] :: rest))
      = ([Open (Some (u "10.0.0.9")) 80 2000; Got (says_then KDone [])], hw mac d l (cs ++ [new_conn]) p (says_then KDone [] :: says_then (KReply 15 mac_reply) [] :: says_then (KReply 28 []) [] :: rest), Val (List.length cs))) by reflexivity.
    rewrite (bind_val _ _ _ _ _ _ E1).
    assert (E2 : gateway_connect (List.length cs) COM_MAX_RETRIES (hw mac d l (cs ++ [new_conn]) p (says_then KDone [] :: says_then (KReply 15 mac_reply) [] :: says_then (KReply 28 []) [] :: rest))
      = (Raw (List.length cs) CONNECT_STRING :: [Sleep 250; Got (says_then KDone [])] ++ [Send (List.length cs) 14 []; AwaitReply (List.length cs) 2000; Got (says_then (KReply 15 mac_reply) [])],
         hw mac d l (cs ++ [new_conn]) p (says_then (KReply 28 []) [] :: rest), Val mC)).
    { unfold gateway_connect. rewrite bind_get, hw_get. cbn [new_conn c_open]. rewrite bind_emit.
      rewrite (bind_val _ _ _ _ _ _ (hw_sleep mac d l (cs ++ [new_conn]) p _ 250)). rewrite bind_get, hw_connected. cbn [new_conn c_connected negb].
      rewrite (bind_val _ _ _ _ _ _ (hw_request mac d l cs p _ CODE_CHALLENGE_QUERY [] 15 (small_message CODE_CHALLENGE_QUERY [] u16_14 eq_refl) mac_reply eq_refl)).
      change (decodeMessageString mac_reply) with (Ok mC). reflexivity. }
    rewrite (bind_val _ _ _ _ _ _ E2).
    rewrite (bind_val _ _ _ _ _ _ E3). reflexivity. }
  destruct E as (t & E). exists t. split; [exact E|]. eapply connect_to_granted; exact E.
Qed.

(** the rest of one level: the version is read, the configuration request loses the
    connection, and the next level begins *)
Lemma dD_again : fst (decode_version (h_float its_host) version_reply dD) = dD /\ snd (decode_version (h_float its_host) version_reply dD) = Ok tt.
Proof. split; vm_compute; reflexivity. Qed.
Lemma dD_first : fst (decode_version (h_float its_host) version_reply []) = dD /\ snd (decode_version (h_float its_host) version_reply []) = Ok tt.
Proof. split; vm_compute; reflexivity. Qed.
Lemma hw_version mac d l cs p rest : (d = [] \/ d = dD) ->
  request_gateway_version COM_MAX_RETRIES (List.length cs) (hw mac d l (cs ++ [new_conn]) p (says_then (KReply 8121 version_reply) [] :: rest)) =
  ([Send (List.length cs) 8120 []; AwaitReply (List.length cs) 2000; Got (says_then (KReply 8121 version_reply) [])], hw mac dD l (cs ++ [new_conn]) p rest, Val (Some version_reply)).
Proof.
  intros Hd. unfold request_gateway_version. rewrite bind_get. unfold data_request.
  rewrite (bind_val _ _ _ _ _ _ (hw_request mac d l cs p rest CODE_VERSION_QUERY [] 8121 (small_message CODE_VERSION_QUERY [] u16_8120 eq_refl) version_reply eq_refl)).
  change (nonempty (Some version_reply)) with (Some version_reply). unfold mdecode, mbind. cbn [hw w_data w_host].
  assert (D : decode_version (h_float its_host) version_reply d = (dD, Ok tt)).
  { destruct Hd as [->| ->]; [pose proof dD_first as (A & B)|pose proof dD_again as (A & B)]; rewrite (surjective_pairing (decode_version _ _ _)); rewrite A, B; reflexivity. }
  rewrite D. reflexivity.
Qed.
Lemma dD_truthy : truthy (version dD) = true. Proof. vm_compute. reflexivity. Qed.

Definition dying : conn := mkConn false true false [] false.
Lemma hw_next n cs rest :
  connected_request (async_connect (S n) no_args) request_pool_config 1
    (hw mC dD dL (cs ++ [new_conn]) (Some (List.length cs)) (says_then KCancelFut [List.length cs] :: says_then KDone [] :: says_then KDone [] :: rest)) =
  let '(t, w', o) := attempt_request (async_connect (S n) no_args) request_pool_config COM_MAX_RETRIES (hw mC dD dL (cs ++ [dying]) (Some (List.length cs)) rest) in
  ([Send (List.length cs) 12532 (le_enc 4 0 ++ le_enc 4 0); AwaitReply (List.length cs) 2000; Got (says_then KCancelFut [List.length cs]); Lost (List.length cs)]
    ++ [AwaitFutures (List.length cs) true; Got (says_then KDone [])] ++ [Sleep 1000; Got (says_then KDone [])] ++ t, w', o).
Proof.
  unfold connected_request. rewrite bind_get. cbn [hw w_retries].
  match goal with |- mcatch _ _ _ ?w = _ => set (w1 := w) end.
  assert (A1 : attempt_request (async_connect (S n) no_args) request_pool_config COM_MAX_RETRIES w1 =
    ([Send (List.length cs) 12532 (le_enc 4 0 ++ le_enc 4 0); AwaitReply (List.length cs) 2000; Got (says_then KCancelFut [List.length cs]); Lost (List.length cs)],
     hw mC dD dL (cs ++ [mkConn false false false [] false]) (Some (List.length cs)) (says_then KDone [] :: says_then KDone [] :: rest), Exc ESLConnection)).
  { unfold attempt_request.
    assert (Rc : ready (List.length cs) w1).
    { unfold ready. subst w1. rewrite hw_connected, hw_get. repeat split; reflexivity. }
    rewrite (bind_val _ _ _ _ _ _ (ready_connect _ _ n no_args Rc)). cbn [negb app].
    unfold proto_or_fail. rewrite bind_assoc, bind_get. destruct Rc as (Pr & _). rewrite Pr. rewrite bind_ret.
    unfold request_pool_config, data_request, make_request.
    change (Z.to_nat (COM_MAX_RETRIES + 1)) with (S (Z.to_nat COM_MAX_RETRIES)). cbn [request_loop]. rewrite bind_assoc, bind_get.
    subst w1. rewrite hw_connected. cbn [new_conn c_connected negb]. rewrite bind_assoc, bind_get, hw_get. cbn [new_conn c_closing].
    rewrite bind_assoc. unfold send. rewrite bind_assoc, bind_get, hw_get. cbn [new_conn c_open].
    destruct (small_message CODE_CTRLCONFIG_QUERY (le_enc 4 0 ++ le_enc 4 0) u16_12532 eq_refl) as (m & Mm). rewrite Mm. cbn [mlift].
    rewrite bind_assoc, bind_ret, bind_emit.
    assert (As : ask (AwaitReply (List.length cs) (1000 * COM_TIMEOUT)) nopre (hw mC dD dL (cs ++ [new_conn]) (Some (List.length cs)) (says_then KCancelFut [List.length cs] :: says_then KDone [] :: says_then KDone [] :: rest))
      = ([AwaitReply (List.length cs) 2000; Got (says_then KCancelFut [List.length cs]); Lost (List.length cs)], hw mC dD dL (cs ++ [mkConn false false false [] false]) (Some (List.length cs)) (says_then KDone [] :: says_then KDone [] :: rest), Val (says_then KCancelFut [List.length cs]))).
    { unfold ask. cbn [hw w_env]. unfold nopre, interfere. cbn [says_then r_lost r_data r_clock lose_all]. unfold lose.
      match goal with |- context[connected ?c ?w] => change w with (hw mC dD dL (cs ++ [new_conn]) (Some (List.length cs)) (says_then KDone [] :: says_then KDone [] :: rest)) end.
      rewrite hw_connected. cbn [new_conn c_connected]. rewrite hw_upd. reflexivity. }
    rewrite bind_assoc. rewrite (bind_val _ _ _ _ _ _ As). cbn [says_then r_kind]. rewrite bind_assoc, bind_get, hw_connected. cbn [c_connected]. rewrite bind_raise. reflexivity. }
  unfold mcatch. rewrite A1. cbn [is_comm_error]. clear A1 w1.
  assert (A2 : async_disconnect true (hw mC dD dL (cs ++ [mkConn false false false [] false]) (Some (List.length cs)) (says_then KDone [] :: says_then KDone [] :: rest))
    = ([AwaitFutures (List.length cs) true; Got (says_then KDone [])], hw mC dD dL (cs ++ [dying]) (Some (List.length cs)) (says_then KDone [] :: rest), Val tt)).
  { unfold async_disconnect. rewrite bind_get. cbn [hw is_client attached w_cm m_is_client m_proto andb].
    rewrite bind_ret. unfold proto_or_fail. rewrite bind_assoc, bind_get. match goal with |- context[w_proto (hw ?a ?b ?c ?d ?e ?f)] => change (w_proto (hw a b c d e f)) with e end. cbn iota. rewrite bind_ret. unfold async_close. rewrite bind_put.
    match goal with |- context[mark_closing ?c ?w] => change (mark_closing c w) with (mark_closing c (hw mC dD dL (cs ++ [mkConn false false false [] false]) (Some (List.length cs)) (says_then KDone [] :: says_then KDone [] :: rest))) end.
    unfold mark_closing. rewrite hw_upd. cbn [c_connected c_open c_handlers c_keepalive]. fold dying.
    rewrite (bind_val _ _ _ _ _ _ (hw_ask mC dD dL (cs ++ [dying]) (Some (List.length cs)) KDone (says_then KDone [] :: rest) (AwaitFutures (List.length cs) true))).
    cbn [says_then r_kind]. rewrite bind_get, hw_get. cbn [dying c_open]. rewrite bind_ret, bind_get, hw_connected. reflexivity. }
  rewrite (bind_val _ _ _ _ _ _ A2).
  rewrite (bind_val _ _ _ _ _ _ (hw_sleep mC dD dL (cs ++ [dying]) (Some (List.length cs)) rest (1000 * 1))).
  destruct (attempt_request _ _ _ _) as [[t w'] o]. reflexivity.
Qed.

Lemma hw_level n cs p mac d l rest : (d = [] \/ d = dD) -> (l = [] \/ l = dL) ->
  is_connected (hw mac d l cs p (round_of (List.length cs) ++ rest)) = false ->
  exists t w' o t0 w0 o0,
   async_connect (S (S n)) no_args (hw mac d l cs p (round_of (List.length cs) ++ rest)) = (t, w', o) /\
   async_connect (S n) no_args (hw mC dD dL (cs ++ [dying]) (Some (List.length cs)) rest) = (t0, w0, o0) /\
   (S (granted t0) <= granted t)%nat.
Proof.
  intros Hd Hl Up. rewrite (connect_S (S n)). unfold connect_body. rewrite bind_get, Up.
  rewrite bind_put. change (store_args no_args (hw mac d l cs p (round_of (List.length cs) ++ rest))) with (hw mac d l cs p (round_of (List.length cs) ++ rest)).
  rewrite bind_get. change (no_address (hw mac d l cs p (round_of (List.length cs) ++ rest))) with false. cbn iota.
  rewrite !bind_get. change (a_ip (w_addr (hw mac d l cs p (round_of (List.length cs) ++ rest)))) with (Some (u "10.0.0.9")).
  change (a_port (w_addr (hw mac d l cs p (round_of (List.length cs) ++ rest)))) with 80.
  change (w_retries (hw mac d l cs p (round_of (List.length cs) ++ rest))) with COM_MAX_RETRIES.
  set (r2 := says_then (KReply 8121 version_reply) [] :: says_then KCancelFut [List.length cs] :: says_then KDone [] :: says_then KDone [] :: rest).
  destruct (hw_open mac d l cs p r2) as (to & Eo & Go).
  change (round_of (List.length cs) ++ rest) with ([says_then KDone []; says_then KDone []; says_then (KReply 15 mac_reply) []; says_then (KReply 28 []) []] ++ r2).
  rewrite (bind_val _ _ _ _ _ _ Eo). rewrite bind_put.
  change (store_connection (List.length cs) mC (hw mac d l (cs ++ [new_conn]) p r2)) with (hw mC d l (cs ++ [new_conn]) (Some (List.length cs)) r2).
  rewrite bind_get. change (w_retries (hw mC d l (cs ++ [new_conn]) (Some (List.length cs)) r2)) with COM_MAX_RETRIES. subst r2.
  rewrite (bind_val _ _ _ _ _ _ (hw_version mC d l cs (Some (List.length cs)) _ Hd)). rewrite bind_put.
  match goal with |- context[set_last ?x (hw mC dD l ?a ?b ?c)] => assert (Sl : set_last x (hw mC dD l a b c) = hw mC dD dL a b c) end.
  { destruct Hl as [->| ->]; reflexivity. }
  rewrite Sl. clear Sl. rewrite bind_get. match goal with |- context[truthy ?x] => change x with (version dD) end. rewrite dD_truthy.
  unfold poll. rewrite bind_assoc.
  match goal with |- context[mbind (connected_request ?a ?b ?c) ?k ?w] => set (K := k); pose proof (hw_next n cs rest) as N end.
  destruct (attempt_request (async_connect (S n) no_args) request_pool_config COM_MAX_RETRIES (hw mC dD dL (cs ++ [dying]) (Some (List.length cs)) rest)) as [[t2 w2] o2] eqn:EA.
  destruct (async_connect (S n) no_args (hw mC dD dL (cs ++ [dying]) (Some (List.length cs)) rest)) as [[t0 w0] o0] eqn:E0.
  assert (N' : exists tn wn on, connected_request (async_connect (S n) no_args) request_pool_config 1
       (hw mC dD dL (cs ++ [new_conn]) (Some (List.length cs)) (says_then KCancelFut [List.length cs] :: says_then KDone [] :: says_then KDone [] :: rest)) = (tn, wn, on) /\ (granted t0 <= granted tn)%nat).
  { assert (G : forall tx, (granted t0 <= granted tx)%nat -> (granted t0 <= granted ([Send (List.length cs) 12532 (le_enc 4 0 ++ le_enc 4 0); AwaitReply (List.length cs) 2000;
       Got (says_then KCancelFut [List.length cs]); Lost (List.length cs)] ++ [AwaitFutures (List.length cs) true; Got (says_then KDone [])] ++ [Sleep 1000; Got (says_then KDone [])] ++ tx))%nat).
    { intros tx Gx. cbn [app granted]. destruct tx; exact Gx. }
    do 3 eexists. split; [exact N|]. apply G. unfold attempt_request in EA. unfold mbind at 1 in EA. rewrite E0 in EA.
    destruct o0 as [b|e|y].
    - match type of EA with (match ?x with _ => _ end) = _ => destruct x as [[t3 w3] o3] end.
      injection EA as <- <- <-. pose proof (granted_app t0 t3). lia.
    - injection EA as <- <- <-. lia.
    - injection EA as <- <- <-. lia. }
  destruct N' as (tn & wn & on & N' & Gn). unfold mbind at 1. rewrite N'.
  assert (Fin : forall tk, (S (granted t0) <= granted (to ++ [Send (List.length cs) 8120 []; AwaitReply (List.length cs) 2000; Got (says_then (KReply 8121 version_reply) [])] ++ tn ++ tk))%nat).
  { intros tk. pose proof (granted_app to ([Send (List.length cs) 8120 []; AwaitReply (List.length cs) 2000; Got (says_then (KReply 8121 version_reply) [])] ++ tn ++ tk)) as A.
    pose proof (granted_app [Send (List.length cs) 8120 []; AwaitReply (List.length cs) 2000; Got (says_then (KReply 8121 version_reply) [])] (tn ++ tk)) as B.
    pose proof (granted_app tn tk). lia. }
  destruct on as [a|e|y].
  - destruct (K a wn) as [[tk wk] ok]. do 6 eexists. split; [reflexivity|]. split; [reflexivity|]. apply Fin.
  - do 6 eexists. split; [reflexivity|]. split; [reflexivity|]. specialize (Fin []). rewrite app_nil_r in Fin. exact Fin.
  - do 6 eexists. split; [reflexivity|]. split; [reflexivity|]. specialize (Fin []). rewrite app_nil_r in Fin. exact Fin.
Qed.

Lemma hostile_all k : forall n cs p mac d l, (k < n)%nat -> (d = [] \/ d = dD) -> (l = [] \/ l = dL) ->
  is_connected (hw mac d l cs p (rounds k (List.length cs))) = false ->
  exists t w' o, async_connect n no_args (hw mac d l cs p (rounds k (List.length cs))) = (t, w', o) /\ (k <= granted t)%nat.
Proof.
  induction k as [|k IH]; intros n cs p mac d l L Hd Hl Up.
  - destruct (async_connect n no_args (hw mac d l cs p (rounds 0 (List.length cs)))) as [[t w'] o]. exists t, w', o. split; [reflexivity|lia].
  - destruct n as [|[|n]]; try lia. cbn [rounds] in *.
    destruct (hw_level n cs p mac d l (rounds k (S (List.length cs))) Hd Hl Up) as (t & w' & o & t0 & w0 & o0 & E & E0 & G).
    exists t, w', o. split; [exact E|].
    replace (S (List.length cs)) with (List.length (cs ++ [dying])) in E0 by (rewrite app_length; cbn; lia).
    destruct (IH (S n) (cs ++ [dying]) (Some (List.length cs)) mC dD dL ltac:(lia)) as (t1 & w1 & o1 & E1 & G1); auto.
    { unfold is_connected. cbn [hw w_proto]. apply hw_connected. }
    rewrite E0 in E1. injection E1 as <- <- <-. lia.
Qed.
Lemma hostile_fresh k n : (k < n)%nat -> exists w0 t w' o, fresh_gateway (rounds k 0) = Ok w0 /\
  async_connect n to_adapter w0 = (t, w', o) /\ (k <= granted t)%nat.
Proof.
  intros L. destruct (hostile_all k n [] None [] [] [] L (or_introl eq_refl) (or_introl eq_refl) eq_refl) as (t & w' & o & E & G).
  eexists. exists t, w', o. split; [reflexivity|]. split; [|exact G]. destruct n as [|n]; [lia|]. exact E.
Qed.
