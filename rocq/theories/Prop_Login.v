(** C108, C109: asking for the MAC address (login.py async_get_mac_address) and the keepalive ping
    (client.py _async_ping), for every behaviour of the adapter. *)
From Verif Require Import Py F64 Struct Utf Utility Const Spec Enum Decode Messages World Request Gateway Traces Ping
  P_Base P_Util P_Monad P_Request P_Gw1 P_Gw6 P_Vals2 Hostile Prop_Request.
Open Scope m_scope.

Lemma losses_opens l : only_losses l -> opens l = [].
Proof. induction 1 as [|e l H F IH]; [reflexivity|]. destruct e; try contradiction; exact IH. Qed.
Lemma replies_got t r : In r (replies t) -> In (Got r) t.
Proof.
  induction t as [|e t IH]; [intros []|]. cbn [replies]. destruct e; try (intros J; right; apply IH; exact J).
  destruct t as [|[] t]; try (intros J; right; apply IH; exact J). intros [<-|J]; [right; left; reflexivity|right; apply IH; exact J].
Qed.
Lemma sleep_shape ms w t w' o : msleep ms w = (t, w', o) -> sends t = [] /\ opens t = [].
Proof.
  unfold msleep. unfold mbind, ask. destruct (w_env w) as [|r rest]; [intros E; injection E as <- _ _; auto|].
  destruct (interfere r (nopre r (set_env rest w))) as [l w1] eqn:I. apply interfere_only in I. pose proof (losses_sends _ I) as I1. pose proof (losses_opens _ I) as I2.
  destruct (r_kind r); intros E; injection E as <- _ _; cbn; rewrite ?app_nil_r; auto.
Qed.
Lemma sent_opens c X p w : opens (sent c X p w) = []. Proof. unfold sent. destruct (c_open (get_conn c w)); reflexivity. Qed.
Lemma opens_cons e t : opens (e :: t) = match e with Open ip port _ => [(ip, port)] | _ => [] end ++ opens t. Proof. reflexivity. Qed.
Lemma request_opens c X p mr w t w' o : make_request c X p mr w = (t, w', o) -> opens t = [].
Proof.
  intros H. apply request_run in H. induction H; try reflexivity;
    repeat match goal with I : interfere _ _ = _ |- _ => apply interfere_only, losses_opens in I end;
    repeat (rewrite ?opens_app, ?opens_cons, ?sent_opens; cbn [app]);
    repeat match goal with I : opens _ = [] |- _ => rewrite I; clear I end; reflexivity.
Qed.


Lemma create_shape ip port w t w' o : create_connection ip port w = (t, w', o) ->
  exists t', t = Open ip port 2000 :: t' /\ opens t' = [] /\ sends t' = [] /\ forall c, o = Val c -> c = List.length (w_conns w).
Proof.
  unfold create_connection. rewrite bind_get. unfold mbind, ask. destruct (w_env w) as [|r rest].
  - intros E. injection E as <- <- <-. eexists. repeat split. intros c X. discriminate X.
  - match goal with |- context[interfere r ?x] => destruct (interfere r x) as [l w1] eqn:I end. apply interfere_only in I.
    pose proof (losses_sends _ I) as I1. pose proof (losses_opens _ I) as I2.
    destruct (r_kind r); intros E; injection E as <- <- <-; eexists; (split; [reflexivity|]); (split; [cbn; rewrite ?app_nil_r; exact I2|]); (split; [cbn; rewrite ?app_nil_r; exact I1|]); intros c X; congruence.
Qed.
Lemma connect_asks mr : 0 <= mr -> forall c w t w' o, gateway_connect c mr w = (t, w', o) ->
  opens t = [] /\ Forall (fun x => x = (c, 14, [])) (sends t) /\ zlen (sends t) <= mr + 1.
Proof.
  intros M c w t w' o E. unfold gateway_connect in E. rewrite bind_get in E. apply bind_inv in E.
  assert (R : forall w t w' o, (if c_open (get_conn c w) then memit (Raw c CONNECT_STRING) else mret tt) w = (t, w', o) -> opens t = [] /\ sends t = []).
  { intros v t0 v' o0 H. destruct (c_open (get_conn c v)); injection H as <- _ _; auto. }
  destruct E as [(t1 & w1 & a & t2 & E1 & E2 & ->)|[(e & E1 & ->)|(y & E1 & ->)]]; apply R in E1; destruct E1 as (O1 & S1).
  2, 3: rewrite O1, S1; split; [reflexivity|]; split; [constructor|cbn; lia].
  rewrite opens_app, sends_app, O1, S1. cbn [app]. clear - E2 M. apply bind_inv in E2.
  destruct E2 as [(t1 & w2 & a' & t3 & E1 & E2 & ->)|[(e & E1 & ->)|(y & E1 & ->)]]; apply sleep_shape in E1; destruct E1 as (S1 & O1).
  2, 3: rewrite O1, S1; split; [reflexivity|]; split; [constructor|cbn; lia].
  rewrite opens_app, sends_app, O1, S1. cbn [app]. clear - E2 M. rewrite bind_get in E2. destruct (connected c w2); cbn [negb] in E2.
  - apply bind_inv in E2. destruct E2 as [(t1 & w3 & r & t2 & E1 & E2 & ->)|[(e & E1 & ->)|(y & E1 & ->)]];
      pose proof (request_opens _ _ _ _ _ _ _ _ E1) as O1; apply C12_bounded_retries in E1; try exact M; destruct E1 as (S1 & S2 & _).
    2, 3: rewrite O1; auto.
    assert (T : t2 = []) by (destruct r as [b|]; [destruct (decodeMessageString b)|]; injection E2 as <- _ _; reflexivity).
    rewrite T, app_nil_r. auto.
  - injection E2 as <- _ _. split; [reflexivity|]. split; [constructor|cbn; lia].
Qed.
(** closing the transport at the end of async_get_mac_address *)
Definition hang_up (c : nat) (mac : pystr) : M pystr :=
  k <- mget (get_conn c) ;;
  (if c_open k
   then memit (CloseTransport c) ;;;
        mput (upd_conn c (fun k => mkConn (c_connected k) (c_closing k) false (c_handlers k) (c_keepalive k)))
   else mret tt) ;;;
  mret mac.
Lemma hang_up_run c mac w : exists t w', hang_up c mac w = (t, w', Val mac) /\ opens t = [] /\ sends t = [] /\ c_open (get_conn c w') = false.
Proof.
  unfold hang_up. rewrite bind_get. destruct (c_open (get_conn c w)) eqn:O.
  - eexists _, _. split; [reflexivity|]. split; [reflexivity|]. split; [reflexivity|]. rewrite get_upd, Nat.eqb_refl.
    destruct (Nat.ltb_spec c (List.length (w_conns w))) as [L|L]; [reflexivity|]. unfold get_conn in O. rewrite nth_overflow in O by exact L. discriminate O.
  - eexists _, _. split; [reflexivity|]. auto.
Qed.

(** C108.  The connection opened is number [List.length (w_conns w)]. *)
Theorem C108_only_asks ip port mr w t w' o : get_mac_address ip port mr w = (t, w', o) -> 0 <= mr ->
  opens t = [(ip, port)] /\ Forall (fun x => x = (List.length (w_conns w), 14, [])) (sends t) /\ zlen (sends t) <= mr + 1.
Proof.
  intros E M. unfold get_mac_address in E. apply bind_inv in E.
  destruct E as [(t1 & w1 & c & t2 & E1 & E2 & ->)|[(e & E1 & ->)|(y & E1 & ->)]]; apply create_shape in E1; destruct E1 as (t' & -> & O1 & S1 & C).
  2, 3: rewrite opens_cons, O1; change (sends (Open ip port 2000 :: t')) with (sends t'); rewrite S1; split; [reflexivity|]; split; [constructor|cbn; lia].
  rewrite opens_app, opens_cons, sends_app, O1. change (sends (Open ip port 2000 :: t')) with (sends t'). rewrite S1. cbn [app]. rewrite <- (C c eq_refl). clear - E2 M.
  apply bind_inv in E2. destruct E2 as [(t1 & w2 & mac & t3 & E1 & E2 & ->)|[(e & E1 & ->)|(y & E1 & ->)]]; apply (connect_asks mr M) in E1; destruct E1 as (O1 & S1 & L).
  2, 3: rewrite O1; auto.
  change (hang_up c mac w2 = (t3, w', o)) in E2. destruct (hang_up_run c mac w2) as (t & v & R & O & S & _). rewrite R in E2. injection E2 as <- _ _.
  rewrite opens_app, sends_app, O1, O, S, !app_nil_r. auto.
Qed.
Print Assumptions C108_only_asks.

(** A MAC address returned is the string some answer to the challenge carried, and the connection
    made for the question is closed again. *)
Theorem C108_mac ip port mr w t w' mac : get_mac_address ip port mr w = (t, w', Val mac) -> 0 <= mr ->
  c_open (get_conn (List.length (w_conns w)) w') = false /\
  exists r b, In (Got r) t /\ answer_of r = Some (15, b) /\ forall n tail, name_ok n -> b = wire_name n ++ tail -> mac = snd n.
Proof.
  intros E M. unfold get_mac_address in E. apply bind_inv in E.
  destruct E as [(t1 & w1 & c & t2 & E1 & E2 & ->)|[(e & _ & X)|(y & _ & X)]]; [|discriminate X|discriminate X].
  apply create_shape in E1. destruct E1 as (t' & -> & _ & _ & C). rewrite <- (C c eq_refl). clear C.
  apply bind_inv in E2. destruct E2 as [(t1 & w2 & m & t3 & E1 & E2 & ->)|[(e & _ & X)|(y & _ & X)]]; [|discriminate X|discriminate X].
  change (hang_up c m w2 = (t3, w', Val mac)) in E2. destruct (hang_up_run c m w2) as (tt & v & R & _ & _ & O). rewrite R in E2. injection E2 as <- <- <-.
  split; [exact O|]. assert (Q : exists r b, In (Got r) t1 /\ answer_of r = Some (15, b) /\ decodeMessageString b = Ok m).
  { clear - E1. unfold gateway_connect in E1. rewrite bind_get in E1.
    apply bind_inv in E1. destruct E1 as [(a1 & v1 & ? & a2 & _ & E & ->)|[(e & _ & X)|(y & _ & X)]]; [|discriminate X|discriminate X].
    apply bind_inv in E. destruct E as [(a3 & v2 & ? & a4 & _ & E & ->)|[(e & _ & X)|(y & _ & X)]]; [|discriminate X|discriminate X].
    rewrite bind_get in E. destruct (connected c v2); cbn [negb] in E; [|discriminate E].
    apply bind_inv in E. destruct E as [(a5 & v3 & [b|] & a6 & R & E & ->)|[(e & _ & X)|(y & _ & X)]]; [| |discriminate X|discriminate X]; [|discriminate E].
    apply C11_only_matching_answer in R. destruct R as (rs & r & R & A). exists r, b. split; [|split; [exact A|]].
    - apply in_or_app. right. apply in_or_app. right. apply in_or_app. left. apply replies_got. rewrite R. apply in_or_app. right. left. reflexivity.
    - destruct (decodeMessageString b); [injection E as _ _ ->; reflexivity|discriminate E]. }
  destruct Q as (r & b & I & A & D). exists r, b. split; [apply in_or_app; right; apply in_or_app; left; exact I|]. split; [exact A|].
  intros n tail N ->. rewrite (version_text n tail N) in D. injection D as ->. reflexivity.
Qed.
Print Assumptions C108_mac.

Example C108_nonvacuous :
  name_ok (false, u "mac!") /\ mac_reply = wire_name (false, u "mac!") ++ [] /\
  exists w', get_mac_address (Some (u "10.0.0.9")) 80 1
      (live_world [says KDone; says KDone; says KTimeout; says KDone; says (KReply 15 mac_reply)]) =
    ([Open (Some (u "10.0.0.9")) 80 2000; Got (says KDone); Raw 1 (u "CONNECTSERVERHOST" ++ [13; 10; 13; 10]); Sleep 250; Got (says KDone);
      Send 1 14 []; AwaitReply 1 2000; Got (says KTimeout); Sleep 1000; Got (says KDone);
      Send 1 14 []; AwaitReply 1 2000; Got (says (KReply 15 mac_reply)); CloseTransport 1], w', Val (u "mac!")).
Proof. split; [split; [repeat constructor; cbn; lia|reflexivity]|]. split; [reflexivity|]. eexists. vm_compute. reflexivity. Qed.

(** C109.  What a keepalive ping does, whatever the adapter does. *)
Theorem C109_ping c w t w' o : async_ping c w = (t, w', o) ->
  (sends t = [] \/ sends t = [(c, 16, [])]) /\ zlen (reply_waits t) <= 1 /\ sleeps t = [] /\ opens t = [] /\
  (forall k, ~ In (CloseTransport k) t) /\
  w_proto w' = w_proto w /\ w_last w' = w_last w /\ w_cm w' = w_cm w /\ w_addr w' = w_addr w /\
  (o = Val tt \/ exists y, o = Stuck y).
Proof.
  unfold async_ping, request_ping, command_request, mcatch.
  match goal with |- context[mbind ?m ?k w] => destruct (mbind m k w) as [[t0 w0] o0] eqn:E end. cbn [mlift] in E. rewrite bind_ret in E.
  intros R. assert (Q : t = t0 /\ w' = w0 /\ (o = match o0 with Exc e => if is_comm_error e then Val tt else Exc e | _ => o0 end)).
  { destruct o0 as [x|e|y]; [injection R as <- <- <-; auto|destruct (is_comm_error e); injection R as <- <- <-; rewrite ?app_nil_r; auto|injection R as <- <- <-; auto]. }
  destruct Q as (-> & -> & ->). clear R.
  assert (P : exists o1, make_request c CODE_PING_QUERY [] 0 w = (t0, w0, o1) /\ (o0 = match o1 with Val (Some []) => Val tt | Val _ => Exc ESLResponse | Exc e => Exc e | Stuck y => Stuck y end)).
  { apply bind_inv in E. destruct E as [(t1 & w1 & r & t2 & E1 & E2 & ->)|[(e & E1 & ->)|(y & E1 & ->)]].
    - exists (Val r). rewrite E1. destruct r as [[|]|]; injection E2 as <- <- <-; rewrite app_nil_r; auto.
    - exists (Exc e). auto.
    - exists (Stuck y). auto. }
  destruct P as (o1 & P & ->). clear E. apply request_run in P. change (Z.to_nat (0 + 1)) with 1%nat in P.
  assert (SS : sends (sent c CODE_PING_QUERY [] w) = [] \/ sends (sent c CODE_PING_QUERY [] w) = [(c, 16, [])]) by (unfold sent; destruct (c_open (get_conn c w)); auto).
  clear SS. inversion P; subst; try congruence.
  - cbn. intuition lia.
  - cbn. intuition lia.
  - assert (X : makeMessage 0 CODE_PING_QUERY [] = Ok [0; 0; 16; 0; 0; 0; 0; 0]) by reflexivity. congruence.
  - unfold sent. destruct (c_open (get_conn c w0)); cbn; intuition (try lia; try congruence; eauto).
  - match goal with I : interfere _ _ = _ |- _ => pose proof (interfere_fields _ _ _ _ I) as F; apply interfere_only in I; rename I into L end.
    destruct F as (F1 & _ & F3 & F4 & _ & F6 & _). cbn [set_env w_addr w_proto w_last w_cm] in F1, F3, F4, F6.
    assert (G : forall k, ~ In (CloseTransport k) l) by (intros k J; unfold only_losses in L; rewrite Forall_forall in L; exact (L _ J)).
    assert (S1 := losses_sends _ L). assert (S2 := losses_opens _ L).
    assert (S3 : reply_waits l = [] /\ sleeps l = []).
    { clear - L. induction L as [|e l H F IH]; [split; reflexivity|]. destruct e; try contradiction; exact IH. }
    destruct S3 as (S3 & S4).
    rewrite F1, F3, F4, F6.
    assert (OO : forall k : exn, k = ESLConnection \/ k = ESLRequest \/ k = ESLResponse \/ k = ESLLogin -> is_comm_error k = true) by (intros k [->|[->|[->| ->]]]; reflexivity).
    split; [|split; [|split; [|split; [|split]]]].
    + rewrite sends_app. change (sends (AwaitReply c 2000 :: Got r :: l)) with (sends l). rewrite S1. unfold sent. destruct (c_open (get_conn c w)); auto.
    + unfold sent. destruct (c_open (get_conn c w)); cbn; unfold reply_waits in S3; rewrite S3; cbn; lia.
    + unfold sent. destruct (c_open (get_conn c w)); cbn; exact S4.
    + rewrite opens_app, sent_opens. exact S2.
    + intros k J. unfold sent in J. apply in_app_or in J. destruct J as [J|[J|[J|J]]]; try discriminate J; [|exact (G k J)].
      destruct (c_open (get_conn c w)); [destruct J as [J|[]]; discriminate J|destruct J].
    + do 4 (split; [reflexivity|]).
      match goal with J : match judge _ _ with _ => _ end |- _ => rename J into Jd end. unfold judge in Jd.
      destruct (r_kind r) as [rc b| | rc b| | | | ]; try (destruct Jd as (_ & ->); left; reflexivity);
        try (destruct (rc =? CODE_PING_QUERY + 1); [rewrite Jd; destruct b; left; reflexivity|]; destruct (rc =? 13); [rewrite Jd; left; reflexivity|];
             destruct ((rc =? 30) || (rc =? 31)); destruct Jd as (_ & ->); left; reflexivity);
        try (rewrite Jd; destruct (connected c w0); left; reflexivity); rewrite Jd; eauto.
Qed.
Print Assumptions C109_ping.
Example C109_nonvacuous :
  (exists w', async_ping 0 (live_world [says (KReply 17 [])]) = ([Send 0 16 []; AwaitReply 0 2000; Got (says (KReply 17 []))], w', Val tt)) /\
  (exists w', async_ping 0 (live_world [says KTimeout]) = ([Send 0 16 []; AwaitReply 0 2000; Got (says KTimeout)], w', Val tt)) /\
  (exists w', async_ping 0 (live_world [says (KReply 13 [])]) = ([Send 0 16 []; AwaitReply 0 2000; Got (says (KReply 13 []))], w', Val tt)).
Proof. split; [|split]; eexists; vm_compute; reflexivity. Qed.
