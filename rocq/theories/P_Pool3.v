(** The functions of Tasks.v keep the invariant of P_Pool2.v. *)
From Verif Require Import Py F64 Struct Utf Utility Const Spec Enum Decode Messages Calls World Request Gateway Traces Paths Api Tasks Pool SpecPool P_Pool P_Pool2.
From Verif Require P_Base P_Monad P_Gw1 P_Gw2 P_Gw3 P_Gw4 P_Gw14.

Ltac nq := let H := fresh in intros H; vm_compute in H; intuition discriminate.
Section Calls.
  Variables (d0 : dict) (h0 : host) (id0 : Z).
  Notation said := (shows (h_float h0) d0).
  Notation InvD := (InvD h0 id0).
  Notation Inv := (InvD said).
  Notation fresh := (fresh d0 h0).
  Notation keeps := (keeps d0 h0 id0).
  Notation due := (due h0 id0).
  Notation any := (fun _ _ _ => True).
  Arguments keeps_bind {d0 h0 id0 A B} i m f g w V V2.

  Lemma keeps_decode {B} i c X p b g w x dec (k : unit -> task B) V : InvD (fresh i c X p b) g w -> b <> [] ->
    reads (h_float h0) X p b x -> dec = run_decoder x -> (forall w', Inv g w' -> keeps i (k tt) g w' V) ->
    keeps i (tbind (tdecode dec) k) g w V.
  Proof.
    intros I NE R -> K. unfold tdecode. match goal with |- P_Pool2.keeps _ _ _ i ?m g w V => change m with
      (Look (fun w => tbind (let '(d, r) := run_decoder x (w_data w) in Do (fun w => ([], set_data d w)) (match r with Ok _ => tret tt | Err e => traise e end)) k)) end.
    change (keeps i (tbind (let '(d, r) := run_decoder x (w_data w) in Do (fun w => ([], set_data d w)) (match r with Ok _ => tret tt | Err e => traise e end)) k) g w V).
    assert (B1 : said g (fst (run_decoder x (w_data w)))).
    { destruct (I_data _ _ _ _ _ I) as (g0 & r & -> & AS & AO & S). eapply S_answer; eassumption. }
    destruct (run_decoder x (w_data w)) as [d r]. cbn [fst] in B1. pose proof (Inv_data _ _ _ _ _ _ _ B1 I) as I1.
    cbn [tbind]. unfold P_Pool2.keeps. cbn [safe fst snd oks map]. rewrite app_nil_r. split; [exact Logic.I|].
    destruct r as [[]|e]; [apply K; exact I1|]. apply keeps_raise. exact I1.
  Qed.
  Lemma keeps_data_request i c X p (dec : bytes -> DM unit) (x : bytes -> call) mr g w : Inv g w -> due i g X p -> accepted c g ->
    (forall b, reads (h_float h0) X p b (x b) /\ dec b = run_decoder (x b)) -> keeps i (tdata_request X p dec mr c) g w any.
  Proof.
    intros I D A H. unfold tdata_request. eapply keeps_ask; [apply asks_request; auto| |].
    - intros g' w' P I'. apply keeps_ret; auto.
    - intros [|z b] g' w' P I'; cbn [nonempty]; [apply keeps_ret; auto; eapply fresh_plain; [|exact I']; auto|]. destruct (H (z :: b)) as (H1 & H2).
      eapply keeps_decode; [exact I'|discriminate|exact H1|exact H2|]. intros w2 I2. apply keeps_ret; auto.
  Qed.
  Lemma keeps_command_request i c X pl mr g w : Inv g w -> ~ query X ->
    (forall p, pl = Ok p -> (exists m, makeMessage 0 X p = Ok m) -> due i g X p) -> accepted c g -> keeps i (tcommand_request X pl mr c) g w any.
  Proof.
    intros I N D A. unfold tcommand_request. apply keeps_lift; [exact I|]. intros p E. eapply keeps_bind; [apply keeps_request; [exact I|left; exact N|auto|auto]|].
    intros [[|z b]|] g' w' I' P R; try (apply keeps_raise; exact I'). apply keeps_ret; auto.
  Qed.

  (** login.py *)
  Lemma keeps_gateway_login i c mr g w : Inv g w -> In (By i (Raw c CONNECT_STRING)) g -> keeps i (tgateway_login c mr) g w (fun g' _ b => b = true -> accepted c g').
  Proof.
    intros I GR. unfold tgateway_login. apply keeps_lift; [exact I|]. intros p E.
    eapply keeps_bind; [apply keeps_request; [exact I|left; nq| |right; split; [right; reflexivity|exact GR]]|].
    - intros _. left. right. left. auto.
    - intros [b|] g' w' I' P R; apply keeps_ret; auto; [|discriminate]. intros _. eapply got_accepted. apply R. reflexivity.
  Qed.
  Lemma keeps_connect_to_gateway i ip port mr g w : Inv g w ->
    keeps i (tconnect_to_gateway ip port mr) g w (fun g' _ r => match r with Some (c, mac) => adopted c mac g' | None => True end).
  Proof.
    intros I. unfold tconnect_to_gateway.
    set (rest := fun c => tbind (tgateway_connect c mr) (fun mac => tbind (tgateway_login c mr) (fun ok => tret (if ok then Some (c, mac) else None)))).
    assert (R : forall c g w, Inv g w -> c_open (get_conn c w) = true -> in_use c g -> (c < List.length (w_conns w))%nat -> (forall j e, In (By j e) g -> ~ names c e) ->
      keeps i (rest c) g w (fun g' _ r => match r with Some (c, mac) => adopted c mac g' | None => True end)).
    { intros c g1 w1 I1 O U LC NN. unfold rest. eapply keeps_bind with (V := fun g' _ mac => In (By i (Raw c CONNECT_STRING)) g' /\ named c mac g').
      - unfold tgateway_connect. apply keeps_get. rewrite O.
        assert (T : forall g w, Inv g w -> In (By i (Raw c CONNECT_STRING)) g -> keeps i (tbind (tsleep 250) (fun _ => tbind (tget (connected c)) (fun ok : bool => if negb ok then traise ESLConnection
            else tbind (tmake_request c CODE_CHALLENGE_QUERY [] mr) (fun r => match r with Some b => tlift (decodeMessageString b) | None => traise EType end)))) g w
            (fun g' _ mac => In (By i (Raw c CONNECT_STRING)) g' /\ named c mac g')).
        { intros g2 w2 I2 G2. eapply keeps_bind; [apply keeps_sleep; exact I2|]. intros _ g3 w3 I3 P3 _. apply keeps_get. pose proof (prefix_in _ _ _ P3 G2) as G3.
          destruct (connected c w3); cbn [negb]; [|apply keeps_raise; exact I3].
          eapply keeps_bind; [apply keeps_request; [exact I3|left; nq|intros _; left; left; auto|right; split; [left; reflexivity|exact G3]]|].
          intros [b|] g4 w4 I4 P4 Gt; [|apply keeps_raise; exact I4]. destruct (decodeMessageString b) as [mac|e] eqn:DM; cbn [tlift]; [apply keeps_ret; auto|apply keeps_raise; exact I4].
          split; [eapply prefix_in; eassumption|]. eapply got_named; [apply Gt; reflexivity|exact DM]. }
        apply keeps_emit; [split; [exact U|split; [reflexivity|exact NN]]|]. apply T; [apply Inv_write with (c := c); eauto|]. apply in_or_app. right. left. reflexivity.
      - intros mac g2 w2 I2 P2 (G2 & NM). eapply keeps_bind; [apply keeps_gateway_login; assumption|].
        intros [] g3 w3 I3 P3 A; apply keeps_ret; auto. split; [apply A; reflexivity|eapply named_prefix; eassumption]. }
    unfold tcreate_connection.
    match goal with |- P_Pool2.keeps _ _ _ i ?m g w ?V => change m with (tbind (twait (Open ip port (1000 * COM_TIMEOUT))) (fun r => tbind (
       match r with
       | KDone => tget (fun w => pred (List.length (w_conns w)))
       | KTimeout | KOSError => traise ESLConnection
       | KCancelTask => traise ECancelled
       | _ => tstuck Unfit
       end) rest)) end.
    apply safe_wait; [reflexivity|apply Inv_more; [exact Logic.I|exact Logic.I|exact I]|]. intros g' w' kd clk E I' _ F.
    set (gt := By i (Got (mkResp kd [] None clk))) in *. set (w3 := set_clock clk (opened_by _ kd w')) in *.
    assert (I3 : Inv (g' ++ [gt]) w3) by (apply Inv_got; [destruct kd; try exact Logic.I; discriminate F|assumption]).
    eapply keeps_from with (g := g' ++ [gt]).
    { eapply prefix_trans; [|apply prefix_app]. eapply prefix_trans; [apply prefix_app|eapply ext_prefix; exact E]. }
    destruct kd; try discriminate F; cbn [tbind traise]; try (apply keeps_raise; exact I3).
    apply keeps_get.
    assert (L : pred (List.length (w_conns w3)) = List.length (w_conns w')).
    { unfold w3. cbn [set_clock opened_by set_conns w_conns]. rewrite app_length. cbn [List.length]. lia. }
    rewrite L in *. assert (NC : get_conn (List.length (w_conns w')) w3 = new_conn) by (unfold get_conn, w3; cbn [set_clock opened_by set_conns w_conns]; rewrite nth_middle; reflexivity).
    apply R; [exact I3|rewrite NC; reflexivity| | |].
    - eapply Inv_usable; [exact I3| |]; unfold connected; rewrite NC; reflexivity.
    - unfold w3. cbn [set_clock opened_by set_conns w_conns]. rewrite app_length. cbn [List.length]. lia.
    - intros j e J K. apply in_app_or in J. destruct J as [J|[J|[]]].
      + pose proof (I_known _ _ _ _ _ I' _ _ _ J K). lia.
      + unfold gt in J. injection J as _ <-. destruct K as [[(? & ? & K)|(? & K)]|[(? & K)|K]]; discriminate K.
  Qed.

  (** client.py and gateway.py *)
  Lemma keeps_m_proto {B} i (k : nat -> task B) g w V : Inv g w -> (forall c, accepted c g -> keeps i (k c) g w V) -> keeps i (tbind tm_proto_or_fail k) g w V.
  Proof.
    intros I K. change (keeps i (tbind (match m_proto (w_cm w) with Some c => tret c | None => traise EAttribute end) k) g w V).
    destruct (m_proto (w_cm w)) as [c|] eqn:E; cbn [tbind tret traise]; [|apply keeps_raise; exact I]. apply K. apply (I_mproto _ _ _ _ _ I). exact E.
  Qed.
  Lemma keeps_proto {B} i (k : nat -> task B) g w V : Inv g w -> (forall c, accepted c g -> keeps i (k c) g w V) -> keeps i (tbind tproto_or_fail k) g w V.
  Proof.
    intros I K. change (keeps i (tbind (match w_proto w with Some c => tret c | None => traise EAttribute end) k) g w V).
    destruct (w_proto w) as [c|] eqn:E; cbn [tbind tret traise]; [|apply keeps_raise; exact I]. apply K. apply (I_proto _ _ _ _ _ I _ E).
  Qed.
  Lemma accepted_known c g w : Inv g w -> accepted c g -> (c < List.length (w_conns w))%nat.
  Proof.
    intros I (j & t1 & p & ms & r & b & t2 & E & A). eapply (I_known _ _ _ _ _ I) with (j := j) (e := Send c 27 p); [|left; eauto].
    assert (J : In (Send c 27 p) (own j g)) by (rewrite E; apply in_or_app; right; left; reflexivity).
    unfold own in J. apply in_flat_map in J. destruct J as (y & J1 & J2). destruct y as [|j' e'| | |]; try contradiction J2.
    destruct (Nat.eqb_spec j' j) as [->|]; [|contradiction J2]. destruct J2 as [->|[]]. exact J1.
  Qed.
  Lemma keeps_close i c force g w : Inv g w -> accepted c g -> keeps i (tasync_close c force) g w any.
  Proof.
    intros I A. unfold tasync_close. apply keeps_do.
    assert (I1 : Inv g (mark_closing c w)).
    { unfold mark_closing. apply Inv_upd; cbn; auto. discriminate. }
    assert (G1 : c_closing (get_conn c (mark_closing c w)) = true) by (unfold mark_closing; rewrite upd_same by (eapply accepted_known; eassumption); reflexivity).
    apply keeps_wait; [exact Logic.I|apply (Inv_close _ _ _ _ _ _ c); eauto|discriminate|].
    intros kd g2 w2 I2 P2 F.
    assert (A2 : accepted c g2). { eapply accepted_prefix; [|exact A]. eapply prefix_trans; [apply prefix_app|exact P2]. }
    assert (G2 : c_closing (get_conn c w2) = true). { eapply (I_closing _ _ _ _ _ I2) with (j := i) (f := force). eapply prefix_in; [exact P2|]. apply in_or_app. right. left. reflexivity. }
    assert (LAST : forall g w, Inv g w -> accepted c g -> keeps i (tbind (tget (connected c)) (fun still : bool => if negb still then tret tt
       else tbind (twait (AwaitClosed c)) (fun r2 => match r2 with KDone => Do (lose c) (tret tt) | KCancelTask => traise ECancelled | _ => tstuck Unfit end))) g w any).
    { intros g3 w3 I3 A3. apply keeps_get. destruct (connected c w3); cbn [negb]; [|apply keeps_ret; auto].
      apply keeps_wait; [exact Logic.I|apply Inv_more; [exact Logic.I|exact Logic.I|exact I3]|discriminate|]. intros k2 g4 w4 I4 P4 F4.
      destruct k2; try discriminate F4; try (apply keeps_raise; exact I4).
      unfold P_Pool2.keeps. cbn [safe tret]. unfold lose. destruct (connected c w4) eqn:C4; cbn [fst snd].
      - assert (I5 : Inv (g4 ++ [By i (Lost c)]) (upd_conn c (fun k => mkConn false (c_closing k) false (c_handlers k) (c_keepalive k)) w4)).
        { apply Inv_lost; [right; eauto|exact C4|exact I4]. }
        split; [destruct (w_cb w4); cbn; auto|]. split; [|split; [apply prefix_app|exact Logic.I]].
        destruct (w_cb w4); cbn [map]; [|exact I5]. change [By i (Lost c); By i (Callback n)] with ([By i (Lost c)] ++ [By i (Callback n)]).
        rewrite app_assoc. apply Inv_more; [exact Logic.I|exact Logic.I|exact I5].
      - cbn [map oks]. rewrite app_nil_r. auto using prefix_refl. }
    assert (MID : keeps i (tbind (tget (get_conn c)) (fun k => tbind (if c_open k then tbind (temit (CloseTransport c)) (fun _ => tdo (mark_shut c)) else tret tt)
       (fun _ => tbind (tget (connected c)) (fun still : bool => if negb still then tret tt
       else tbind (twait (AwaitClosed c)) (fun r2 => match r2 with KDone => Do (lose c) (tret tt) | KCancelTask => traise ECancelled | _ => tstuck Unfit end))))) g2 w2 any).
    { apply keeps_get. destruct (c_open (get_conn c w2)); [|exact (LAST _ _ I2 A2)].
      match goal with |- P_Pool2.keeps _ _ _ i (tbind (tbind (temit ?e) (fun _ => tdo ?f)) ?k) g2 w2 ?V => change (keeps i (tbind (temit e) (fun _ => tbind (tdo f) k)) g2 w2 V) end.
      apply keeps_emit; [exact Logic.I|].
      assert (I3 : Inv (g2 ++ [By i (CloseTransport c)]) w2) by (apply (Inv_close _ _ _ _ _ _ c); auto).
      apply keeps_do. apply LAST; [|eapply accepted_prefix; [apply prefix_app|exact A2]].
      unfold mark_shut. apply Inv_upd; cbn; auto. intros _ Y. congruence. }
    destruct kd; try discriminate F; exact MID.
  Qed.
  Lemma client_payload p : pack_Is [VInt 0; VInt id0] = Ok p -> p = u32le 0 ++ u32le id0.
  Proof. intros H. P_Gw2.pack_inv H. rewrite P_Gw2.u32s_2. reflexivity. Qed.
  Lemma client_due i g X : X = 12522 \/ X = 12524 -> forall p, pack_Is [VInt 0; VInt id0] = Ok p -> (exists m, makeMessage 0 X p = Ok m) -> due i g X p.
  Proof. intros HX p E _. left. right. right. right. right. split; [exact HX|]. apply client_payload. exact E. Qed.

  Lemma keeps_remove_client i g w : Inv g w -> keeps i tremove_client g w any.
  Proof.
    intros I. unfold tremove_client. apply keeps_catch; [|intros e g' w' I' _; apply keeps_ret; auto].
    apply keeps_m_proto; [exact I|]. intros c A. apply keeps_get. rewrite (I_id _ _ _ _ _ I). apply keeps_command_request; [exact I|nq| |exact A].
    apply client_due. auto.
  Qed.
  Lemma keeps_unsubscribe i g w : Inv g w -> keeps i tunsubscribe_gateway g w any.
  Proof.
    intros I. unfold tunsubscribe_gateway. apply keeps_get. destruct (attached w); cbn [negb]; [|apply keeps_ret; auto].
    eapply keeps_lock; [exact I|]. intros g1 w1 I1 P1. apply keeps_get. destruct (m_is_client (w_cm w1)); [|apply (keeps_ret _ _ _ _ _ _ _ any); auto].
    apply keeps_put; [reflexivity|exact I1|]. intros w2 I2. apply keeps_m_proto; [exact I2|]. intros c A.
    apply keeps_put; [apply upd_core; reflexivity|exact I2|]. intros w3 I3. apply keeps_put; [apply upd_core; reflexivity|exact I3|]. intros w4 I4.
    apply keeps_remove_client. exact I4.
  Qed.
  Lemma keeps_disconnect i force g w : Inv g w -> keeps i (tasync_disconnect force) g w any.
  Proof.
    intros I. unfold tasync_disconnect. apply keeps_get. eapply keeps_bind with (V := any).
    - destruct (is_client w); [apply keeps_unsubscribe; exact I|apply keeps_ret; auto].
    - intros _ g1 w1 I1 P1 _. apply keeps_proto; [exact I1|]. intros c A. apply keeps_close; assumption.
  Qed.

  Definition sound (i : nat) (connect : task bool) : Prop := forall g w, Inv g w -> keeps i connect g w any.
  Definition fair {A} (i : nat) (g0 : log) (method : Z -> nat -> task A) : Prop :=
    forall mr c g w, prefix g0 g -> Inv g w -> accepted c g -> keeps i (method mr c) g w any.
  Lemma keeps_attempt {A} i g0 connect (method : Z -> nat -> task A) mr g w : sound i connect -> fair i g0 method -> prefix g0 g -> Inv g w ->
    keeps i (tattempt_request connect method mr) g w any.
  Proof.
    intros S F P I. unfold tattempt_request. eapply keeps_bind; [apply S; exact I|]. intros ok g1 w1 I1 P1 _.
    destruct ok; cbn [negb]; [|apply keeps_raise; exact I1]. apply keeps_proto; [exact I1|]. intros c A1.
    apply F; [eapply prefix_trans; eassumption|exact I1|exact A1].
  Qed.
  Lemma keeps_connected_request {A} i g0 connect (method : Z -> nat -> task A) delay g w : sound i connect -> fair i g0 method -> prefix g0 g -> Inv g w ->
    keeps i (tconnected_request connect method delay) g w any.
  Proof.
    intros S F P I. unfold tconnected_request. apply keeps_get. apply keeps_catch; [apply (keeps_attempt i g0); assumption|].
    intros e g1 w1 I1 P1. eapply keeps_bind; [apply keeps_disconnect; exact I1|]. intros _ g2 w2 I2 P2 _.
    eapply keeps_bind; [apply keeps_sleep; exact I2|]. intros _ g3 w3 I3 P3 _. apply (keeps_attempt i g0); try assumption.
    eapply prefix_trans; [exact P|]. eapply prefix_trans; [exact P1|]. eapply prefix_trans; eassumption.
  Qed.
  Lemma keeps_subscribe i connect g w : sound i connect -> Inv g w -> keeps i (tsubscribe_gateway connect) g w any.
  Proof.
    intros S I. unfold tsubscribe_gateway. apply keeps_get. destruct (attached w); cbn [negb]; [|apply keeps_ret; auto].
    eapply keeps_lock; [exact I|]. intros g1 w1 I1 P1. apply keeps_get. destruct (is_client w1); cbn [negb]; [apply (keeps_ret _ _ _ _ _ _ _ any); auto|].
    apply keeps_get. rewrite (I_id _ _ _ _ _ I1). eapply keeps_bind.
    - apply (keeps_connected_request i g1); [exact S| |apply prefix_refl|exact I1]. intros mr c g2 w2 P2 I2 A2. apply keeps_command_request; [exact I2|nq| |exact A2]. apply client_due. auto.
    - intros _ g2 w2 I2 P2 _. apply keeps_put; [reflexivity|exact I2|]. intros w3 I3. apply keeps_m_proto; [exact I3|]. intros c A.
      apply keeps_put_end; [apply upd_core; reflexivity|exact I3].
  Qed.
  Lemma register_core codes c : forall w, core (fold_left (fun w code => register c code (HClient code) w) codes w) = core w.
  Proof. induction codes as [|x codes IH]; intros w; [reflexivity|]. cbn [fold_left]. rewrite IH. apply upd_core. reflexivity. Qed.
  Lemma Inv_cm g w c f : Inv g w -> accepted c g -> m_proto (f (w_cm w)) = Some c -> m_id (f (w_cm w)) = m_id (w_cm w) -> Inv g (put_cm f w).
  Proof.
    intros I A E1 E2. destruct I. constructor; try assumption.
    - cbn [put_cm set_cm w_cm]. congruence.
    - cbn [put_cm set_cm w_cm]. intros c' E. congruence.
  Qed.
  Lemma keeps_attach i connect c mr g w : sound i connect -> Inv g w -> accepted c g -> keeps i (tattach connect c mr) g w any.
  Proof.
    intros S I A. unfold tattach. apply keeps_do.
    assert (I1 : Inv g (put_cm (fun m => cmset_client false (cmset_retries mr (cmset_proto (Some c) m))) w)) by (apply (Inv_cm _ _ c); auto).
    apply keeps_get. destruct (client_needed _); [|apply keeps_ret; auto].
    apply keeps_put; [apply upd_core; reflexivity|exact I1|]. intros w2 I2.
    apply keeps_put; [apply register_core|exact I2|]. intros w3 I3. apply keeps_subscribe; assumption.
  Qed.
  Lemma keeps_poll i g0 connect key_ method g w : sound i connect -> fair i g0 method -> prefix g0 g -> Inv g w -> keeps i (tpoll connect key_ method) g w any.
  Proof.
    intros S F P I. unfold tpoll. eapply keeps_bind; [apply (keeps_connected_request i g0); assumption|].
    intros [b|] g1 w1 I1 P1 _; [apply keeps_put_end; [reflexivity|exact I1]|apply keeps_ret; auto].
  Qed.

  (** the data requests *)
  Lemma fair_data i g0 X p (dec : bytes -> DM unit) (x : bytes -> call) : due i g0 X p ->
    (forall b, reads (h_float h0) X p b (x b) /\ dec b = run_decoder (x b)) -> fair i g0 (tdata_request X p dec).
  Proof. intros D H mr c g w P I A. eapply keeps_data_request; try eassumption. eapply due_prefix; eassumption. Qed.
  Lemma two_zeros : le_enc 4 0 ++ le_enc 4 0 = u32le 0 ++ u32le 0. Proof. reflexivity. Qed.
  Lemma fair_config i g0 : fair i g0 trequest_pool_config.
  Proof. apply (fair_data _ _ _ _ _ DConfig); [left; right; right; right; left; split; reflexivity|]. intros b. split; [constructor|reflexivity]. Qed.
  Lemma fair_status i g0 : due i g0 12526 (u32le 0) -> fair i g0 trequest_pool_status.
  Proof. intros D. apply (fair_data _ _ _ _ _ DStatus); [exact D|]. intros b. split; [constructor|reflexivity]. Qed.
  Lemma fair_chem i g0 : due i g0 12592 (u32le 0) -> fair i g0 trequest_chemistry.
  Proof. intros D. apply (fair_data _ _ _ _ _ DChem); [exact D|]. intros b. split; [constructor|reflexivity]. Qed.
  Lemma fair_scg i g0 : due i g0 12572 (u32le 0) -> fair i g0 trequest_scg_config.
  Proof. intros D. apply (fair_data _ _ _ _ _ DScg); [exact D|]. intros b. split; [constructor|reflexivity]. Qed.
  Lemma fair_pump i g0 j : 0 <= j < 8 -> due i g0 12584 (pump_message j) -> fair i g0 (trequest_pump_status j).
  Proof.
    intros R D mr c g w P I A. unfold trequest_pump_status. apply keeps_lift; [exact I|]. intros p E. rewrite P_Gw14.pump_packed in E by exact R. injection E as <-.
    apply (fair_data i g0 _ _ _ (DPump j)); auto. intros b. split; [constructor; exact R|reflexivity].
  Qed.
  Lemma fair_date i g0 : due i g0 8110 [] -> fair i g0 trequest_date_time.
  Proof.
    intros D mr c g w P I A. unfold trequest_date_time. eapply keeps_ask; [apply asks_request; [exact I|intros _; eapply due_prefix; eassumption|left; exact A]| |].
    - intros g' w' P' I'. apply keeps_ret; auto.
    - intros [|z b] g' w' P' I'; cbn [nonempty]; [apply keeps_ret; auto; eapply fresh_plain; [|exact I']; auto|]. apply keeps_get.
      eapply keeps_decode; [exact I'|discriminate|apply R_date with (now := w_clock w')|reflexivity|]. intros w2 I2. apply keeps_ret; auto.
  Qed.
  Lemma keeps_version i mr c g w : Inv g w -> accepted c g -> keeps i (trequest_gateway_version mr c) g w any.
  Proof.
    intros I A. unfold trequest_gateway_version. apply keeps_get. rewrite (I_host _ _ _ _ _ I).
    apply (fair_data i g _ _ _ (DVersion (h_float h0))); auto using prefix_refl; [left; right; right; left; auto|]. intros b. split; [constructor|reflexivity].
  Qed.

  Lemma keeps_connect i : forall n x, sound i (tasync_connect n x).
  Proof.
    induction n as [|n IH]; intros x g w I; cbn [tasync_connect]; [apply keeps_stuck; exact I|].
    apply keeps_get. destruct (is_connected w); [apply keeps_ret; auto|].
    apply keeps_put; [reflexivity|exact I|]. intros w1 I1. apply keeps_get. destruct (no_address w1); [apply keeps_raise; exact I1|].
    do 3 apply keeps_get. eapply keeps_bind; [apply keeps_connect_to_gateway; exact I1|]. intros [[c mac]|] g2 w2 I2 P2 A2; [|apply keeps_ret; auto].
    apply keeps_do.
    assert (I3 : Inv g2 (store_connection c mac w2)).
    { clear - I2 A2. destruct I2. constructor; try assumption. intros c' E. cbn [store_connection set_proto set_addr w_proto] in E. injection E as <-. exact A2. }
    apply keeps_get. eapply keeps_bind; [apply keeps_version; [exact I3|apply A2]|]. intros v g4 w4 I4 P4 _.
    apply keeps_put; [reflexivity|exact I4|]. intros w5 I5. apply keeps_get. destruct (Gateway.truthy _); [|apply keeps_ret; auto].
    eapply keeps_bind; [apply (keeps_poll i g4); [apply IH|apply fair_config|apply prefix_refl|exact I5]|]. intros _ g6 w6 I6 P6 _.
    apply keeps_proto; [exact I6|]. intros c2 A6. apply keeps_get.
    eapply keeps_bind; [apply keeps_attach; [apply IH|exact I6|exact A6]|]. intros _ g7 w7 I7 P7 _. apply keeps_ret; auto.
  Qed.
  Lemma keeps_command {A} i g0 n (method : Z -> nat -> task A) delay g w : fair i g0 method -> prefix g0 g -> Inv g w -> keeps i (tcommand n method delay) g w any.
  Proof. intros F P I. apply (keeps_connected_request i g0); auto. apply keeps_connect. Qed.
  Lemma keeps_get_poll i g0 n k method g w : fair i g0 method -> prefix g0 g -> Inv g w -> keeps i (tget_poll n k method) g w any.
  Proof. intros F P I. apply (keeps_poll i g0); auto. apply keeps_connect. Qed.
  Lemma pumps_entry_core w : core (pumps_entry w) = core w.
  Proof. unfold pumps_entry. destruct (din _ _); reflexivity. Qed.
  Lemma store_pump_core j b w : core (store_pump j b w) = core w.
  Proof. unfold store_pump. destruct (dget _ _) as [[]|]; reflexivity. Qed.
  Lemma keeps_pumps i g0 n : forall ids, (forall j, In j ids -> 0 <= j < 8) -> (forall j, 0 <= j < 8 -> due i g0 12584 (pump_message j)) ->
    forall g w, prefix g0 g -> Inv g w -> keeps i (tpumps_loop n ids) g w any.
  Proof.
    induction ids as [|j ids IH]; intros R D g w P I; cbn [tpumps_loop]; [apply keeps_ret; auto|].
    apply keeps_get. apply keeps_lift; [exact I|]. intros fl _. eapply keeps_bind with (V := any).
    - destruct (_ =? 0); [apply keeps_ret; auto|]. apply keeps_put; [apply pumps_entry_core|exact I|]. intros w1 I1.
      eapply keeps_bind; [apply (keeps_command i g0); [apply fair_pump; [apply R; left; reflexivity|apply D, R; left; reflexivity]|exact P|exact I1]|].
      intros [b|] g2 w2 I2 P2 _; [apply keeps_put_end; [apply store_pump_core|exact I2]|apply keeps_ret; auto].
    - intros _ g1 w1 I1 P1 _. apply IH; auto; [intros; apply R; right; assumption|eapply prefix_trans; eassumption].
  Qed.
  Lemma pump_ids j : In j [0; 1; 2; 3; 4; 5; 6; 7] -> 0 <= j < 8.
  Proof. cbn [In]. lia. Qed.
  Lemma keeps_update i n g w : (forall X p, (In X [12526; 12592; 12572] /\ p = u32le 0) \/ (X = 8110 /\ p = []) \/ (X = 12584 /\ exists i, 0 <= i < 8 /\ p = pump_message i) -> due i g X p) ->
    Inv g w -> keeps i (tasync_update n) g w any.
  Proof.
    intros D I. unfold tasync_update. apply keeps_get. destruct (w_data w); [apply keeps_raise; exact I|].
    eapply keeps_bind; [apply (keeps_get_poll i g); [apply fair_status, D; left; cbn; auto|apply prefix_refl|exact I]|]. intros _ g1 w1 I1 P1 _.
    eapply keeps_bind; [apply (keeps_pumps i g); [apply pump_ids|intros j J; apply D; right; right; eauto|exact P1|exact I1]|]. intros _ g2 w2 I2 P2 _.
    assert (P02 : prefix g g2) by (eapply prefix_trans; eassumption).
    eapply keeps_bind; [apply (keeps_get_poll i g); [apply fair_chem, D; left; cbn; auto|exact P02|exact I2]|]. intros _ g3 w3 I3 P3 _.
    assert (P03 : prefix g g3) by (eapply prefix_trans; eassumption).
    eapply keeps_bind; [apply (keeps_get_poll i g); [apply fair_scg, D; left; cbn; auto|exact P03|exact I3]|]. intros _ g4 w4 I4 P4 _.
    apply (keeps_get_poll i g); [apply fair_date, D; auto|eapply prefix_trans; eassumption|exact I4].
  Qed.
  Lemma keeps_require {B} i b (k : unit -> task B) g w V : Inv g w -> (b = Ok true -> keeps i (k tt) g w V) -> keeps i (tbind (trequire b) k) g w V.
  Proof.
    intros I K. unfold trequire. destruct b as [[]|e]; cbn [tlift tret traise tbind]; [apply K; reflexivity|apply keeps_raise; exact I..].
  Qed.
  Lemma keeps_subscribe_client i n cb code g w : Inv g w -> keeps i (tasync_subscribe_client n cb code) g w any.
  Proof.
    intros I. unfold tasync_subscribe_client. apply keeps_get. destruct (attached w); cbn [negb]; [|apply keeps_ret; auto].
    apply keeps_put; [reflexivity|exact I|]. intros w1 I1. apply keeps_m_proto; [exact I1|]. intros c A.
    apply keeps_put; [apply upd_core; reflexivity|exact I1|]. intros w2 I2. apply keeps_get. eapply keeps_bind with (V := any).
    - destruct (client_needed w2); [apply keeps_subscribe; [apply keeps_connect|exact I2]|apply keeps_ret; auto].
    - intros _ g3 w3 I3 _ _. apply keeps_ret; auto.
  Qed.

  (** the setters: their payloads, read off the same call on a connected gateway at rest *)
  Definition bench (d : dict) (X : Z) : world :=
    mkW (mkAddr None 80 0 0 [] []) None (Some 0%nat) d [] 1 (mkCM (Some 0%nat) [] false 5 id0 false) [new_conn]
        [mkResp (KReply (X + 1) []) [] None (S754_zero false)] (S754_zero false) h0.
  Lemma bench_sends d X pl p : pl = Ok p -> (exists m, makeMessage 0 X p = Ok m) ->
    exists t w' o, command 1 (command_request X pl) 0 (bench d X) = (t, w', o) /\ In (Send 0 X p) t.
  Proof.
    intros E M. set (r := mkResp (KReply (X + 1) []) [] None (S754_zero false)).
    pose proof (P_Gw1.ready_command_request 0 (bench d X) 0 X pl p 0 r [] [] (set_env [] (bench d X))) as R.
    rewrite R; [|repeat split; reflexivity|cbn; lia|exact E|exact M|reflexivity..].
    do 3 eexists. split; [reflexivity|]. left. reflexivity.
  Qed.
  Lemma fair_command i g0 X pl : ~ query X -> (forall p, pl = Ok p -> (exists m, makeMessage 0 X p = Ok m) -> due i g0 X p) -> fair i g0 (tcommand_request X pl).
  Proof. intros N D mr c g w P I A. apply keeps_command_request; [exact I|exact N| |exact A]. intros p E M. eapply due_prefix; [exact P|]. apply D; assumption. Qed.
  Lemma keeps_setter i n g w X pl : ~ query X -> (forall p, pl = Ok p -> (exists m, makeMessage 0 X p = Ok m) -> due i g X p) -> Inv g w ->
    keeps i (tcommand n (tcommand_request X pl) 0) g w any.
  Proof. intros N D I. apply (keeps_command i g); [apply fair_command; [exact N|exact D]|apply prefix_refl|exact I]. Qed.

  Lemma keeps_perform i n call g w : Inv g w -> In (Started i call (w_data w)) g -> keeps i (tperform n call) g w any.
  Proof.
    intros I S.
    assert (D : forall X p, own_message (h_tz h0) call (w_data w) X p -> due i g X p) by (intros X p O; right; eauto).
    destruct call; cbn [tperform]; cbn [own_message] in D.
    - eapply keeps_bind; [apply keeps_connect; exact I|]. intros _ g1 w1 I1 _ _. apply keeps_ret; auto.
    - apply keeps_disconnect. exact I.
    - apply (keeps_get_poll i g); [apply fair_config|apply prefix_refl|exact I].
    - apply (keeps_get_poll i g); [apply fair_status, D; auto|apply prefix_refl|exact I].
    - apply (keeps_get_poll i g); [apply fair_chem, D; auto|apply prefix_refl|exact I].
    - apply (keeps_get_poll i g); [apply fair_scg, D; auto|apply prefix_refl|exact I].
    - apply (keeps_get_poll i g); [apply fair_date, D; auto|apply prefix_refl|exact I].
    - apply (keeps_pumps i g); [apply pump_ids|intros j J; apply D; eauto|apply prefix_refl|exact I].
    - apply keeps_update; [exact D|exact I].
    - destruct ((0 <? k) && (k <? 6)); [apply keeps_put_end; [reflexivity|exact I]|apply keeps_raise; exact I].
    - apply keeps_get. apply keeps_require; [exact I|]. intros B1. apply keeps_require; [exact I|]. intros B2.
      apply keeps_setter; [nq| |exact I]. intros p E M. apply D. split; [reflexivity|].
      destruct (bench_sends (w_data w) _ _ _ E M) as (t & w' & o & R & J).
      apply (P_Gw2.set_circuit_only 1 circuit state (bench (w_data w) 12530) t w' o 0); [|exact J].
      unfold async_set_circuit. rewrite P_Monad.bind_get. change (w_data (bench (w_data w) 12530)) with (w_data w). rewrite B1, P_Gw1.require_true, B2, P_Gw1.require_true. exact R.
    - apply keeps_get. apply keeps_require; [exact I|]. intros B1. apply keeps_require; [exact I|]. intros B2.
      apply keeps_setter; [nq| |exact I]. intros p E M. apply D. split; [reflexivity|].
      destruct (bench_sends (w_data w) _ _ _ E M) as (t & w' & o & R & J).
      apply (P_Gw2.set_heat_temp_only 1 body temp (bench (w_data w) 12528) t w' o 0); [|exact J].
      unfold async_set_heat_temp. rewrite P_Monad.bind_get. change (w_data (bench (w_data w) 12528)) with (w_data w). rewrite B1, P_Gw1.require_true, B2, P_Gw1.require_true. exact R.
    - apply keeps_get. apply keeps_require; [exact I|]. intros B1. apply keeps_require; [exact I|]. intros B2.
      apply keeps_setter; [nq| |exact I]. intros p E M. apply D. split; [reflexivity|].
      destruct (bench_sends (w_data w) _ _ _ E M) as (t & w' & o & R & J).
      apply (P_Gw2.set_heat_mode_only 1 body mode (bench (w_data w) 12538) t w' o 0); [|exact J].
      unfold async_set_heat_mode. rewrite P_Monad.bind_get. change (w_data (bench (w_data w) 12538)) with (w_data w). rewrite B1, P_Gw1.require_true, B2, P_Gw1.require_true. exact R.
    - apply keeps_require; [exact I|]. intros B1.
      apply keeps_setter; [nq| |exact I]. intros p E M. apply D. split; [reflexivity|].
      destruct (bench_sends (w_data w) _ _ _ E M) as (t & w' & o & R & J).
      apply (P_Gw2.set_lights_only 1 mode (bench (w_data w) 12556) t w' o 0); [|exact J].
      unfold async_set_color_lights. rewrite B1, P_Gw1.require_true. exact R.
    - apply keeps_get. apply keeps_lift; [exact I|]. intros [[[a b] s] k] HA.
      apply keeps_setter; [nq| |exact I]. intros p E M. apply D. split; [reflexivity|].
      destruct (bench_sends (w_data w) _ _ _ E M) as (t & w' & o & R & J).
      apply (P_Gw3.set_scg_only 1 pool spa super timer (bench (w_data w) 12576) t w' o 0); [|exact J].
      unfold async_set_scg_config. rewrite P_Monad.bind_get. change (w_data (bench (w_data w) 12576)) with (w_data w). rewrite HA. cbn [mlift]. rewrite P_Monad.bind_ret. exact R.
    - apply keeps_get. apply keeps_lift; [exact I|]. intros [[[[[a b] s] k] x] y] HA.
      apply keeps_setter; [nq| |exact I]. intros p E M. apply D. split; [reflexivity|].
      destruct (bench_sends (w_data w) _ _ _ E M) as (t & w' & o & R & J).
      apply (P_Gw4.set_chem_only 1 ph orp ca alk cya salt (bench (w_data w) 12594) t w' o 0); [|exact J].
      unfold async_set_chem_data. rewrite P_Monad.bind_get. change (w_data (bench (w_data w) 12594)) with (w_data w). rewrite HA. cbn [mlift]. rewrite P_Monad.bind_ret. exact R.
    - do 2 apply keeps_get. rewrite (I_host _ _ _ _ _ I). apply keeps_lift; [exact I|]. intros [t1 dst] HA.
      apply keeps_setter; [nq| |exact I]. intros p E M. apply D. split; [reflexivity|]. intros V.
      destruct (bench_sends (w_data w) _ _ _ E M) as (tr & w' & o & R & J).
      apply (P_Gw4.set_date_time_only 1 t auto_dst (bench (w_data w) 8112) tr w' o 0 p); [|exact V|exact J].
      unfold async_set_date_time. do 2 rewrite P_Monad.bind_get. change (w_data (bench (w_data w) 8112)) with (w_data w). change (w_host (bench (w_data w) 8112)) with h0.
      rewrite HA. cbn [mlift]. rewrite P_Monad.bind_ret. exact R.
    - do 2 apply keeps_get. rewrite (I_host _ _ _ _ _ I). apply keeps_lift; [exact I|]. intros [t1 dst] HA.
      apply keeps_setter; [nq| |exact I]. intros p E M. apply D. split; [reflexivity|]. intros V.
      destruct (bench_sends (w_data w) _ _ _ E M) as (tr & w' & o & R & J).
      apply (P_Gw4.set_date_time_only 1 (Some now) None (bench (w_data w) 8112) tr w' o 0 p); [|exact V|exact J].
      unfold async_set_date_time. do 2 rewrite P_Monad.bind_get. change (w_data (bench (w_data w) 8112)) with (w_data w). change (w_host (bench (w_data w) 8112)) with h0.
      rewrite HA. cbn [mlift]. rewrite P_Monad.bind_ret. exact R.
    - eapply keeps_bind; [apply (keeps_command i g); [|apply prefix_refl|exact I]|intros _ g1 w1 I1 _ _; apply keeps_ret; auto].
      intros mr c g1 w1 P1 I1 A1. eapply keeps_mono; [apply keeps_request; [exact I1|right; do 2 eexists; eapply prefix_in; [exact P1|exact S]| |left; exact A1]|auto].
      intros _. eapply due_prefix; [exact P1|]. apply D. auto.
    - apply keeps_get. destruct (w_proto w); [apply keeps_put_end; [apply upd_core; reflexivity|exact I]|apply keeps_raise; exact I].
    - apply keeps_get. destruct (w_proto w); [apply keeps_put_end; [apply upd_core; reflexivity|exact I]|apply keeps_ret; auto].
    - eapply keeps_bind; [apply keeps_subscribe_client; exact I|]. intros _ g1 w1 I1 _ _. apply keeps_ret; auto.
    - unfold tremove_subscription. apply keeps_get. destruct (negb _); [apply keeps_ret; auto|]. apply keeps_put; [reflexivity|exact I|]. intros w1 I1.
      do 2 apply keeps_get. destruct (_ && _); [|apply keeps_ret; auto]. apply keeps_m_proto; [exact I1|]. intros c A. apply keeps_put_end; [apply upd_core; reflexivity|exact I1].
    - apply keeps_unsubscribe. exact I.
    - unfold tasync_ping. apply keeps_catch; [|intros e g' w' I' _; apply keeps_ret; auto]. apply keeps_m_proto; [exact I|]. intros c A.
      apply keeps_command_request; [exact I|nq| |exact A]. intros p E _. injection E as <-. apply D. auto.
  Qed.

  Lemma push_reads code b dec : Client.push_decoder code = Some dec -> exists x, dec b = run_decoder x /\ pushes code b x.
  Proof.
    unfold Client.push_decoder. destruct (Z.eqb_spec code 12500) as [->|]; [intros [= <-]; exists (DStatus b); split; [reflexivity|constructor]|].
    destruct (Z.eqb_spec code 12505) as [->|]; [intros [= <-]; exists (DChem b); split; [reflexivity|constructor]|].
    destruct (Z.eqb_spec code 12504) as [->|]; [intros [= <-]; exists (DColor b); split; [reflexivity|constructor]|discriminate].
  Qed.
  Theorem pool_inv n w es : Inv [] w -> pinv Inv (ok h0 id0) (fun _ _ => True) (fun _ _ _ => True) (prun n (start w) es).
  Proof.
    apply schedule_inv; [| | | |auto].
    - intros n' g w' i c I _ O _. eapply safe_mono; [apply keeps_perform; [apply Inv_more; [exact Logic.I|exact Logic.I|exact I]|apply in_or_app; right; left; reflexivity]|]. unfold ended. cbn. tauto.
    - intros g w' c t w2 I E. unfold lose in E. destruct (connected c w') eqn:C; injection E as <- <-; [|cbn [map]; rewrite app_nil_r; exact I].
      assert (I1 : Inv (g ++ [Env (Lost c)]) (upd_conn c (fun k => mkConn false (c_closing k) false (c_handlers k) (c_keepalive k)) w')) by (apply Inv_lost; [left; reflexivity|exact C|exact I]).
      destruct (w_cb w'); cbn [map]; [|exact I1]. change [Env (Lost c); Env (Callback n0)] with ([Env (Lost c)] ++ [Env (Callback n0)]). rewrite app_assoc. apply Inv_more; [exact Logic.I|exact Logic.I|exact I1].
    - intros g w' c code b I. apply Inv_more; [exact Logic.I|exact Logic.I|exact I].
    - intros g w' c code b cbs I. unfold handled. destruct (Client.push_decoder code) as [dec|] eqn:E.
      + destruct (push_reads _ b _ E) as (x & -> & R).
        assert (I1 : InvD (fun _ _ => True) (g ++ [Applied c code b cbs]) w') by (eapply Inv_moreD; [exact Logic.I| |exact I]; auto). eapply Inv_data; [|exact I1].
        eapply S_push; [apply (I_data _ _ _ _ _ I)|exact R].
      + assert (I1 : InvD (fun _ _ => True) (g ++ [Applied c code b cbs]) w') by (eapply Inv_moreD; [exact Logic.I| |exact I]; auto). eapply Inv_data; [|exact I1].
        apply S_other; [apply (I_data _ _ _ _ _ I)| |discriminate]. intros c0 code0 b0 cbs0 y X PY. injection X as _ <- <- _. destruct PY; discriminate E.
  Qed.
  Lemma fresh_inv w : w_host w = h0 -> m_id (w_cm w) = id0 -> w_data w = d0 -> w_proto w = None -> m_proto (w_cm w) = None -> w_conns w = [] -> Inv [] w.
  Proof.
    intros E1 E2 E3 E4 E5 E6. constructor; auto; try (intros; contradiction).
    - rewrite E3. constructor.
    - congruence.
    - congruence.
    - intros c. unfold connected, get_conn. rewrite E6. destruct c; discriminate.
  Qed.
End Calls.
