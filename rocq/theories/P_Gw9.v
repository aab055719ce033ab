(** C57: the two rounds of a command. *)
From Verif Require Import Py F64 Struct Utf Utility Const Spec Enum Decode World Request Gateway Traces Paths Api P_Base P_Util P_Monad P_Request P_Sat P_Paths P_Gw1 P_Gw6 P_Gw7 P_Calm P_Gw8.
Open Scope m_scope.

Lemma sends_of_in X t c p : In (c, p) (sends_of X t) <-> In (Send c X p) t.
Proof.
  unfold sends_of. rewrite in_flat_map. split.
  - intros (e & I & J). destruct e; try contradiction. destruct (Z.eqb_spec code X); [|contradiction]. destruct J as [J|[]].
    injection J as -> ->. subst. exact I.
  - intros I. exists (Send c X p). split; [exact I|]. rewrite Z.eqb_refl. left. reflexivity.
Qed.
Lemma sends_in t c X p : In (c, X, p) (sends t) <-> In (Send c X p) t.
Proof.
  unfold sends. rewrite in_flat_map. split.
  - intros (e & I & J). destruct e; try contradiction. destruct J as [J|[]]. injection J as -> -> ->. exact I.
  - intros I. exists (Send c X p). split; [exact I|]. left. reflexivity.
Qed.
Lemma sends_of_len X t : (List.length (sends_of X t) <= List.length (sends t))%nat.
Proof.
  induction t as [|e t IH]; [cbn; lia|]. change (e :: t) with ([e] ++ t). rewrite sends_of_app, sends_app, !app_length.
  assert (List.length (sends_of X [e]) <= List.length (sends [e]))%nat; [|lia].
  destruct e; cbn; try lia. destruct (_ =? _); cbn; lia.
Qed.
Lemma replies_in r t : (exists t1 c ms t2, t = t1 ++ AwaitReply c ms :: Got r :: t2) -> In r (replies t).
Proof.
  intros (t1 & c & ms & t2 & ->). induction t1 as [|e t1 IH].
  - cbn [app replies]. left. reflexivity.
  - cbn [app replies]. destruct e; try exact IH.
    destruct (t1 ++ AwaitReply c ms :: Got r :: t2) as [|e' t'] eqn:E; [exact IH|]. destruct e'; try exact IH. right. exact IH.
Qed.

(** no message with code X *)
Definition silent (X : Z) : wrel := fun _ t _ => forall c p, ~ In (Send c X p) t.
Lemma silent_closed X : closed (fun code _ => code <> X) (silent X).
Proof.
  constructor; unfold silent; try (intros; intros []; fail).
  - intros w t1 w1 t2 w2 H1 H2 c p I. apply in_app_or in I. destruct I as [I|I]; [eapply H1|eapply H2]; exact I.
  - intros w c code p _ K c0 p0 [I|[]]. congruence.
  - intros w c b _ c0 p0 [I|[]]. discriminate.
  - intros w c c0 p0 [I|[]]. discriminate.
  - intros w e E P c p [I|[]]. subst e. contradiction.
  - intros w e r rest l w1 E P I c p [K|[K|K]]; [subst e; contradiction|discriminate|].
    eapply losses_no_send; [eapply interfere_only; exact I|exact K].
  - intros w E c p [K|[]]. discriminate.
  - intros w r rest l w1 E I c p [K|[K|K]]; [discriminate|discriminate|].
    eapply losses_no_send; [eapply interfere_only; exact I|exact K].
  - intros w c l w1 I c0 p K. eapply losses_no_send; [eapply lose_only; exact I|exact K].
Qed.
Lemma connect_silent n X : ~ connecting X -> Sat (silent X) (async_connect n no_args).
Proof. intros N. eapply sat_connect_api; [apply silent_closed|]. intros code p K ->. contradiction. Qed.
Lemma disconnect_silent f X : ~ connecting X -> Sat (silent X) (async_disconnect f).
Proof. intros N. eapply sat_disconnect; [apply silent_closed|]. intros p E. apply N. subst X. apply connecting_in. cbn. tauto. Qed.
Lemma connect_hist n : Sat conn_hist (async_connect n no_args).
Proof. eapply sat_connect_api; [apply hist_closed|]. intros; exact Logic.I. Qed.
Lemma disconnect_hist f : Sat conn_hist (async_disconnect f).
Proof. eapply sat_disconnect; [apply hist_closed|]. intros; exact Logic.I. Qed.

Lemma attempt_inv {A} n X good (method : Z -> nat -> M A) mr w t w' o : one_request X good method -> ~ connecting X ->
  attempt_request (async_connect n no_args) method mr w = (t, w', o) ->
  exists ta tb wa, t = ta ++ tb /\ conn_hist w ta wa /\ silent X w ta wa /\
   ((tb = [] /\ w' = wa) \/ (exists c, w_proto wa = Some c /\ method mr c wa = (tb, w', o))).
Proof.
  intros Q N E. unfold attempt_request in E. apply bind_inv in E.
  destruct E as [(t1 & w1 & b & t2 & E1 & E2 & ->)|[(e & E1 & _)|(y & E1 & _)]].
  - exists t1, t2, w1. split; [reflexivity|]. split; [eapply connect_hist; exact E1|]. split; [eapply connect_silent; eassumption|].
    destruct b; cbn [negb] in E2; [|injection E2 as <- <- <-; auto].
    unfold proto_or_fail in E2. rewrite bind_assoc, bind_get in E2. destruct (w_proto w1) as [c|].
    + rewrite bind_ret in E2. right. eauto.
    + rewrite bind_raise in E2. injection E2 as <- <- <-. auto.
  - exists t, [], w'. rewrite app_nil_r. split; [reflexivity|]. split; [eapply connect_hist; exact E1|]. split; [eapply connect_silent; eassumption|]. auto.
  - exists t, [], w'. rewrite app_nil_r. split; [reflexivity|]. split; [eapply connect_hist; exact E1|]. split; [eapply connect_silent; eassumption|]. auto.
Qed.

(** one round: all messages with code X on one connection, connected when it began *)
Definition round (X mr : Z) (w : world) (t : trace) (w' : world) : Prop :=
  exists c, Forall (fun x => fst x = c) (sends_of X t) /\ (List.length (sends_of X t) <= Z.to_nat (mr + 1))%nat.
Lemma silent_sends X w t w' : silent X w t w' -> sends_of X t = [].
Proof. intros H. destruct (sends_of X t) as [|[c p] l] eqn:E; [reflexivity|]. exfalso. apply (H c p). apply sends_of_in. rewrite E. left. reflexivity. Qed.

Lemma answered_app X r a b w w' : silent X w a w' -> answered X r (a ++ b) -> answered X r b.
Proof.
  intros S (t1 & c & p & ms & t2 & E). destruct (split_app _ _ _ _ _ E) as [(a2 & E1 & _)|(b1 & _ & E1)].
  - exfalso. apply (S c p). rewrite E1. apply in_or_app. right. left. reflexivity.
  - exists b1, c, p, ms, t2. exact E1.
Qed.
Lemma answered_replies X r t : answered X r t -> In r (replies t).
Proof.
  intros (t1 & c & p & ms & t2 & ->). apply replies_in. exists (t1 ++ [Send c X p]), c, ms, t2.
  rewrite <- app_assoc. reflexivity.
Qed.

Lemma one_side {A} X good (method : Z -> nat -> M A) mr c w t w' o : one_request X good method -> method mr c w = (t, w', o) ->
  Forall (fun x => fst x = c) (sends_of X t) /\ (List.length (sends_of X t) <= Z.to_nat (mr + 1))%nat /\
  (sends_of X t <> [] -> connected c w = true).
Proof.
  intros Q E. pose proof (q_sends _ _ _ Q _ _ _ _ _ _ E) as (F & L). pose proof (q_up _ _ _ Q _ _ _ _ _ _ E) as U. repeat split.
  - apply Forall_forall. intros [c' p] I. apply sends_of_in, sends_in in I. rewrite Forall_forall in F. apply F in I. cbn in *. tauto.
  - pose proof (sends_of_len X t). lia.
  - intros N. apply U. intros Z0. apply N. pose proof (sends_of_len X t). rewrite Z0 in H. destruct (sends_of X t); [reflexivity|cbn in H; lia].
Qed.

Lemma two_rounds_nil X mr good : two_rounds X mr good [].
Proof. exists [], [], []. cbn. repeat split; try lia; try (exists 0%nat; constructor); congruence. Qed.
Lemma two_rounds_one X mr good t c : Forall (fun x => fst x = c) (sends_of X t) -> (List.length (sends_of X t) <= Z.to_nat (mr + 1))%nat ->
  two_rounds X mr good t.
Proof.
  intros F L. exists t, [], []. cbn [app sends_of flat_map List.length]. rewrite app_nil_r. repeat split; try lia; try (eexists; exact F); try (exists 0%nat; constructor); cbn; try congruence.
Qed.

Lemma command_rounds {A} n X good (method : Z -> nat -> M A) delay w t w' o : one_request X good method -> ~ connecting X ->
  command n method delay w = (t, w', o) -> two_rounds X (w_retries w) good t.
Proof.
  intros Q N E. unfold command, connected_request in E. rewrite bind_get in E. unfold mcatch in E.
  destruct (attempt_request (async_connect n no_args) method (w_retries w) w) as [[t1 w1] o1] eqn:E1.
  pose proof (attempt_inv _ _ _ _ _ _ _ _ _ Q N E1) as (ta & tb & wa & T1 & H1 & S1 & D1).
  assert (B1 : exists c1, Forall (fun x => fst x = c1) (sends_of X t1) /\ (List.length (sends_of X t1) <= Z.to_nat (w_retries w + 1))%nat).
  { subst t1. rewrite sends_of_app, (silent_sends _ _ _ _ S1). cbn [app].
    destruct D1 as [(-> & _)|(c & P & Em)]; [exists 0%nat; cbn; split; [constructor|lia]|].
    exists c. destruct (one_side _ _ _ _ _ _ _ _ _ Q Em) as (F & L & _). auto. }
  assert (Fin : t = t1 -> two_rounds X (w_retries w) good t).
  { intros ->. destruct B1 as (c & F & L). eapply two_rounds_one; eassumption. }
  destruct o1 as [a|e|y]; try (injection E as <- <- <-; auto; fail).
  destruct (is_comm_error e) eqn:Ce; [|injection E as <- <- <-; auto].
  match type of E with (match ?x with _ => _ end) = _ => destruct x as [[t2 w2] o2] eqn:E2 end. injection E as <- <- <-.
  apply bind_inv in E2.
  assert (Plain : forall (t0 : trace), sends_of X t0 = [] -> two_rounds X (w_retries w) good (t1 ++ t0)).
  { intros t0 Z0. destruct B1 as (c & F & L). eapply two_rounds_one with (c := c); rewrite sends_of_app, Z0, app_nil_r; assumption. }
  destruct E2 as [(td & wd & u0 & t3 & Ed & E3 & ->)|[(e' & Ed & _)|(y & Ed & _)]];
    [|apply Plain; eapply silent_sends; eapply disconnect_silent; eassumption..].
  pose proof (disconnect_silent _ _ N _ _ _ _ Ed) as Sd. pose proof (disconnect_hist _ _ _ _ _ Ed) as Hd.
  pose proof Ed as Wd. apply disconnect_inv in Ed. destruct Ed as (cd & Pd & Dd & Kd). apply (disconnect_waits _ _ _ _ _ _ Pd) in Wd.
  assert (Sl : forall ms, Sat (silent X) (msleep ms)) by (intros; eapply sat_sleep; apply silent_closed).
  assert (Hl : forall ms, Sat conn_hist (msleep ms)) by (intros; eapply sat_sleep; apply hist_closed).
  apply bind_inv in E3.
  destruct E3 as [(ts & ws & u1 & t4 & Es & E4 & ->)|[(e' & Es & _)|(y & Es & _)]];
    [|apply Plain; rewrite sends_of_app, (silent_sends _ _ _ _ Sd), (silent_sends _ _ _ _ (Sl _ _ _ _ _ Es)); reflexivity..].
  pose proof (Sl _ _ _ _ _ Es) as Ss. pose proof (Hl _ _ _ _ _ Es) as Hs.
  pose proof (attempt_inv _ _ _ _ _ _ _ _ _ Q N E4) as (tc & te & wc & T4 & H4 & S4 & D4).
  exists t1, (td ++ ts ++ tc), te. subst t4. split; [rewrite <- ?app_assoc; reflexivity|].
  destruct B1 as (c1 & F1 & L1). split; [eauto|]. split; [exact L1|].
  split; [rewrite !sends_of_app, (silent_sends _ _ _ _ Sd), (silent_sends _ _ _ _ Ss), (silent_sends _ _ _ _ S4); reflexivity|].
  destruct D4 as [(-> & _)|(c4 & P4 & E5)].
  { cbn. repeat split; try lia; try congruence. exists 0%nat. constructor. }
  destruct (one_side _ _ _ _ _ _ _ _ _ Q E5) as (F4 & L4 & U4). split; [eauto|]. split; [exact L4|]. intros Ne. specialize (U4 Ne).
  split.
  - intros r b An Aw. subst t1. apply (answered_app _ _ _ _ _ _ S1) in An. apply answered_replies in An.
    destruct D1 as [(-> & _)|(c & P & Em)]; [contradiction|]. eapply (q_bad _ _ _ Q); eassumption.
  - split; [exists cd; apply in_or_app; left; exact Wd|]. intros cx p1 cy p2 I1 I2. rewrite Forall_forall in F4. apply F4 in I2. cbn [fst] in I2. subst cy.
    subst t1. rewrite sends_of_app, (silent_sends _ _ _ _ S1) in I1. cbn [app] in I1.
    destruct D1 as [(-> & _)|(c & P & Em)]; [contradiction|].
    destruct (one_side _ _ _ _ _ _ _ _ _ Q Em) as (Fm & _ & Um).
    assert (Nm : sends_of X tb <> []) by (intros Z0; rewrite Z0 in I1; contradiction).
    specialize (Um Nm). rewrite Forall_forall in Fm. apply Fm in I1. cbn [fst] in I1. subst cx.
    pose proof (q_kept _ _ _ Q _ _ _ _ _ _ Em) as Km. destruct Km as (_ & _ & Kp & _).
    rewrite Kp, P in Pd. injection Pd as <-.
    pose proof (q_hist _ _ _ Q _ _ _ _ _ _ Em) as Hm.
    pose proof (hist_trans _ _ _ _ _ Hm Hd) as Hmd. destruct Hmd as (Ln & _ & Hc & _).
    split; [|split; [apply in_or_app; left; exact Wd|]].
    + intros <-. pose proof (hist_trans _ _ _ _ _ Hs H4) as (_ & St & _ & _).
      rewrite St in U4; [discriminate| |exact Dd]. apply connected_in in Um. lia.
    + specialize (Hc _ Um Dd). apply in_app_or in Hc. apply in_or_app. destruct Hc as [Hc|Hc]; [left|right]; apply in_or_app; auto.
Qed.

Lemma poll_trace n k (method : Z -> nat -> M (option bytes)) w t w' o : poll (async_connect n no_args) k method w = (t, w', o) ->
  exists w1 o1, command n method 1 w = (t, w1, o1) /\
   match o1 with
   | Val (Some b) => w' = set_last (dset k (VBytes b) (w_last w1)) w1 /\ o = Val tt
   | Val None => w' = w1 /\ o = Val tt
   | Exc e => w' = w1 /\ o = Exc e
   | Stuck y => w' = w1 /\ o = Stuck y
   end.
Proof.
  unfold poll. intros E. apply bind_inv in E.
  destruct E as [(t1 & w1 & a & t2 & E1 & E2 & ->)|[(e & E1 & ->)|(y & E1 & ->)]].
  - exists w1, (Val a). destruct a; injection E2 as <- <- <-; rewrite app_nil_r; auto.
  - exists w', (Exc e). auto.
  - exists w', (Stuck y). auto.
Qed.
Lemma ignore_inv {A} (m : M A) w t w' o : ignore m w = (t, w', o) ->
  exists o1, m w = (t, w', o1) /\ o = match o1 with Val _ => Val tt | Exc e => Exc e | Stuck y => Stuck y end.
Proof.
  unfold ignore. intros E. apply bind_inv in E.
  destruct E as [(t1 & w1 & a & t2 & E1 & E2 & ->)|[(e & E1 & ->)|(y & E1 & ->)]].
  - injection E2 as <- <- <-. rewrite app_nil_r. exists (Val a). auto.
  - exists (Exc e). auto.
  - exists (Stuck y). auto.
Qed.
Lemma lift_inv {A B} (r : res A) (k : A -> M B) w t w' o : mbind (mlift r) k w = (t, w', o) ->
  (exists a, r = Ok a /\ k a w = (t, w', o)) \/ (exists e, r = Err e /\ t = [] /\ w' = w /\ o = Exc e).
Proof.
  destruct r as [a|e]; cbn [mlift].
  - rewrite bind_ret. eauto.
  - rewrite bind_raise. intros E. injection E as <- <- <-. eauto 6.
Qed.
Lemma perform_rounds n call X w t w' o : request_code call = Some X -> ~ connecting X ->
  perform n call w = (t, w', o) -> two_rounds X (w_retries w) (takes call) t.
Proof.
  intros Rc N E.
  assert (Cm : forall X' pl delay w0 t0 w0' o0, X' = X -> w_retries w0 = w_retries w ->
     command n (command_request X' pl) delay w0 = (t0, w0', o0) -> two_rounds X (w_retries w) (fun b => b = []) t0).
  { intros X' pl delay w0 t0 w0' o0 -> <- E0. eapply command_rounds; [apply command_once|exact N|exact E0]. }
  assert (Pl : forall k (method : Z -> nat -> M (option bytes)) w0 t0 w0' o0, one_request X (fun _ => True) method -> w_retries w0 = w_retries w ->
     poll (async_connect n no_args) k method w0 = (t0, w0', o0) -> two_rounds X (w_retries w) (fun _ => True) t0).
  { intros k method w0 t0 w0' o0 Q <- E0. apply poll_trace in E0. destruct E0 as (w1 & o1 & E0 & _).
    eapply command_rounds; [exact Q|exact N|exact E0]. }
  destruct call; cbn [request_code] in Rc; try discriminate; injection Rc as <-; cbn [perform] in E; cbn [takes].
  - eapply Pl; [| |exact E]; [apply data_once, ca_status|reflexivity].
  - eapply Pl; [| |exact E]; [apply data_once, ca_chem|reflexivity].
  - eapply Pl; [| |exact E]; [apply data_once, ca_scg|reflexivity].
  - eapply Pl; [| |exact E]; [apply time_once|reflexivity].
  - unfold async_set_circuit in E. rewrite bind_get in E.
    apply require_inv in E. destruct E as [(_ & E)|(-> & _)]; [|apply two_rounds_nil].
    apply require_inv in E. destruct E as [(_ & E)|(-> & _)]; [|apply two_rounds_nil].
    eapply Cm; [| |exact E]; reflexivity.
  - unfold async_set_heat_temp in E. rewrite bind_get in E.
    apply require_inv in E. destruct E as [(_ & E)|(-> & _)]; [|apply two_rounds_nil].
    apply require_inv in E. destruct E as [(_ & E)|(-> & _)]; [|apply two_rounds_nil].
    eapply Cm; [| |exact E]; reflexivity.
  - unfold async_set_heat_mode in E. rewrite bind_get in E.
    apply require_inv in E. destruct E as [(_ & E)|(-> & _)]; [|apply two_rounds_nil].
    apply require_inv in E. destruct E as [(_ & E)|(-> & _)]; [|apply two_rounds_nil].
    eapply Cm; [| |exact E]; reflexivity.
  - unfold async_set_color_lights in E.
    apply require_inv in E. destruct E as [(_ & E)|(-> & _)]; [|apply two_rounds_nil].
    eapply Cm; [| |exact E]; reflexivity.
  - unfold async_set_scg_config in E. rewrite bind_get in E. apply lift_inv in E.
    destruct E as [([[[? ?] ?] ?] & _ & E)|(e & _ & -> & _)]; [|apply two_rounds_nil]. eapply Cm; [| |exact E]; reflexivity.
  - unfold async_set_chem_data in E. rewrite bind_get in E. apply lift_inv in E.
    destruct E as [([[[[[? ?] ?] ?] ?] ?] & _ & E)|(e & _ & -> & _)]; [|apply two_rounds_nil]. eapply Cm; [| |exact E]; reflexivity.
  - unfold async_set_date_time in E. rewrite bind_get, bind_get in E. apply lift_inv in E.
    destruct E as [([? ?] & _ & E)|(e & _ & -> & _)]; [|apply two_rounds_nil]. eapply Cm; [| |exact E]; reflexivity.
  - unfold async_synchronize_date_time, async_set_date_time in E. rewrite bind_get, bind_get in E. apply lift_inv in E.
    destruct E as [([? ?] & _ & E)|(e & _ & -> & _)]; [|apply two_rounds_nil]. eapply Cm; [| |exact E]; reflexivity.
  - apply ignore_inv in E. destruct E as (o1 & E & _). eapply command_rounds; [apply request_once|exact N|exact E].
Qed.
