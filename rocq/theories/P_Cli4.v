(** What follows from [behaves]; the commands it does not cover. *)
From Verif Require Import Py F64 Struct Utf Utility Const Enum Decode Data Discovery SpecDiscovery World Request Gateway Traces Api Spec SpecParse Paths Cli SpecCli
  P_Base P_Util P_Monad P_Request P_Sat P_Paths P_Dict P_Gw1 P_Gw2 P_Gw3 P_Gw4 P_Gw9 P_Gw11 P_Gw15 P_Cm3 P_Calm P_Enum P_Parse P_Discovery Prop_Enum P_Cli P_Cli2 P_Cli3.
From Verif Require Import Cli SpecCli P_Cli.

Definition looks (X : Z) (p : bytes) : Prop := connecting_code X \/ polling X.
Lemma start_careful n now c x : Forall (careful n (okay now c)) [Do (Connect x); Do Update].
Proof. repeat apply Forall_cons; [apply ok_connect|apply ok_update|apply Forall_nil]. Qed.
(** a command that writes nothing *)
Lemma no_writes now X p : ~ writes now GJson X p.
Proof. intros W. inversion W. Qed.
Lemma looks_okay n now s : careful n (okay now GJson) s -> careful n looks s.
Proof. intros C w t w' o E k X p I. destruct (C _ _ _ _ E _ _ _ I) as [?|[?|W]]; [left|right|contradiction (no_writes _ _ _ W)]; assumption. Qed.
Lemma looks_start n (now : datetime) x : Forall (careful n looks) [Do (Connect x); Do Update].
Proof. repeat apply Forall_cons; try apply Forall_nil; apply (looks_okay n now); [apply ok_connect|apply ok_update]. Qed.
Lemma looks_bye n (now : datetime) : careful n looks bye.
Proof. apply (looks_okay n now), ok_disconnect. Qed.

Lemma behaves_within n nw now o c w t w' e : behaves n nw now o c w t w' e -> accepted c = true -> dates_ok now c -> within (okay now c) t.
Proof.
  intros B A D. destruct B as [x t w' e U C| |]; [|apply within_nil|apply within_nil].
  destruct C as [t w' en o0 P _ _ _|t w' P _|t w' o0 _ P _ _|t w' dst _ P _|t1 w1 l code t2 w' en o0 P _ As P2 _].
  1-4: eapply progress_within; [exact P|apply start_careful].
  apply within_app; [eapply progress_within; [exact P|apply start_careful]|].
  eapply progress_within; [exact P2|]. apply Forall_app. split; [eapply asks_careful; eassumption|].
  apply Forall_cons; [apply ok_disconnect|apply Forall_nil].
Qed.
Lemma ends_val en code z : ends en code (Val z) -> en = Finished /\ z = code \/ z = -1 /\ exists e, en = Failed e /\ screenlogic e.
Proof. intros E. inversion E; subst; [left; auto|right; eauto]. Qed.
Lemma progress_last n l c w t w' : progress n (l ++ [Do c]) w t w' Finished -> exists t1 w1 t2, t = t1 ++ t2 /\ progress n l w t1 w1 Finished /\ perform n c w1 = (t2, w', Val tt).
Proof.
  revert w t. induction l as [|s l IH]; intros w t P; cbn [app] in P; inversion P; subst.
  - match goal with H : progress n [] _ _ _ _ |- _ => inversion H; subst end. exists [], w, t1. rewrite app_nil_r. split; [reflexivity|]. split; [constructor|assumption].
  - match goal with H : progress n (l ++ _) _ _ _ _ |- _ => destruct (IH _ _ H) as (a & w2 & b & -> & P2 & E) end.
    exists (t1 ++ a), w2, b. split; [apply app_assoc|]. split; [eapply P_next; eassumption|exact E].
Qed.

(** the meaning of the exit codes *)
Lemma asks_code now d c l code : asks now d c l code ->
  code = 0 \/ l = [] /\ (code = 4 \/ code = 65 \/ code = 129).
Proof. intros []; auto 6. Qed.
Definition start_of (x : connect_args) : list step := [Do (Connect x); Do Update].
Lemma conducts_val n now x c w t w' z : conducts n now x c w t w' (Val z) ->
  (z = -1 /\ exists en, progress n (start_of x) w t w' en) \/
  (z = 1 /\ progress n (start_of x) w t w' Finished /\ ~ has_entry (w_data w') (KS "controller")) \/
  (c = Export /\ z = 0 /\ progress n (start_of x) w t w' Finished) \/
  (exists t1 w1 l code t2 en, t = t1 ++ t2 /\ progress n (start_of x) w t1 w1 Finished /\ asks now (w_data w1) c l code /\
     progress n (l ++ [bye]) w1 t2 w' en /\ (en = Finished /\ z = code \/ z = -1)).
Proof.
  intros C. remember (Val z) as e eqn:Q.
  destruct C as [t w' en o0 P NF _ En|t w' P N|t w' o0 X P _ R|t w' dst _ P _|t1 w1 l code t2 w' en o0 P _ As P2 En].
  - subst o0. apply ends_val in En. destruct En as [(-> & _)|(-> & _)]; [contradiction|]. left. eauto.
  - injection Q as <-. auto.
  - subst o0. destruct R as [R|(e & R & _)]; [|discriminate]. injection R as ->. auto 6.
  - discriminate.
  - subst o0. right; right; right. exists t1, w1, l, code, t2, en. repeat (split; [auto|]). apply ends_val in En. tauto.
Qed.
Lemma behaves_val n nw now o c w t w' z : behaves n nw now o c w t w' (Val z) ->
  (exists x, uses o nw x /\ conducts n now x c w t w' (Val z)) \/
  (t = [] /\ w' = w /\ (z = -1 \/ z = 1 /\ unnamed o /\ Forall (fun b => ~ valid_datagram b) (net_in nw))).
Proof.
  intros B. remember (Val z) as e eqn:Q. destruct B as [x t w' e U C|U ? F|e ? ? R].
  - left. eauto.
  - injection Q as <-. right. auto 6.
  - destruct R as [(x & ->)| ->]; [discriminate|]. injection Q as <-. auto 6.
Qed.
Lemma looks_progress n (now : datetime) x w t w' en : progress n (start_of x) w t w' en -> within looks t.
Proof. intros P. eapply progress_within; [exact P|apply (looks_start n now)]. Qed.

Lemma behaves_refused n nw now o c w t w' z : behaves n nw now o c w t w' (Val z) -> 0 < z -> within looks t.
Proof.
  intros B Z. apply behaves_val in B. destruct B as [(x & U & C)|(-> & _)]; [|apply within_nil].
  apply conducts_val in C. destruct C as [(-> & _)|[(_ & P & _)|[(_ & -> & _)|(t1 & w1 & l & code & t2 & en & -> & P & As & P2 & [(-> & ->)| ->])]]]; try Lia.lia.
  - eapply looks_progress; [exact now|exact P].
  - apply within_app; [eapply looks_progress; [exact now|exact P]|].
    destruct (asks_code _ _ _ _ _ As) as [->|(-> & _)]; [Lia.lia|]. eapply progress_within; [exact P2|].
    apply Forall_cons; [apply (looks_bye n now)|apply Forall_nil].
Qed.
Lemma behaves_acked n nw now o c w t w' X : behaves n nw now o c w t w' (Val 0) -> setting c = Some X -> acknowledged X t.
Proof.
  intros B S. apply behaves_val in B. destruct B as [(x & U & C)|(_ & _ & [?|(? & _)])]; try discriminate.
  apply conducts_val in C. destruct C as [(? & _)|[(? & _)|[(-> & _)|(t1 & w1 & l & code & t2 & en & -> & P & As & P2 & [(-> & <-)|?])]]]; try discriminate.
  destruct (asks_setting _ _ _ _ _ As S) as (k & I & K & R). apply ack_r. eapply progress_app_l; eassumption.
Qed.
Lemma behaves_closed n nw now o c w t w' z : behaves n nw now o c w t w' (Val z) -> c <> Export -> In z [0; 4; 65; 129] -> is_connected w' = false.
Proof.
  intros B X I. assert (Z : z <> -1 /\ z <> 1) by (cbn in I; Lia.lia). destruct Z as [Z1 Z2].
  apply behaves_val in B. destruct B as [(x & U & C)|(_ & _ & [?|(? & _)])]; try contradiction.
  apply conducts_val in C. destruct C as [(? & _)|[(? & _)|[(? & _)|(t1 & w1 & l & code & t2 & en & -> & P & As & P2 & [(-> & <-)|?])]]]; try contradiction.
  apply progress_last in P2. destruct P2 as (t3 & w3 & t4 & _ & _ & E). cbn [perform] in E. eapply disconnect_down; exact E.
Qed.
Lemma behaves_code n nw now o c w t w' z : behaves n nw now o c w t w' (Val z) ->
  z = 0 \/ z = -1 \/
  (z = 1 /\ ((unnamed o /\ Forall (fun b => ~ valid_datagram b) (net_in nw)) \/ ~ has_entry (w_data w') (KS "controller"))) \/
  (z = 4 /\ exists i x t1 w1, (c = GCircuit i \/ exists s, c = SCircuit i s) /\
    progress n [Do (Connect x); Do Update] w t1 w1 Finished /\ ~ known_circuit i (w_data w1)) \/
  (z = 65 /\ (c = SScg None None \/ c = SSuper None None)) \/
  (z = 129 /\ (c = SChemSetpoint None None \/ c = SChemValue None None None None)).
Proof.
  intros B. apply behaves_val in B. destruct B as [(x & U & C)|(_ & _ & [?|(? & ? & ?)])]; auto 6; [|right; right; left; auto].
  apply conducts_val in C. destruct C as [(? & _)|[(? & _ & ?)|[(_ & ? & _)|(t1 & w1 & l & code & t2 & en & -> & P & As & P2 & [(-> & ->)|?])]]]; auto 6.
  destruct As; auto; try (right; right; right; left; split; [reflexivity|]; exists i, x, t1, w1; split; [eauto|split; [exact P|assumption]]); auto 8.
Qed.

(** ------------------------------------------------------------------ *)
(** * Commands that [behaves] leaves out: --auto-dst and 'discover' with an address *)
Lemma run_gateway n v d k w ls t w' o : run n (print_gateway v d k) w = (ls, (t, w', o)) -> exists ls' pre, run n k w = (ls', (t, w', o)) /\ ls = pre ++ ls'.
Proof.
  unfold print_gateway. intros E. cbn [run] in E. destruct v; cbn [run] in E; destruct (run n k w) as [l2 [[t2 w2] o2]]; injection E as <- <- <- <-.
  - eexists l2, [_; _; _]. split; reflexivity.
  - eexists l2, [_; _]. split; reflexivity.
Qed.
Lemma run_header n (v : bool) d k w ls t w' o : run n ((if v then print_gateway v d else fun k => k) k) w = (ls, (t, w', o)) ->
  exists ls' pre, run n k w = (ls', (t, w', o)) /\ ls = pre ++ ls' /\ (v = false -> pre = []).
Proof.
  destruct v; intros E.
  - apply run_gateway in E. destruct E as (l & pre & E & ->). exists l, pre. split; [exact E|]. split; [reflexivity|discriminate].
  - exists ls, []. auto.
Qed.
Lemma discover_named n v d now x w ls t w' o : run n (main v d now x Discover) w = (ls, (t, w', o)) -> within looks t.
Proof.
  unfold main. intros E. apply start_inv in E. destruct E as [(t1 & w1 & t2 & P & E & ->)|(en & P & _)].
  - apply within_app; [eapply looks_progress; [exact now|exact P]|]. cbn [run] in E. destruct (negb _); [injection E as <- <- <- <-; apply within_nil|].
    apply run_header in E. destruct E as (l & pre & E & _). injection E as <- <- <- <-. apply within_nil.
  - eapply looks_progress; [exact now|exact P].
Qed.
Lemma command_payload n X pl delay w t w' x : command n (command_request X pl) delay w = (t, w', Val x) -> exists p, pl = Ok p.
Proof.
  assert (R : forall mr c w t w' x, command_request X pl mr c w = (t, w', Val x) -> exists p, pl = Ok p).
  { intros mr c w0 t0 w0' x0 E. unfold command_request in E. destruct pl; [eauto|]. cbn [mlift] in E. rewrite bind_raise in E. discriminate. }
  assert (A : forall k mr w t w' x, attempt_request k (command_request X pl) mr w = (t, w', Val x) -> exists p, pl = Ok p).
  { intros k mr w0 t0 w0' x0 E. unfold attempt_request in E. apply bind_inv in E.
    destruct E as [(t1 & w1 & b & t2 & _ & E & ->)|[(e & _ & Q)|(y & _ & Q)]]; try discriminate.
    destruct (negb b); [discriminate|]. apply bind_inv in E. destruct E as [(t3 & w3 & c & t4 & _ & E & ->)|[(e & _ & Q)|(y & _ & Q)]]; try discriminate.
    eapply R; exact E. }
  unfold command, connected_request. rewrite bind_get. unfold mcatch.
  destruct (attempt_request _ _ _ w) as [[t1 w1] [z|e|y]] eqn:E1; intros E.
  - eapply A; exact E1.
  - destruct (is_comm_error e); [|discriminate].
    match type of E with context [mbind ?a ?b w1] => destruct (mbind a b w1) as [[t2 w2] o2] eqn:E2 end.
    injection E as <- <- ->. apply bind_inv in E2.
    destruct E2 as [(t3 & w3 & c & t4 & _ & E2 & ->)|[(? & _ & Q)|(? & _ & Q)]]; try discriminate. apply bind_inv in E2.
    destruct E2 as [(t5 & w5 & c5 & t6 & _ & E2 & ->)|[(? & _ & Q)|(? & _ & Q)]]; try discriminate. eapply A; exact E2.
  - discriminate.
Qed.
Lemma no_time_payload t s p : (rbind (encodeMessageTime t) (fun a => rbind (pack_Is [VStr s]) (fun b => Ok (a ++ b)))) <> Ok p.
Proof. destruct (encodeMessageTime t); discriminate. Qed.
Lemma set_time_str n t s w tr w' o : async_set_date_time n t (Some (VStr s)) w = (tr, w', o) -> within looks tr /\ forall x, o <> Val x.
Proof.
  intros E. split.
  - intros k X p I. assert (O := setter_only n (SetDateTime t (Some (VStr s))) 8112 w tr w' o Logic.I eq_refl E _ _ _ I).
    destruct O as [->|C]; [|left; exact C]. exfalso.
    unfold async_set_date_time in E. rewrite !bind_get in E. destruct (datetime_args _ _ _ _) as [[t1 d1]|e] eqn:D; cbn [mlift] in E.
    2:{ rewrite bind_raise in E. injection E as <- <- <-. contradiction. }
    rewrite bind_ret in E. apply (command_sends _ _ _ _ _ _ _ _ _ _ E) in I; [|not_connecting].
    assert (d1 = VStr s). { unfold datetime_args in D. destruct t; apply rbind_ok in D; destruct D as (a & _ & D); cbn in D; congruence. }
    subst d1. exact (no_time_payload _ _ _ I).
  - intros x ->. unfold async_set_date_time in E. rewrite !bind_get in E. destruct (datetime_args _ _ _ _) as [[t1 d1]|e] eqn:D; cbn [mlift] in E.
    2:{ rewrite bind_raise in E. discriminate. }
    rewrite bind_ret in E. apply command_payload in E. destruct E as (p & E).
    assert (d1 = VStr s). { unfold datetime_args in D. destruct t; apply rbind_ok in D; destruct D as (a & _ & D); cbn in D; congruence. }
    subst d1. exact (no_time_payload _ _ _ E).
Qed.
Lemma get_time_looks n (now : datetime) w t w' o : perform n GetDatetime w = (t, w', o) -> within looks t.
Proof. intros E. assert (C := looks_okay n now (Do GetDatetime)). eapply C; [|exact E]. eapply ok_get. right; right; split; reflexivity. Qed.
Lemma dst_main n v d now x date s w ls t w' o : run n (main v d now x (SDateTime date (Some s))) w = (ls, (t, w', o)) ->
  within looks t /\ o <> Val 0.
Proof.
  unfold main. intros E. apply start_inv in E. destruct E as [(t1 & w1 & t2 & P & E & ->)|(en & P & N1 & N2 & En & _)].
  2:{ split; [eapply looks_progress; [exact now|exact P]|]. intros ->. cbn [reported] in En. apply ends_val in En.
      destruct En as [(? & _)|(? & _)]; [contradiction|discriminate]. }
  enough (H : within looks t2 /\ o <> Val 0) by (destruct H; split; [apply within_app; [eapply looks_progress; [exact now|exact P]|assumption]|assumption]).
  cbn [run] in E. destruct (negb _); [injection E as <- <- <- <-; split; [apply within_nil|discriminate]|].
  apply run_header in E. destruct E as (l & pre & E & _). cbn [action] in E. unfold set_date_time in E.
  rewrite run_lift in E. destruct (match date with None => _ | Some _ => _ end) as [tm|e]; [|injection E as <- <- <- <-; split; [apply within_nil|discriminate]].
  apply run_call in E. destruct E as [(t3 & w3 & t4 & E1 & E & ->)|[(e & E1 & -> & _)|(y & E1 & -> & _)]].
  2,3: split; [eapply get_time_looks; [exact now|exact E1]|discriminate].
  apply run_call in E. destruct E as [(t5 & w5 & t6 & E2 & E & ->)|[(e & E2 & -> & _)|(y & E2 & -> & _)]].
  - cbn [perform ostr] in E2. apply set_time_str in E2. destruct E2 as [_ N]. contradiction (N tt eq_refl).
  - cbn [perform ostr] in E2. apply set_time_str in E2. destruct E2 as [W _]. split; [|discriminate]. apply within_app; [eapply get_time_looks; [exact now|exact E1]|exact W].
  - cbn [perform ostr] in E2. apply set_time_str in E2. destruct E2 as [W _]. split; [|discriminate]. apply within_app; [eapply get_time_looks; [exact now|exact E1]|exact W].
Qed.

(** every run is one of these *)
Lemma cli_cases n nw now o c w :
  (exists ls e, run n (program o now (if no_ip o then snd (async_discover nw) else Ok []) c) w = (ls, (r_trace (cli n nw now o c w), r_world (cli n nw now o c w), e)) /\
    r_end (cli n nw now o c w) = reported e /\ r_out (cli n nw now o c w) = ls ++ match e with Exc x => if is_sl x then [Printed [Err_ x]] else [] | _ => [] end).
Proof.
  unfold cli. destruct (no_ip o).
  - destruct (async_discover nw) as [dv f]. cbn [snd]. destruct (run n _ w) as [ls [[t w'] e]]. exists ls, e.
    destruct e as [z|x|y]; cbn [reported]; [|destruct (is_sl x)|]; cbn [r_trace r_world r_end r_out]; rewrite ?app_nil_r; auto.
  - destruct (run n _ w) as [ls [[t w'] e]]. exists ls, e.
    destruct e as [z|x|y]; cbn [reported]; [|destruct (is_sl x)|]; cbn [r_trace r_world r_end r_out]; rewrite ?app_nil_r; auto.
Qed.
(** what is run: nothing, a list of hosts, or [main] *)
Lemma program_cases o now f c : (exists e, program o now f c = Raise e) \/ (program o now f c = Print (text "No ScreenLogic gateways found.") (Return 1)) \/
  (exists (v : bool) hs, c = Discover /\ program o now f c = (if v then Print (text "Discovered:") else fun k => k) (list_hosts v hs)) \/
  (exists d x, program o now f c = main (o_verbose o) d now x c).
Proof.
  unfold program. destruct (no_ip o); [|eauto 6]. destruct f as [[|h hs]|e]; cbn [lift]; [auto| |eauto].
  destruct c; eauto 8.
Qed.
Lemma dst_silent n nw now o date s w : let r := cli n nw now o (SDateTime date (Some s)) w in within looks (r_trace r) /\ r_end r <> Val 0.
Proof.
  intros r. unfold r. destruct (cli_cases n nw now o (SDateTime date (Some s)) w) as (ls & e & E & Q & _). rewrite Q. clear Q.
  revert E. generalize (r_trace (cli n nw now o (SDateTime date (Some s)) w)) (r_world (cli n nw now o (SDateTime date (Some s)) w)). intros t w' E.
  destruct (program_cases o now (if no_ip o then snd (async_discover nw) else Ok []) (SDateTime date (Some s))) as [(x & Q)|[Q|[(v & hs & Q & _)|(d & x & Q)]]];
    try discriminate; rewrite Q in E.
  - injection E as <- <- <- <-. split; [apply within_nil|]. cbn [reported]. destruct (is_sl x); discriminate.
  - injection E as <- <- <- <-. split; [apply within_nil|discriminate].
  - apply dst_main in E. destruct E as [W N]. split; [exact W|]. destruct e as [z|y|y]; cbn [reported]; [exact N|destruct (is_sl y); discriminate|discriminate].
Qed.
Lemma discover_looks n nw now o w : within looks (r_trace (cli n nw now o Discover w)).
Proof.
  destruct (cli_cases n nw now o Discover w) as (ls & e & E & _).
  revert E. generalize (r_trace (cli n nw now o Discover w)) (r_world (cli n nw now o Discover w)). intros t w' E.
  destruct (program_cases o now (if no_ip o then snd (async_discover nw) else Ok []) Discover) as [(x & Q)|[Q|[(v & hs & _ & Q)|(d & x & Q)]]]; rewrite Q in E.
  - injection E as <- <- <- <-. apply within_nil.
  - injection E as <- <- <- <-. apply within_nil.
  - assert (I : idle n w ((if v then Print (text "Discovered:") else fun k => k) (list_hosts v hs))).
    { destruct v; [apply idle_print|]; apply idle_hosts. }
    destruct (I _ _ _ _ E) as (-> & _). apply within_nil.
  - eapply discover_named; exact E.
Qed.
