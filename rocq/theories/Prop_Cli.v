(** Theorems about the command line (C85, C86, C91-C98).

    Vocabulary: [cli n nw now o c w] is the run of the command [c] with the options [o] on a new
    gateway [w], [nw] being what the network does during discovery and [now] the host's clock;
    its [r_trace] is what the gateway did, [r_world] the gateway afterwards, [r_out] what was
    printed, [r_end] the exit code or the exception that escaped.  SpecCli.v says which API calls
    a command stands for.  [accepted c]: argparse takes the words given. *)
From Verif Require Import Py F64 Struct Utf Utility Const Enum Decode Data Discovery SpecDiscovery World Request Gateway Traces Api Spec SpecParse Paths Hostile Cli SpecCli
  P_Base P_Paths P_Cli P_Cli2 P_Cli3 P_Cli4 P_Cli5 Prop_Request Prop_Gateway Prop_Connect Prop_Discovery.
From Verif Require Import Cli SpecCli.

(** what an adapter says to a command line: login, configuration, status, two pumps, chemistry,
    chlorinator, clock; the goodbye *)
Definition update_answers : list resp := [status_answer; pump_answer; pump_answer; chem_answer; scg_answer; time_answer].
Definition hello : list resp := welcome ++ config_answer :: update_answers.
Definition goodbye : list resp := [ok; ok].
Definition new_gw (env : list resp) : world := match fresh_gateway env with Ok w => w | Err _ => live_world env end.
Definition some_net : net := {| net_open := None; net_send := None; net_in := [[1; 2]; dg1]; net_cancelled := false |}.
Definition some_now : datetime := mkDT 2024 3 5 6 7 8 900000.
Definition at_home (v : bool) : options := mkOpt v None 80.
Definition at_addr (v : bool) : options := mkOpt v (Some (u "10.0.0.9")) 80.
Definition codes (t : trace) : list Z := map (fun x => snd (fst x)) (sends t).
Lemma some_net_ok : Forall wf_bytes (net_in some_net).
Proof.
  unfold some_net, dg1, wf_bytes, is_byte. cbn [net_in]. vm_compute u. cbn [app].
  repeat (constructor; [repeat (constructor; [Lia.lia|]); constructor|]). constructor.
Qed.

(** C91.  Every run makes exactly the API calls its command stands for, in their order, on the
    adapter that was named or else on the first that answered, until one of them fails. *)
Theorem C91_calls n nw now o c w : accepted c = true -> ~ (exists d s, c = SDateTime d (Some s)) -> c <> Discover ->
  Forall wf_bytes (net_in nw) ->
  behaves n nw now o c w (r_trace (cli n nw now o c w)) (r_world (cli n nw now o c w)) (r_end (cli n nw now o c w)).
Proof. intros A D. apply cli_behaves; [exact A|]. intros X. apply D. destruct c; try contradiction. destruct dst; [eauto|contradiction]. Qed.
Print Assumptions C91_calls.
(** found by discovery, 'set circuit 500 on' *)
Example C91_nonvacuous : let r := cli 5 some_net some_now (at_home false) (SCircuit 500 (u "on"))
    (new_gw (hello ++ [says (KReply 12531 [])] ++ update_answers ++ goodbye)) in
  accepted (SCircuit 500 (u "on")) = true /\ r_end r = Val 0 /\
  codes (r_trace r) = [14; 27; 8120; 12532; 12526; 12584; 12584; 12592; 12572; 8110; 12530; 12526; 12584; 12584; 12592; 12572; 8110] /\
  a_ip (w_addr (r_world r)) = Some (u "192.168.0.7") /\ a_port (w_addr (r_world r)) = 80.
Proof. vm_compute. repeat split. Qed.

(** C92.  Exit code 0 of a command that sets something: the adapter acknowledged it. *)
Theorem C92_zero n nw now o c w X : accepted c = true -> ~ (exists d s, c = SDateTime d (Some s)) -> c <> Discover ->
  Forall wf_bytes (net_in nw) -> setting c = Some X -> r_end (cli n nw now o c w) = Val 0 -> acknowledged X (r_trace (cli n nw now o c w)).
Proof. intros A D1 D2 W S E. pose proof (C91_calls n nw now o c w A D1 D2 W) as B. rewrite E in B. exact (behaves_acked _ _ _ _ _ _ _ _ _ B S). Qed.
Print Assumptions C92_zero.
(** A positive exit code: nothing was set, *)
Theorem C92_positive n nw now o c w z : accepted c = true -> ~ (exists d s, c = SDateTime d (Some s)) -> c <> Discover ->
  Forall wf_bytes (net_in nw) -> r_end (cli n nw now o c w) = Val z -> 0 < z ->
  forall k X p, In (Send k X p) (r_trace (cli n nw now o c w)) -> connecting_code X \/ polling X.
Proof. intros A D1 D2 W E Z. pose proof (C91_calls n nw now o c w A D1 D2 W) as B. rewrite E in B. exact (behaves_refused _ _ _ _ _ _ _ _ _ B Z). Qed.
Print Assumptions C92_positive.
(** and the codes mean: 1 no adapter or no controller, 4 no such circuit, 65 and 129 nothing to set. *)
Theorem C92_codes n nw now o c w z : accepted c = true -> ~ (exists d s, c = SDateTime d (Some s)) -> c <> Discover ->
  Forall wf_bytes (net_in nw) -> r_end (cli n nw now o c w) = Val z ->
  z = 0 \/ z = -1 \/
  (z = 1 /\ ((unnamed o /\ Forall (fun b => ~ valid_datagram b) (net_in nw)) \/ ~ has_entry (w_data (r_world (cli n nw now o c w))) (KS "controller"))) \/
  (z = 4 /\ exists i x t1 w1, (c = GCircuit i \/ exists s, c = SCircuit i s) /\
    progress n [Do (Connect x); Do Update] w t1 w1 Finished /\ ~ known_circuit i (w_data w1)) \/
  (z = 65 /\ (c = SScg None None \/ c = SSuper None None)) \/
  (z = 129 /\ (c = SChemSetpoint None None \/ c = SChemValue None None None None)).
Proof. intros A D1 D2 W E. pose proof (C91_calls n nw now o c w A D1 D2 W) as B. rewrite E in B. exact (behaves_code _ _ _ _ _ _ _ _ _ B). Qed.
Print Assumptions C92_codes.
Example C92_nonvacuous :
  r_end (cli 5 some_net some_now (at_addr false) (GCircuit 77) (new_gw (hello ++ goodbye))) = Val 4 /\
  r_end (cli 5 some_net some_now (at_addr false) (SScg None None) (new_gw (hello ++ goodbye))) = Val 65 /\
  r_end (cli 5 some_net some_now (at_addr false) Dashboard (new_gw [says KOSError])) = Val (-1) /\
  (let r := cli 5 some_net some_now (at_addr false) (SHeatTemp (u "pool") 90) (new_gw (hello ++ [says (KReply 12529 [])] ++ update_answers ++ goodbye)) in
   r_end r = Val 0 /\ setting (SHeatTemp (u "pool") 90) = Some 12528 /\ accepted (SHeatTemp (u "pool") 90) = true).
Proof. vm_compute. repeat split. Qed.

(** C93.  The commands that look send nothing but what connecting and polling send. *)
Theorem C93_reading n nw now o c w : accepted c = true -> reading c -> Forall wf_bytes (net_in nw) ->
  forall k X p, In (Send k X p) (r_trace (cli n nw now o c w)) -> connecting_code X \/ polling X.
Proof.
  intros A R W. destruct c; try contradiction; try (exact (discover_looks n nw now o w));
    (intros k X p I; eapply behaves_within in I;
      [|apply C91_calls; [exact A|intros (? & ? & ?); discriminate|discriminate|exact W]|exact A|exact Logic.I];
     destruct I as [I|[I|I]]; [left; exact I|right; exact I|inversion I]).
Qed.
Print Assumptions C93_reading.
Example C93_nonvacuous : let r := cli 5 some_net some_now (at_addr false) (GDateTime None) (new_gw (hello ++ [time_answer] ++ goodbye)) in
  reading (GDateTime None) /\ r_end r = Val 0 /\ codes (r_trace r) = [14; 27; 8120; 12532; 12526; 12584; 12584; 12592; 12572; 8110; 8110].
Proof. vm_compute. repeat split. Qed.

(** C94.  Every other message a run sends does what the command line said. *)
Theorem C94_as_typed n nw now o c w : accepted c = true -> ~ (exists d s, c = SDateTime d (Some s)) -> c <> Discover -> dates_ok now c ->
  Forall wf_bytes (net_in nw) ->
  forall k X p, In (Send k X p) (r_trace (cli n nw now o c w)) -> connecting_code X \/ polling X \/ writes now c X p.
Proof. intros A D1 D2 D3 W. eapply behaves_within; [apply C91_calls; assumption|exact A|exact D3]. Qed.
Print Assumptions C94_as_typed.
Example C94_nonvacuous :
  let c := SSuper (Some (u "1")) (Some 24) in
  let r := cli 5 some_net some_now (at_addr false) c (new_gw (hello ++ [says (KReply 12577 []); scg_answer] ++ goodbye)) in
  accepted c = true /\ r_end r = Val 0 /\ filter (fun x => snd (fst x) =? 12576) (sends (r_trace r)) = [(0%nat, 12576, u32le 0 ++ u32le 51 ++ u32le 5 ++ u32le 1 ++ u32le 24)].
Proof. vm_compute. repeat split. Qed.

(** C95.  A run that ends with one of the command's exit codes has closed its connection, *)
Theorem C95_closed_partial n nw now o c w z : accepted c = true -> ~ (exists d s, c = SDateTime d (Some s)) -> c <> Discover -> c <> Export ->
  Forall wf_bytes (net_in nw) -> r_end (cli n nw now o c w) = Val z -> In z [0; 4; 65; 129] ->
  is_connected (r_world (cli n nw now o c w)) = false.
Proof. intros A D1 D2 D3 W E I. pose proof (C91_calls n nw now o c w A D1 D2 W) as B. rewrite E in B. exact (behaves_closed _ _ _ _ _ _ _ _ _ B D3 I). Qed.
Print Assumptions C95_closed_partial.
(** but not 'export', which succeeds and leaves the connection open, *)
Theorem C95_export_refuted : exists nw now o w, Forall wf_bytes (net_in nw) /\ let r := cli 5 nw now o Export w in
  r_end r = Val 0 /\ is_connected (r_world r) = true.
Proof. exists some_net, some_now, (at_addr false), (new_gw hello). split; [exact some_net_ok|]. vm_compute. split; reflexivity. Qed.
Print Assumptions C95_export_refuted.
(** nor a run that a value out of range ends with an uncaught ValueError. *)
Theorem C95_error_refuted : exists nw now o c w, Forall wf_bytes (net_in nw) /\ accepted c = true /\ let r := cli 5 nw now o c w in
  r_end r = Exc EValue /\ is_connected (r_world r) = true.
Proof. exists some_net, some_now, (at_addr false), (SHeatTemp (u "pool") 200), (new_gw hello). split; [exact some_net_ok|]. split; [reflexivity|]. vm_compute. split; reflexivity. Qed.
Print Assumptions C95_error_refuted.
Example C95_nonvacuous : let r := cli 5 some_net some_now (at_addr false) GAutoDst (new_gw (hello ++ [time_answer] ++ goodbye)) in
  r_end r = Val 0 /\ codes (r_trace r) <> [] /\ is_connected (r_world r) = false.
Proof. vm_compute. repeat split. discriminate. Qed.

(** C96.  'discover' without an address lists each adapter that answered, in order, and makes no
    connection; it exits with 1 when none did. *)
Theorem C96_lists_partial n nw now o w : Forall wf_bytes (net_in nw) -> unnamed o -> net_works nw ->
  let r := cli n nw now o Discover w in
  r_trace r = [] /\ r_world r = w /\
  ((Forall (fun b => ~ valid_datagram b) (net_in nw) /\ r_end r = Val 1 /\ r_out r = [Printed [T (u "No ScreenLogic gateways found.")]]) \/
   (Exists valid_datagram (net_in nw) /\ r_end r = Val 0 /\ exists rows, host_rows (o_verbose o) (net_in nw) rows /\
      r_out r = (if o_verbose o then [Printed [T (u "Discovered:")]] else []) ++ rows)).
Proof. exact (cli_discover n nw now o w). Qed.
Print Assumptions C96_lists_partial.
(** With an address it connects instead, and fails with AttributeError. *)
Theorem C96_with_address_refuted : exists nw now o w, Forall wf_bytes (net_in nw) /\ net_works nw /\ Exists valid_datagram (net_in nw) /\
  let r := cli 5 nw now o Discover w in r_out r = [] /\ r_end r = Exc EAttribute /\ is_connected (r_world r) = true.
Proof.
  exists some_net, some_now, (at_addr false), (new_gw hello). split; [exact some_net_ok|]. split; [repeat split|].
  split; [right; left; exists an1; exact (conj (proj1 C78_nonvacuous) (proj1 (proj2 C78_nonvacuous)))|]. vm_compute. repeat split.
Qed.
Print Assumptions C96_with_address_refuted.
Example C96_nonvacuous : let r := cli 5 some_net some_now (at_home false) Discover (new_gw []) in
  unnamed (at_home false) /\ net_works some_net /\ r_end r = Val 0 /\
  r_out r = [Printed [V (VStr (u "192.168.0.7")); T (u ":"); V (VInt 80); T (u " '"); V (VStr (u "Pentair: 00-1A-2B" ++ [233])); T (u "'")]].
Proof. split; [left; reflexivity|]. split; [repeat split|]. vm_compute. split; reflexivity. Qed.

(** C97.  A question that exits with 0 has printed, as its last line, what the gateway's data say
    at the moment of disconnecting; without -v it prints nothing else. *)
Theorem C97_answers n nw now o c w : accepted c = true -> tells_one c -> r_end (cli n nw now o c w) = Val 0 ->
  exists t1 w1 t2 before l, r_trace (cli n nw now o c w) = t1 ++ t2 /\ perform n (Disconnect false) w1 = (t2, r_world (cli n nw now o c w), Val tt) /\
    answers (o_verbose o) c (w_data w1) l /\ r_out (cli n nw now o c w) = before ++ [Printed l] /\ (o_verbose o = false -> before = []).
Proof. exact (cli_tells n nw now o c w). Qed.
Print Assumptions C97_answers.
Example C97_nonvacuous :
  r_out (cli 5 some_net some_now (at_addr false) (GHeatMode (u "pool")) (new_gw (hello ++ goodbye))) = [Printed [V (VInt 3)]] /\
  r_out (cli 5 some_net some_now (at_addr false) (GCurrentTemp (u "spa")) (new_gw (hello ++ goodbye))) = [Printed [V (VInt (-3))]] /\
  (exists a b c, let r := cli 5 some_net some_now (at_addr true) (GCircuit 500) (new_gw (hello ++ goodbye)) in
    r_end r = Val 0 /\ r_out r = [a; b; c; Printed [V (VStr (u "Spa")); T (u ": "); T (u "On")]]).
Proof. split; [vm_compute; reflexivity|]. split; [vm_compute; reflexivity|]. eexists _, _, _. vm_compute. split; reflexivity. Qed.

(** C98.  The dashboard that exits with 0 shows, of the data at the moment of disconnecting, every
    body in order with its temperature, setpoint and heat mode, and every circuit that is not
    hidden, in order, with its state.  (The heat state: C85.) *)
Theorem C98_dashboard n nw now o w : r_end (cli n nw now o Dashboard w) = Val 0 ->
  exists t1 w1 t2 gw bs brows cs crows text, r_trace (cli n nw now o Dashboard w) = t1 ++ t2 /\
    perform n (Disconnect false) w1 = (t2, r_world (cli n nw now o Dashboard w), Val tt) /\
    leads (VDict (w_data w1)) [KS "body"] (VDict bs) /\ leads (VDict (w_data w1)) [KS "circuit"] (VDict cs) /\
    body_rows text bs brows /\ circuit_rows cs crows /\ r_out (cli n nw now o Dashboard w) = dashboard_lines gw brows crows.
Proof.
  intros Z. destruct (cli_dashboard n nw now o w Z) as (t1 & w1 & t2 & gw & bs & brows & cs & crows & H).
  exists t1, w1, t2, gw, bs, brows, cs, crows, state_text. exact H.
Qed.
Print Assumptions C98_dashboard.
Example C98_nonvacuous : let r := cli 5 some_net some_now (at_home true) Dashboard (new_gw (hello ++ goodbye)) in
  r_end r = Val 0 /\ In (Printed [V (VInt 500); T (u "  "); T (u "   On"); T (u "  "); V (VStr (u "Spa"))]) (r_out r) /\
  In (Printed [T (u "Pool"); T (u " temperature is last "); V (VInt 83); V (VStr [176; 70])]) (r_out r).
Proof. vm_compute. auto 60. Qed.

(** C85.  The dashboard names heat states by the table of heat modes: a body heated by its heater
    (2) is shown as Solar Preferred, one heated by both (3) as Heater. *)
Theorem C85_dashboard_refuted n nw now o w : r_end (cli n nw now o Dashboard w) = Val 0 ->
  exists t1 w1 t2 bs, r_trace (cli n nw now o Dashboard w) = t1 ++ t2 /\
    perform n (Disconnect false) w1 = (t2, r_world (cli n nw now o Dashboard w), Val tt) /\ leads (VDict (w_data w1)) [KS "body"] (VDict bs) /\
    forall k b st name z, In (k, b) bs -> holds b "heat_state" st -> holds st "name" name -> holds st "value" (VInt z) ->
      (z = 2 -> In (Printed [V name; T (u ": "); T (u "Solar Preferred")]) (r_out (cli n nw now o Dashboard w))) /\
      (z = 3 -> In (Printed [V name; T (u ": "); T (u "Heater")]) (r_out (cli n nw now o Dashboard w))).
Proof.
  intros Z. destruct (cli_dashboard n nw now o w Z) as (t1 & w1 & t2 & gw & bs & brows & cs & crows & E1 & E2 & L & _ & R & _ & O).
  exists t1, w1, t2, bs. split; [exact E1|]. split; [exact E2|]. split; [exact L|]. intros k b st name z I Hs Hn Hv.
  destruct (rows_state _ _ R _ _ _ _ _ I Hs Hv Hn) as (s & Is & Ir). rewrite O.
  assert (X : In (Printed [V name; T (u ": "); T (u s)]) (dashboard_lines gw brows crows)).
  { unfold dashboard_lines. apply in_or_app. right. apply in_or_app. right. apply in_or_app. left. exact Ir. }
  split; intros ->; cbn in Is; repeat (destruct Is as [Is|Is]; [try discriminate; injection Is as <-; exact X|]); contradiction.
Qed.
Print Assumptions C85_dashboard_refuted.
(** States 0 and 1 have the same names in both tables. *)
Theorem C85_dashboard_partial n nw now o w : r_end (cli n nw now o Dashboard w) = Val 0 ->
  exists t1 w1 t2 bs, r_trace (cli n nw now o Dashboard w) = t1 ++ t2 /\
    perform n (Disconnect false) w1 = (t2, r_world (cli n nw now o Dashboard w), Val tt) /\ leads (VDict (w_data w1)) [KS "body"] (VDict bs) /\
    forall k b st name z, In (k, b) bs -> holds b "heat_state" st -> holds st "name" name -> holds st "value" (VInt z) -> z = 0 \/ z = 1 ->
      exists s, In (z, s) heat_state_titles /\ In (Printed [V name; T (u ": "); T (u s)]) (r_out (cli n nw now o Dashboard w)).
Proof.
  intros Z. destruct (cli_dashboard n nw now o w Z) as (t1 & w1 & t2 & gw & bs & brows & cs & crows & E1 & E2 & L & _ & R & _ & O).
  exists t1, w1, t2, bs. split; [exact E1|]. split; [exact E2|]. split; [exact L|]. intros k b st name z I Hs Hn Hv K.
  destruct (rows_state _ _ R _ _ _ _ _ I Hs Hv Hn) as (s & Is & Ir). rewrite O. exists s. split.
  - destruct K as [-> | ->]; cbn in Is; repeat (destruct Is as [Is|Is]; [try discriminate; injection Is as <-; cbn; auto|]); contradiction.
  - unfold dashboard_lines. apply in_or_app. right. apply in_or_app. right. apply in_or_app. left. exact Ir.
Qed.
Print Assumptions C85_dashboard_partial.
(** 'get heat-state' reads the state as OFF or ON: it never exits with 0 when the state is 2 or 3
    (it raises ValueError), and with -v it calls the state 1 On. *)
Theorem C85_get_partial n nw now o s w : accepted (GHeatState s) = true -> r_end (cli n nw now o (GHeatState s) w) = Val 0 ->
  exists t1 w1 t2 before l b el, r_trace (cli n nw now o (GHeatState s) w) = t1 ++ t2 /\
    perform n (Disconnect false) w1 = (t2, r_world (cli n nw now o (GHeatState s) w), Val tt) /\ means bodies s b /\
    leads (VDict (w_data w1)) [KS "body"; KI b; KS "heat_state"] el /\ shown (o_verbose o) (Some switch_titles) el l /\
    r_out (cli n nw now o (GHeatState s) w) = before ++ [Printed l] /\ (o_verbose o = false -> before = []).
Proof. exact (heat_state_shown n nw now o s w). Qed.
Print Assumptions C85_get_partial.
Definition heated (z : Z) : resp := says (KReply 12527 (Messages.wire_status
  {| Messages.s_state := 1; Messages.s_freeze := 8; Messages.s_remotes := 32; Messages.s_pool_delay := 0; Messages.s_spa_delay := 0; Messages.s_cleaner_delay := 0;
     Messages.s_unk1 := 3; Messages.s_unk2 := 0; Messages.s_unk3 := 0; Messages.s_air := -5;
     Messages.s_bodies := [{| Messages.b_type := 0; Messages.b_temp := 83; Messages.b_heat := z; Messages.b_set := 84; Messages.b_cool := 90; Messages.b_mode := 3 |}];
     Messages.s_circuits := []; Messages.s_ph := 748; Messages.s_orp := 650; Messages.s_sat := -12; Messages.s_salt := 65; Messages.s_ph_tank := 3; Messages.s_orp_tank := 4; Messages.s_alert := 0 |})).
Definition heated_hello (z : Z) : list resp := welcome ++ [config_answer; heated z; pump_answer; pump_answer; chem_answer; scg_answer; time_answer].
Theorem C85_get_refuted : exists nw now o w, Forall wf_bytes (net_in nw) /\ accepted (GHeatState (u "pool")) = true /\
  let r := cli 5 nw now o (GHeatState (u "pool")) w in
  leads (VDict (w_data (r_world r))) [KS "body"; KI 0; KS "heat_state"; KS "value"] (VInt 2) /\ r_end r = Exc EValue /\ r_out r = [].
Proof.
  exists some_net, some_now, (at_addr false), (new_gw (heated_hello 2 ++ goodbye)). split; [exact some_net_ok|]. split; [reflexivity|]. cbv zeta.
  split; [|vm_compute; split; reflexivity]. match goal with |- leads (VDict ?d) ?p ?v => assert (R : get_data true p d = Ok v) by (vm_compute; reflexivity); apply get_data_iff in R end.
  destruct R as [R|(R & _)]; [exact R|discriminate].
Qed.
Print Assumptions C85_get_refuted.
Example C85_nonvacuous :
  (let r := cli 5 some_net some_now (at_addr false) Dashboard (new_gw (hello ++ goodbye)) in r_end r = Val 0) /\
  (let r := cli 5 some_net some_now (at_addr false) (GHeatState (u "pool")) (new_gw (heated_hello 1 ++ goodbye)) in r_end r = Val 0 /\ r_out r = [Printed [V (VInt 1)]]).
Proof. vm_compute. repeat split. Qed.

(** C86.  Whatever is given with --auto-dst: no date-time message is ever sent, and the run does
    not exit with 0. *)
Theorem C86_auto_dst_refuted n nw now o date s w : let r := cli n nw now o (SDateTime date (Some s)) w in
  (forall k X p, In (Send k X p) (r_trace r) -> connecting_code X \/ polling X) /\ (forall k p, ~ In (Send k 8112 p) (r_trace r)) /\ r_end r <> Val 0.
Proof.
  cbv zeta. destruct (dst_silent n nw now o date s w) as [W N]. split; [exact W|]. split; [|exact N].
  intros k p I. apply W in I. destruct I as [I|I]; cbn in I; Lia.lia.
Qed.
Print Assumptions C86_auto_dst_refuted.
Example C86_nonvacuous : let r := cli 5 some_net some_now (at_addr false) (SDateTime None (Some (u "on"))) (new_gw (hello ++ [time_answer])) in
  accepted (SDateTime None (Some (u "on"))) = true /\ r_end r = Exc EStruct /\ is_connected (r_world r) = true.
Proof. vm_compute. repeat split. Qed.
