(** What command line runs print. *)
From Verif Require Import Py F64 Struct Utf Utility Const Enum Decode Data Discovery SpecDiscovery World Request Gateway Traces Api Spec SpecParse Paths Cli SpecCli
  P_Base P_Util P_Monad P_Request P_Paths P_Dict P_Gw1 P_Gw2 P_Gw3 P_Enum P_Parse P_Discovery Prop_Enum P_Cli P_Cli2 P_Cli3 P_Cli4.
From Verif Require Import Cli SpecCli P_Cli.

Lemma item_holds k el v : item (KS k) el = Ok v <-> holds el k v.
Proof.
  unfold holds. split.
  - destruct el; try discriminate. cbn [item]. destruct (dget (KS k) d) as [x|] eqn:E; [|discriminate]. intros H. injection H as <-.
    exists d. split; [reflexivity|]. apply entry_dget, E.
  - intros (m & -> & E). apply entry_dget in E. cbn [item]. rewrite E. reflexivity.
Qed.
(** tables of names *)
Definition tabled (e : enum) (title : string -> pystr) (tab : list (Z * string)) : Prop :=
  map (fun x => (snd x, title (fst x))) e = map (fun x => (fst x, u (snd x))) tab.
Lemma member_titled e title tab v m : tabled e title tab -> member_of e v = Ok m -> exists s, titled tab v (snd m) s /\ title (fst m) = u s.
Proof.
  unfold tabled, titled. revert tab. induction e as [|[nm x] e IH]; intros tab Q H; [discriminate|]. destruct tab as [|[y s] tab]; [discriminate|].
  cbn [map fst snd] in Q. injection Q as -> Q1 Q2. cbn [member_of] in H. destruct (num_eqb v y) eqn:N.
  - injection H as <-. exists s. cbn [fst snd]. split; [|exact Q1]. split; [left; reflexivity|]. intros z ->. apply Z.eqb_eq. exact N.
  - destruct (IH tab Q2 H) as (s' & (I & K) & T). exists s'. split; [split; [right; exact I|exact K]|exact T].
Qed.
Lemma tab_switch : tabled ON_OFF base_title switch_titles. Proof. vm_compute. reflexivity. Qed.
Lemma tab_body : tabled BODY_TYPE base_title body_titles. Proof. vm_compute. reflexivity. Qed.
Lemma tab_mode : tabled HEAT_MODE heat_mode_title heat_mode_titles. Proof. vm_compute. reflexivity. Qed.

Lemma vformat_shown v el e title tab l : tabled e title tab -> vformat v el (Some (e, title)) = Ok l -> shown v (Some tab) el l.
Proof.
  intros Q H. unfold vformat in H. destruct v.
  - apply rbind_ok in H. destruct H as (name & Hn & H). apply rbind_ok in H. destruct H as (x & Hx & H). apply rbind_ok in H. destruct H as (m & Hm & H).
    destruct (member_titled _ _ _ _ _ Q Hm) as (s & Ti & E). rewrite E in H. injection H as <-. apply item_holds in Hn, Hx. eapply Sh_title; eassumption.
  - apply rbind_ok in H. destruct H as (x & Hx & H). apply rbind_ok in H. destruct H as (m & Hm & H). injection H as <-.
    destruct (member_titled _ _ _ _ _ Q Hm) as (s & Ti & E). apply item_holds in Hx. eapply Sh_number; eassumption.
Qed.
Lemma vformat_plain v el l : vformat v el None = Ok l -> shown v None el l.
Proof.
  intros H. unfold vformat in H. destruct v.
  - apply rbind_ok in H. destruct H as (name & Hn & H). apply rbind_ok in H. destruct H as (x & Hx & H). injection H as <-. apply item_holds in Hn, Hx. constructor; assumption.
  - apply rbind_ok in H. destruct H as (x & Hx & H). injection H as <-. apply item_holds in Hx. constructor; assumption.
Qed.
Lemma shown_dict v tab el l : shown v tab el l -> el <> VNone.
Proof. intros [? ? ? ? ? ? _ (m & -> & _) _|? ? ? ? ? (m & -> & _) _|? ? ? _ (m & -> & _)|? ? (m & -> & _)]; discriminate. Qed.

(** ------------------------------------------------------------------ *)
(** [tells n P k]: whenever [k] ends with 0 it has printed one text [l] last, with [P] of the data at the time of disconnecting and [l] *)
Definition tells (n : nat) (P : dict -> list frag -> Prop) (k : prog) : Prop :=
  forall w ls t w', run n k w = (ls, (t, w', Val 0)) ->
    exists t1 w1 t2 l, t = t1 ++ t2 /\ perform n (Disconnect false) w1 = (t2, w', Val tt) /\ P (w_data w1) l /\ ls = [Printed l].
Lemma tl_call n P c k : tells n P k -> tells n P (Call c k).
Proof.
  intros K w ls t w' E. apply run_call in E. destruct E as [(t1 & w1 & t2 & _ & E & ->)|[(e & _ & Q & _)|(y & _ & Q & _)]]; try discriminate.
  destruct (K _ _ _ _ E) as (a & w2 & b & l & -> & H). exists (t1 ++ a), w2, b, l. split; [apply app_assoc|exact H].
Qed.
Lemma tl_lift {A} n P (r : res A) k : (forall a, r = Ok a -> tells n P (k a)) -> tells n P (lift r k).
Proof. intros K w ls t w' E. rewrite run_lift in E. destruct r as [a|e]; [exact (K a eq_refl _ _ _ _ E)|discriminate]. Qed.
Lemma tl_no n P l : tells n P (Print l (fin 4)).
Proof.
  intros w ls t w' E. exfalso. apply run_print in E. destruct E as (ls' & E & _).
  apply run_call in E. destruct E as [(t1 & w1 & t2 & _ & E & ->)|[(e & _ & Q & _)|(y & _ & Q & _)]]; discriminate.
Qed.
Lemma tl_show n (P : dict -> list frag -> Prop) v p c : (forall d l, vformat v (soft (get_data false p d)) c = Ok l -> P d l) -> tells n P (show v p c (fin 0)).
Proof.
  intros K w ls t w' E. unfold show in E. rewrite run_read in E. destruct (vformat _ _ _) as [l|e] eqn:F; [|discriminate].
  apply run_print in E. destruct E as (ls' & E & ->). apply run_call in E.
  destruct E as [(t1 & w1 & t2 & E1 & E & ->)|[(e & _ & Q & _)|(y & _ & Q & _)]]; try discriminate.
  cbn [run] in E. injection E as <- <- <-. exists [], w, t1, l. rewrite app_nil_r. auto.
Qed.
Lemma tl_has n P i k no : tells n P k -> tells n P no -> tells n P (read (has_circuit i) (fun b : bool => if b then k else no)).
Proof.
  intros K N w ls t w' E. rewrite run_read in E. destruct (has_circuit i (w_data w)) as [[]|e]; [exact (K _ _ _ _ E)|exact (N _ _ _ _ E)|discriminate].
Qed.

Lemma in_element v d c p tab cls l : (forall el, leads (VDict d) p el -> element d c el tab) ->
  (forall el, vformat v el cls = Ok l -> shown v tab el l) -> vformat v (soft (get_data false p d)) cls = Ok l -> answers v c d l.
Proof.
  intros L S H. apply S in H. eapply An_element; [|exact H]. apply L. apply soft_leads; [reflexivity|]. exact (shown_dict _ _ _ _ H).
Qed.
Lemma show_tells n v c p tab cls : (forall d el, leads (VDict d) p el -> element d c el tab) ->
  (forall el l, vformat v el cls = Ok l -> shown v tab el l) -> tells n (answers v c) (show v p cls (fin 0)).
Proof. intros L S. apply tl_show. intros d l H. apply (in_element v d c p tab cls l); [apply L|intros el H2; exact (S el l H2)|exact H]. Qed.

Lemma action_tells n v now c : accepted c = true -> tells_one c -> tells n (answers v c) (action v now c fin).
Proof.
  intros A S. destruct c; try (destruct S as [[]|[(f & S)|S]]; discriminate); unfold action; cbv zeta; cbn [accepted] in A.
  - apply tl_has; [|apply tl_no]. eapply show_tells; [|intros; eapply vformat_shown; [exact tab_switch|eassumption]]. intros d el L. eapply El_circuit; eauto.
  - destruct (choice_means bodies body en_bodies A) as (b & M & P). change BODY_TYPE with bodies. rewrite P. cbn [lift].
    eapply show_tells; [|intros; eapply vformat_shown; [exact tab_mode|eassumption]]. intros d el L. eapply El_heat_mode; eauto.
  - destruct (choice_means bodies body en_bodies A) as (b & M & P). change BODY_TYPE with bodies. rewrite P. cbn [lift].
    eapply show_tells; [|intros; eapply vformat_plain; eassumption]. intros d el L. eapply El_heat_temp; eauto.
  - destruct (choice_means bodies body en_bodies A) as (b & M & P). change BODY_TYPE with bodies. rewrite P. cbn [lift].
    eapply show_tells; [|intros; eapply vformat_plain; eassumption]. intros d el L. eapply El_current_temp; eauto.
  - apply tl_call. intros w ls t w' E. rewrite run_read in E. destruct (rbind _ utc_time) as [dt|e] eqn:F; [|discriminate].
    apply rbind_ok in F. destruct F as (x & Fx & Ft). apply run_print in E. destruct E as (ls' & E & ->). apply run_call in E.
    destruct E as [(t1 & w1 & t2 & E1 & E & ->)|[(e & _ & Q & _)|(y & _ & Q & _)]]; try discriminate.
    cbn [run] in E. injection E as <- <- <-. exists [], w, t1, [When dt format]. rewrite app_nil_r. split; [reflexivity|]. split; [exact E1|]. split; [|reflexivity].
    eapply An_time; [reflexivity| |exact Ft]. apply get_data_iff in Fx. destruct Fx as [Fx|(Q & _)]; [exact Fx|discriminate Q].
  - apply tl_call. eapply show_tells; [|intros; eapply vformat_plain; eassumption]. intros d el L. eapply El_auto_dst; eauto.
  - intros w ls t w' E. rewrite run_read in E. destruct (has_bytes _); [discriminate|]. apply run_print in E. destruct E as (ls' & E & ->). apply run_call in E.
    destruct E as [(t1 & w1 & t2 & E1 & E & ->)|[(e & _ & Q & _)|(y & _ & Q & _)]]; try discriminate.
    cbn [run] in E. injection E as <- <- <-. exists [], w, t1, [Js (VDict (w_data w))]. rewrite app_nil_r. split; [reflexivity|]. split; [exact E1|]. split; [|reflexivity].
    apply An_json. reflexivity.
  - destruct (choice_means switches state en_switch A) as (s & M & P). change (parse_value ON_OFF state) with (parse_value switches state). rewrite P. cbn [lift].
    apply tl_has; [|apply tl_no]. do 2 apply tl_call. eapply show_tells; [|intros; eapply vformat_shown; [exact tab_switch|eassumption]]. intros d el L. eapply El_circuit; eauto.
  - apply andb_true_iff in A. destruct A as [A1 A2].
    destruct (choice_means bodies body en_bodies A1) as (b & M1 & P1). destruct (choice_means heat_modes mode en_heat A2) as (m & M2 & P2).
    change BODY_TYPE with bodies. change (parse_value HEAT_MODE mode) with (parse_value heat_modes mode). rewrite P1. cbn [lift]. rewrite P2. cbn [lift].
    do 2 apply tl_call. eapply show_tells; [|intros; eapply vformat_shown; [exact tab_mode|eassumption]]. intros d el L. eapply El_heat_mode; eauto.
  - destruct (choice_means bodies body en_bodies A) as (b & M & P). change BODY_TYPE with bodies. rewrite P. cbn [lift].
    assert (K : tells n (answers v (SHeatTemp body temp)) (show v [DEVICE_BODY; KI b; VALUE_HEAT_SETPOINT] None (fin 0))).
    { eapply show_tells; [|intros; eapply vformat_plain; eassumption]. intros d el L. eapply El_heat_temp; eauto. }
    destruct (temp =? -1); [exact K|]. do 2 apply tl_call. exact K.
Qed.

Lemma run_start n x k w ls t w' : run n (Call (Connect x) (Call Update k)) w = (ls, (t, w', Val 0)) ->
  exists t1 w1 t2, progress n (start_of x) w t1 w1 Finished /\ run n k w1 = (ls, (t2, w', Val 0)) /\ t = t1 ++ t2.
Proof.
  intros E. apply start_inv in E. destruct E as [E|(en & P & N1 & N2 & En & _)]; [exact E|].
  cbn [reported] in En. exfalso. apply ends_val in En. destruct En as [(-> & _)|(? & _)]; [contradiction|discriminate].
Qed.
Lemma main_tells n v d now x c w ls t w' : accepted c = true -> tells_one c -> run n (main v d now x c) w = (ls, (t, w', Val 0)) ->
  exists t1 w1 t2 pre l, t = t1 ++ t2 /\ perform n (Disconnect false) w1 = (t2, w', Val tt) /\ answers v c (w_data w1) l /\
    ls = pre ++ [Printed l] /\ (v = false -> pre = []).
Proof.
  intros A S E. unfold main in E. apply run_start in E. destruct E as (t1 & w1 & t2 & _ & E & ->).
  cbn [run] in E. destruct (negb _); [discriminate|].
  assert (R : run n ((if v then print_gateway v d else fun k => k) (action v now c fin)) w1 = (ls, (t2, w', Val 0))).
  { destruct c; try exact E; destruct S as [[]|[(f & S)|S]]; discriminate. }
  apply run_header in R. destruct R as (ls' & pre & R & -> & V).
  destruct (action_tells n v now c A S _ _ _ _ R) as (a & w2 & b & l & -> & Di & An & ->).
  exists (t1 ++ a), w2, b, pre, l. rewrite app_assoc. auto.
Qed.
Lemma reported_zero e : reported e = Val 0 -> e = Val 0.
Proof. destruct e as [z|x|y]; cbn [reported]; [auto|destruct (is_sl x); discriminate|discriminate]. Qed.
Lemma cli_main n nw now o c w : r_end (cli n nw now o c w) = Val 0 -> c <> Discover ->
  exists d x, run n (main (o_verbose o) d now x c) w = (r_out (cli n nw now o c w), (r_trace (cli n nw now o c w), r_world (cli n nw now o c w), Val 0)).
Proof.
  intros Z D. destruct (cli_cases n nw now o c w) as (ls & e & E & Q & O). rewrite Z in Q. symmetry in Q. apply reported_zero in Q. subst e.
  rewrite app_nil_r in O. rewrite O. clear O.
  destruct (program_cases o now (if no_ip o then snd (async_discover nw) else Ok []) c) as [(x & P)|[P|[(v & hs & P & _)|(d & x & P)]]]; try contradiction; rewrite P in E; try discriminate.
  exists d, x. exact E.
Qed.
Lemma cli_tells n nw now o c w : accepted c = true -> tells_one c -> r_end (cli n nw now o c w) = Val 0 ->
  exists t1 w1 t2 pre l, r_trace (cli n nw now o c w) = t1 ++ t2 /\ perform n (Disconnect false) w1 = (t2, r_world (cli n nw now o c w), Val tt) /\
    answers (o_verbose o) c (w_data w1) l /\ r_out (cli n nw now o c w) = pre ++ [Printed l] /\ (o_verbose o = false -> pre = []).
Proof.
  intros A S Z. destruct (cli_main n nw now o c w Z) as (d & x & E); [intros ->; destruct S as [[]|[(f & S)|S]]; discriminate|].
  exact (main_tells _ _ _ _ _ _ _ _ _ _ A S E).
Qed.

(** ------------------------------------------------------------------ *)
(** * The dashboard *)
Lemma run_circuits n l : forall k w ls t w', run n (print_circuits_loop l k) w = (ls, (t, w', Val 0)) ->
  exists rows ls', ls = rows ++ ls' /\ circuit_rows l rows /\ run n k w = (ls', (t, w', Val 0)).
Proof.
  induction l as [|[i c] l IH]; intros k w ls t w' E; cbn [print_circuits_loop] in E.
  - exists [], ls. split; [reflexivity|]. split; [constructor|exact E].
  - rewrite run_lift in E. destruct (circuit_line i c) as [o|e] eqn:C; [|discriminate]. unfold circuit_line in C.
    apply rbind_ok in C. destruct C as (f & Hf & C). change ATTR_INTERFACE with (KS "interface") in Hf. apply item_holds in Hf.
    destruct (num_eqb f INTERFACE_DONT_SHOW) eqn:N.
    + injection C as <-. destruct (IH _ _ _ _ _ E) as (rows & ls' & -> & R & E2). exists rows, ls'. split; [reflexivity|]. split; [|exact E2].
      eapply CR_hidden; [exact Hf| |exact R]. intros z ->. apply Z.eqb_eq. exact N.
    + apply rbind_ok in C. destruct C as (v & Hv & C). apply rbind_ok in C. destruct C as (m & Hm & C). apply rbind_ok in C. destruct C as (nm & Hn & C).
      injection C as <-. apply run_print in E. destruct E as (ls2 & E & ->). destruct (IH _ _ _ _ _ E) as (rows & ls' & -> & R & E2).
      change ATTR_VALUE with (KS "value") in Hv. change ATTR_NAME with (KS "name") in Hn. apply item_holds in Hv, Hn.
      destruct (member_titled _ _ _ _ _ tab_switch Hm) as (s & Ti & Ts). rewrite Ts.
      eexists (_ :: rows), ls'. split; [reflexivity|]. split; [|exact E2].
      replace (rjust5 (u s)) with (column s).
      * eapply CR_shown; [exact Hf| |exact Hv|exact Ti|exact Hn|exact R]. intros ->. cbn in N. discriminate.
      * destruct Ti as [I _]. cbn in I. destruct I as [I|[I|[]]]; injection I as _ <-; reflexivity.
Qed.
(** how the dashboard shows a heat state *)
Definition state_text (v : pv) (s : pystr) : Prop := exists x n, titled heat_mode_titles v x n /\ s = u n.
Lemma run_heat n l : forall k w ls t w', run n (print_heat_loop l k) w = (ls, (t, w', Val 0)) ->
  exists rows ls', ls = rows ++ ls' /\ body_rows state_text l rows /\ run n k w = (ls', (t, w', Val 0)).
Proof.
  induction l as [|[i b] l IH]; intros k w ls t w' E; cbn [print_heat_loop] in E.
  - exists [], ls. split; [reflexivity|]. split; [constructor|exact E].
  - rewrite run_lift in E. destruct (heat_line1 b) as [l1|] eqn:H1; [|discriminate]. apply run_print in E. destruct E as (ls1 & E & ->).
    rewrite run_lift in E. destruct (heat_line2 b) as [l2|] eqn:H2; [|discriminate]. apply run_print in E. destruct E as (ls2 & E & ->).
    rewrite run_lift in E. destruct (mode_line VALUE_HEAT_STATE b) as [l3|] eqn:H3; [|discriminate]. apply run_print in E. destruct E as (ls3 & E & ->).
    rewrite run_lift in E. destruct (mode_line VALUE_HEAT_MODE b) as [l4|] eqn:H4; [|discriminate]. apply run_print in E. destruct E as (ls4 & E & ->).
    apply run_print in E. destruct E as (ls5 & E & ->). destruct (IH _ _ _ _ _ E) as (rows & ls' & -> & R & E2).
    unfold heat_line1, heat_line2, mode_line in *.
    repeat match goal with H : rbind _ _ = Ok _ |- _ => apply rbind_ok in H; let x := fresh "x" in let K := fresh "K" in destruct H as (x & K & H) end.
    repeat match goal with H : Ok _ = Ok _ |- _ => injection H as <- end.
    repeat match goal with H : member_of BODY_TYPE _ = Ok _ |- _ => destruct (member_titled _ _ _ _ _ tab_body H) as (? & ? & ?); clear H
                         | H : member_of HEAT_MODE _ = Ok _ |- _ => destruct (member_titled _ _ _ _ _ tab_mode H) as (? & ? & ?); clear H end.
    unfold ATTR_BODY_TYPE, VALUE_LAST_TEMPERATURE, ATTR_VALUE, ATTR_UNIT, VALUE_HEAT_SETPOINT, ATTR_NAME, VALUE_HEAT_STATE, VALUE_HEAT_MODE in *.
    repeat match goal with H1 : item ?k ?b = Ok ?x, H2 : item ?k ?b = Ok ?y |- _ => rewrite H1 in H2; injection H2 as <- end.
    repeat match goal with H : item _ _ = Ok _ |- _ => apply item_holds in H end.
    repeat match goal with H : _ (fst _) = u _ |- _ => rewrite H; clear H end.
    eexists (_ :: _ :: _ :: _ :: _ :: rows), ls'. split; [reflexivity|]. split; [|exact E2].
    change (text "--------------------------") with (Printed [Cli.T (u "--------------------------")]).
    match goal with |- body_rows _ _ (?a :: ?b :: ?c :: ?d :: ?e :: rows) => change (a :: b :: c :: d :: e :: rows) with ([a; b; c; d; e] ++ rows) end.
    eapply BR_body; try eassumption. eexists _, _. split; [eassumption|reflexivity].
Qed.
Lemma items_leads p d l : items (soft (get_data false p d)) = Ok l -> leads (VDict d) p (VDict l).
Proof.
  intros H. destruct (soft (get_data false p d)) eqn:E; try discriminate. injection H as ->. apply soft_leads; [exact E|discriminate].
Qed.
Lemma main_dashboard n v d now x w ls t w' : run n (main v d now x Dashboard) w = (ls, (t, w', Val 0)) ->
  exists t1 w1 t2 gw bs brows cs crows, t = t1 ++ t2 /\ perform n (Disconnect false) w1 = (t2, w', Val tt) /\
    leads (VDict (w_data w1)) [KS "body"] (VDict bs) /\ leads (VDict (w_data w1)) [KS "circuit"] (VDict cs) /\
    body_rows state_text bs brows /\ circuit_rows cs crows /\ ls = dashboard_lines gw brows crows.
Proof.
  intros E. unfold main in E. apply run_start in E. destruct E as (t1 & w1 & t2 & _ & E & ->).
  cbn [run] in E. destruct (negb _); [discriminate|]. unfold print_dashboard in E. apply run_gateway in E. destruct E as (l1 & gw & E & ->).
  apply run_print in E. destruct E as (l2 & E & ->). unfold print_heat in E. rewrite run_read in E.
  destruct (items (soft (get_data false [DEVICE_BODY] (w_data w1)))) as [bs|] eqn:B; [|discriminate]. apply items_leads in B.
  apply run_heat in E. destruct E as (brows & l3 & -> & RB & E). apply run_print in E. destruct E as (l4 & E & ->).
  unfold print_circuits in E. apply run_print in E. destruct E as (l5 & E & ->). apply run_print in E. destruct E as (l6 & E & ->). rewrite run_read in E.
  destruct (items (soft (get_data false [DEVICE_CIRCUIT] (w_data w1)))) as [cs|] eqn:C; [|discriminate]. apply items_leads in C.
  apply run_circuits in E. destruct E as (crows & l7 & -> & RC & E). apply run_print in E. destruct E as (l8 & E & ->).
  apply run_call in E. destruct E as [(t3 & w3 & t4 & E1 & E & ->)|[(e & _ & Q & _)|(y & _ & Q & _)]]; try discriminate.
  cbn [run] in E. injection E as <- <- <-. rewrite app_nil_r. exists t1, w1, t3, gw, bs, brows, cs, crows. repeat (split; [assumption || reflexivity|]). reflexivity.
Qed.
Lemma cli_dashboard n nw now o w : r_end (cli n nw now o Dashboard w) = Val 0 ->
  exists t1 w1 t2 gw bs brows cs crows, r_trace (cli n nw now o Dashboard w) = t1 ++ t2 /\ perform n (Disconnect false) w1 = (t2, r_world (cli n nw now o Dashboard w), Val tt) /\
    leads (VDict (w_data w1)) [KS "body"] (VDict bs) /\ leads (VDict (w_data w1)) [KS "circuit"] (VDict cs) /\
    body_rows state_text bs brows /\ circuit_rows cs crows /\ r_out (cli n nw now o Dashboard w) = dashboard_lines gw brows crows.
Proof. intros Z. destruct (cli_main n nw now o Dashboard w Z) as (d & x & E); [discriminate|]. exact (main_dashboard _ _ _ _ _ _ _ _ _ E). Qed.

(** ------------------------------------------------------------------ *)
(** * Listing hosts *)
Lemma host_row v h a i1 i2 i3 i4 : an_ip a = (i1, i2, i3, i4) -> describes h a -> exists ip name, dotted ip i1 i2 i3 i4 /\ stripped (an_name a) name /\
  host_line v h = Ok (Printed (if v then [Cli.T (u "'"); V (VStr name); Cli.T (u "' at "); V (VStr ip); Cli.T (u ":"); V (VInt (an_port a))]
                else [V (VStr ip); Cli.T (u ":"); V (VInt (an_port a)); Cli.T (u " '"); V (VStr name); Cli.T (u "'")])).
Proof. intros Q D. unfold describes in D. rewrite Q in D. destruct D as (ip & name & Di & St & ->). exists ip, name. auto. Qed.
Lemma run_hosts n v bs hs w : found bs hs -> exists rows, host_rows v bs rows /\ run n (list_hosts v hs) w = (rows, ([], w, Val 0)).
Proof.
  induction 1 as [|a b h bs hs An Da De F (rows & R & E)|b bs hs N F (rows & R & E)].
  - exists []. split; [constructor|reflexivity].
  - destruct (an_ip a) as [[[i1 i2] i3] i4] eqn:Q. destruct (host_row v h a _ _ _ _ Q De) as (ip & name & Di & St & H).
    eexists (_ :: rows). split; [eapply HR_host; eassumption|]. cbn [list_hosts]. rewrite run_lift, H. cbn [run]. rewrite E. reflexivity.
  - exists rows. split; [constructor; assumption|exact E].
Qed.
Lemma cli_discover n nw now o w : Forall wf_bytes (net_in nw) -> unnamed o -> net_works nw ->
  let r := cli n nw now o Discover w in
  r_trace r = [] /\ r_world r = w /\
  ((Forall (fun b => ~ valid_datagram b) (net_in nw) /\ r_end r = Val 1 /\ r_out r = [Printed [Cli.T (u "No ScreenLogic gateways found.")]]) \/
   (Exists valid_datagram (net_in nw) /\ r_end r = Val 0 /\ exists rows, host_rows (o_verbose o) (net_in nw) rows /\
      r_out r = (if o_verbose o then [Printed [Cli.T (u "Discovered:")]] else []) ++ rows)).
Proof.
  intros W U NW. unfold cli. rewrite (proj2 (no_ip_spec o) U). unfold async_discover. destruct NW as (-> & -> & ->).
  destruct (fold_found _ W []) as (hs & -> & F). cbn [app]. unfold program. rewrite (proj2 (no_ip_spec o) U). cbn [lift].
  destruct hs as [|h hs].
  - cbn [run r_trace r_world r_end r_out]. split; [reflexivity|]. split; [reflexivity|]. left. split; [apply found_none, F|]. split; reflexivity.
  - destruct (run_hosts n (o_verbose o) _ _ w F) as (rows & R & E).
    assert (X : Exists valid_datagram (net_in nw)).
    { apply found_first in F. destruct F as (be & b & af & a & -> & _ & An & Da & _). apply Exists_app. right. left. exists a. auto. }
    destruct (o_verbose o) eqn:V.
    + cbn [run] in E |- *. rewrite E. cbn [r_trace r_world r_end r_out]. split; [reflexivity|]. split; [reflexivity|]. right. split; [exact X|]. split; [reflexivity|].
      exists rows. split; [exact R|reflexivity].
    + rewrite E. cbn [r_trace r_world r_end r_out]. split; [reflexivity|]. split; [reflexivity|]. right. split; [exact X|]. split; [reflexivity|].
      exists rows. split; [exact R|reflexivity].
Qed.

(** ------------------------------------------------------------------ *)
(** * Heat state *)
Lemma heat_state_shown n nw now o s w : accepted (GHeatState s) = true -> r_end (cli n nw now o (GHeatState s) w) = Val 0 ->
  exists t1 w1 t2 pre l b el, r_trace (cli n nw now o (GHeatState s) w) = t1 ++ t2 /\ perform n (Disconnect false) w1 = (t2, r_world (cli n nw now o (GHeatState s) w), Val tt) /\
    means bodies s b /\ leads (VDict (w_data w1)) [KS "body"; KI b; KS "heat_state"] el /\ shown (o_verbose o) (Some switch_titles) el l /\
    r_out (cli n nw now o (GHeatState s) w) = pre ++ [Printed l] /\ (o_verbose o = false -> pre = []).
Proof.
  intros A Z. destruct (cli_main n nw now o (GHeatState s) w Z) as (d & x & E); [discriminate|]. unfold main in E.
  apply run_start in E. destruct E as (t1 & w1 & t2 & _ & E & Qt). cbn [run] in E. destruct (negb _); [discriminate|].
  apply run_header in E. destruct E as (ls' & pre & R & Qo & V). unfold action in R. cbv zeta in R. cbn [accepted] in A.
  destruct (choice_means bodies s en_bodies A) as (b & M & P). change (parse_value BODY_TYPE s) with (parse_value bodies s) in R. rewrite P in R. cbn [lift] in R.
  destruct (tl_show n (fun d l => exists el, leads (VDict d) [KS "body"; KI b; KS "heat_state"] el /\ shown (o_verbose o) (Some switch_titles) el l)
     (o_verbose o) [DEVICE_BODY; KI b; VALUE_HEAT_STATE] (Some (ON_OFF, base_title))) with (w := w1) (ls := ls') (t := t2) (w' := r_world (cli n nw now o (GHeatState s) w))
     as (a & w2 & b2 & l & -> & Di & (el & L & Sh) & ->); [|exact R|].
  - intros d0 l0 H. assert (S0 := vformat_shown _ _ _ _ _ _ tab_switch H). eexists. split; [|exact S0]. apply soft_leads; [reflexivity|exact (shown_dict _ _ _ _ S0)].
  - exists (t1 ++ a), w2, b2, pre, l, b, el. rewrite Qt, <- app_assoc. repeat (split; [assumption || reflexivity|]). assumption.
Qed.

Lemma holds_fun el k v v' : holds el k v -> holds el k v' -> v = v'.
Proof. intros (m & -> & E) (m' & Q & E'). injection Q as <-. apply entry_dget in E, E'. congruence. Qed.
Lemma rows_state l rows : body_rows state_text l rows -> forall k b st nm z, In (k, b) l -> holds b "heat_state" st -> holds st "value" (VInt z) -> holds st "name" nm ->
  exists s, In (z, s) heat_mode_titles /\ In (Printed [V nm; Cli.T (u ": "); Cli.T (u s)]) rows.
Proof.
  induction 1 as [|k0 b0 l ls ty x s lt v un sp spn spv st0 stn stv sts md mdn mdv y mds B1 B2 B3 B4 B5 B6 B7 B8 B9 B10 B11 B12 B13 B14 B15 B16 R IH]; intros k b st nm z I Hs Hv Hn; [destruct I|].
  destruct I as [I|I].
  - injection I as -> ->. pose proof (holds_fun _ _ _ _ Hs B9) as ->. pose proof (holds_fun _ _ _ _ Hv B11) as <-. pose proof (holds_fun _ _ _ _ Hn B10) as ->.
    destruct B12 as (x' & n' & (I' & Q) & ->). rewrite (Q z eq_refl). exists n'. split; [exact I'|]. apply in_or_app. left. right; right; left. reflexivity.
  - destruct (IH _ _ _ _ _ I Hs Hv Hn) as (s' & Hs' & I'). exists s'. split; [exact Hs'|]. apply in_or_app. right. exact I'.
Qed.
