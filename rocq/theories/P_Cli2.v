(** Whole runs of the command line. *)
From Verif Require Import Py F64 Struct Utf Utility Const Enum Decode Data Discovery SpecDiscovery World Request Gateway Traces Api Spec SpecParse Paths Cli SpecCli
  P_Base P_Paths P_Gw1 P_Calm P_Enum P_Parse P_Discovery Prop_Enum P_Cli.

Definition reported (o : out Z) : out Z := match o with Exc x => if is_sl x then Val (-1) else o | _ => o end.

Lemma sl_spec e : is_sl e = true <-> screenlogic e.
Proof.
  unfold screenlogic. split.
  - destruct e; cbn; intros H; try discriminate; cbn; auto 10.
  - cbn. intros [<-|[<-|[<-|[<-|[<-|[]]]]]]; reflexivity.
Qed.
Lemma foreign_spec e : foreign e = true -> ~ screenlogic e /\ e <> ECancelled.
Proof.
  intros F. split; [|intros ->; discriminate]. intros S. apply sl_spec in S. destruct e; discriminate.
Qed.
Lemma raw_ends en code o : raw en code o -> ends en code (reported o).
Proof.
  intros []; cbn [reported].
  - constructor.
  - destruct (foreign_spec _ H) as [S C]. destruct (is_sl e) eqn:Q; [apply sl_spec in Q; contradiction|]. constructor; assumption.
  - destruct (is_sl e) eqn:Q; [constructor; apply sl_spec, Q|constructor; intros S; apply sl_spec in S; congruence].
  - constructor.
Qed.

Lemma din_entry d k : din k d = true <-> has_entry d k.
Proof.
  unfold has_entry. split.
  - unfold din. intros H. destruct (dget k d) as [v|] eqn:E; [|discriminate]. exists v. apply entry_dget, E.
  - intros (v & H). apply entry_dget in H. unfold din. rewrite H. reflexivity.
Qed.

Lemma start_inv n x k w ls t w' o : run n (Call (Connect x) (Call Update k)) w = (ls, (t, w', o)) ->
  (exists t1 w1 t2, progress n [Do (Connect x); Do Update] w t1 w1 Finished /\ run n k w1 = (ls, (t2, w', o)) /\ t = t1 ++ t2) \/
  (exists en, progress n [Do (Connect x); Do Update] w t w' en /\ en <> Finished /\ en <> Stopped /\ ends en 0 (reported o) /\ ls = []).
Proof.
  intros E. apply run_call in E. destruct E as [(t1 & w1 & t2 & E1 & E2 & ->)|[(e & E1 & -> & ->)|(y & E1 & -> & ->)]].
  - apply run_call in E2. destruct E2 as [(t3 & w3 & t4 & E3 & E4 & ->)|[(e & E3 & -> & ->)|(y & E3 & -> & ->)]].
    + left. exists (t1 ++ t3), w3, t4. rewrite app_assoc. split; [|auto].
      eapply P_next; [exact E1|]. rewrite <- (app_nil_r t3). eapply P_next; [exact E3|constructor].
    + right. exists (Failed e). split; [|split; [|split; [|split; [|reflexivity]]]]; try discriminate.
      * eapply P_next; [exact E1|]. apply P_fail. exact E3.
      * apply raw_ends. constructor.
    + right. exists (Hung y). split; [|split; [|split; [|split; [|reflexivity]]]]; try discriminate.
      * eapply P_next; [exact E1|]. apply P_hang. exact E3.
      * apply raw_ends. constructor.
  - right. exists (Failed e). split; [|split; [|split; [|split; [|reflexivity]]]]; try discriminate.
    * apply P_fail. exact E1.
    * apply raw_ends. constructor.
  - right. exists (Hung y). split; [|split; [|split; [|split; [|reflexivity]]]]; try discriminate.
    * apply P_hang. exact E1.
    * apply raw_ends. constructor.
Qed.

(** exporting makes no call *)
Definition idle_end (o : out Z) : Prop := o = Val 0 \/ exists e, o = Exc e /\ foreign e = true.
Definition idle (n : nat) (w : world) (k : prog) : Prop :=
  forall ls t w' o, run n k w = (ls, (t, w', o)) -> t = [] /\ w' = w /\ idle_end o.
Lemma idle_lift {A} n w (r : res A) k : rcalm r -> (forall a, idle n w (k a)) -> idle n w (lift r k).
Proof.
  intros C K ls t w' o E. rewrite run_lift in E. destruct r; [exact (K _ _ _ _ _ E)|].
  injection E as <- <- <- <-. split; [reflexivity|split; [reflexivity|]]. right. exists e. split; [reflexivity|exact C].
Qed.
Lemma idle_read {A} n w (f : dict -> res A) k : (forall d, rcalm (f d)) -> (forall a, idle n w (k a)) -> idle n w (read f k).
Proof.
  intros C K ls t w' o E. rewrite run_read in E. specialize (C (w_data w)). destruct (f (w_data w)); [exact (K _ _ _ _ _ E)|].
  injection E as <- <- <- <-. split; [reflexivity|split; [reflexivity|]]. right. exists e. split; [reflexivity|exact C].
Qed.
Lemma idle_print n w l k : idle n w k -> idle n w (Print l k).
Proof. intros K ls t w' o E. apply run_print in E. destruct E as (ls' & E & _). exact (K _ _ _ _ E). Qed.
Lemma idle_return n w : idle n w (Return 0).
Proof. intros ls t w' o E. injection E as <- <- <- <-. split; [reflexivity|split; [reflexivity|left; reflexivity]]. Qed.
Lemma fo_text v : rcalm (text_of v). Proof. destruct v; reflexivity. Qed.
Lemma fo_flags d : rcalm (equipment_flags d).
Proof. unfold equipment_flags. destruct (soft _); reflexivity. Qed.
Lemma idle_export n w : idle n w export_data.
Proof.
  unfold export_data. apply idle_read; [intros; apply fo_text|]. intros a. apply idle_read; [intros; apply fo_text|]. intros b.
  apply idle_read; [apply fo_flags|]. intros c ls t w' o E. cbn [run] in E. revert E. apply idle_lift; [apply fo_build|].
  intros d. apply idle_lift; [apply fo_export|]. intros j. apply idle_print, idle_return.
Qed.
Lemma idle_hosts n w v hs : idle n w (list_hosts v hs).
Proof.
  induction hs as [|h hs IH]; [apply idle_return|]. cbn [list_hosts]. apply idle_lift; [|intros; apply idle_print, IH].
  unfold host_line. repeat (apply rc_bind; [apply fo_item|intros]). reflexivity.
Qed.

Lemma main_conducts n v disc now x c w ls t w' o : accepted c = true -> ~ is_dst c -> c <> Discover ->
  run n (main v disc now x c) w = (ls, (t, w', o)) -> conducts n now x c w t w' (reported o).
Proof.
  intros A D1 D2 E. unfold main in E. apply start_inv in E.
  destruct E as [(t1 & w1 & t2 & P & E & ->)|(en & P & N1 & N2 & En & _)]; [|eapply N_start; eassumption].
  cbn [run] in E. destruct (din DEVICE_CONTROLLER (w_data w1)) eqn:D; cbn [negb] in E.
  2:{ cbn [run] in E. injection E as <- <- <- <-. rewrite app_nil_r. apply N_empty; [exact P|].
      intros H. apply din_entry in H. change (KS "controller") with DEVICE_CONTROLLER in H. congruence. }
  apply din_entry in D.
  assert (F : c = Export \/ (exists dst, c = SDateTime (Some None) dst) \/ exists l code, asks now (w_data w1) c l code /\
     follows n w1 l code (match c with Export => export_data | Dashboard => print_dashboard v disc (fin 0)
       | _ => (if v then print_gateway v disc else fun k => k) (action v now c fin) end)).
  { destruct c; try contradiction (D2 eq_refl); [right; right; exists [], 0; split; [constructor|apply fol_dashboard]|left; reflexivity|..].
    all: try match goal with |- context [SDateTime ?d _] => destruct d as [[d|]|]; [|right; left; eexists; reflexivity|] end.
    all: right; right; match goal with |- context [asks _ _ ?c _ _] => destruct (action_follows n w1 v now c A D1) as (l & code & As & F); try discriminate; exists l, code; split; [exact As|] end.
    all: destruct v; [apply fol_gateway|]; exact F. }
  destruct F as [->|[(dst & ->)|(l & code & As & F)]].
  2:{ assert (Q : t2 = [] /\ w' = w1 /\ o = Exc EValue).
      { destruct v; cbn in E; injection E as <- <- <- <-; auto. }
      destruct Q as (-> & -> & ->). rewrite app_nil_r. eapply N_bad_date; [reflexivity|exact P|exact D]. }
  - destruct (idle_export n w1 _ _ _ _ E) as (-> & -> & I). rewrite app_nil_r. apply N_export; auto.
    destruct I as [->|(e & -> & Fe)]; [left; reflexivity|]. right. exists e. destruct (foreign_spec _ Fe) as [S _]. cbn [reported].
    destruct (is_sl e) eqn:Q; [apply sl_spec in Q; contradiction|]. auto.
  - destruct (F _ _ _ _ E) as (en & P2 & R). eapply N_rest; eauto. apply raw_ends, R.
Qed.

(** ------------------------------------------------------------------ *)
(** * Which adapter *)
Lemma host_args h a i1 i2 i3 i4 : an_ip a = (i1, i2, i3, i4) -> describes h a ->
  exists ip name, dotted ip i1 i2 i3 i4 /\ stripped (an_name a) name /\
    args_of_host h = mkArgs (Some ip) (Some (an_port a)) (Some (an_type a)) (Some (an_subtype a)) (Some name) None.
Proof. intros Q D. unfold describes in D. rewrite Q in D. destruct D as (ip & name & Di & St & ->). exists ip, name. auto. Qed.
Lemma found_first bs h hs : found bs (h :: hs) -> exists before b after a, bs = before ++ b :: after /\
  Forall (fun b => ~ valid_datagram b) before /\ announces a /\ datagram a b /\ describes h a.
Proof.
  intros F. remember (h :: hs) as l eqn:Q. revert h hs Q. induction F; intros h0 hs0 Q; try discriminate.
  - injection Q as -> ->. exists [], b, bs, a. auto.
  - destruct (IHF _ _ Q) as (be & b' & af & a & -> & Fo & R). exists (b :: be), b', af, a. split; [reflexivity|]. split; [constructor; assumption|exact R].
Qed.
Lemma found_none bs : found bs [] -> Forall (fun b => ~ valid_datagram b) bs.
Proof. intros F. remember [] as l eqn:Q. induction F; try discriminate; constructor; auto. Qed.

Lemma no_ip_spec o : no_ip o = true <-> unnamed o.
Proof. unfold no_ip, unnamed. destruct (o_ip o) as [[|]|]; split; auto; try discriminate; intros [H|H]; discriminate. Qed.

Lemma cli_behaves n nw now o c w : accepted c = true -> ~ is_dst c -> c <> Discover -> Forall wf_bytes (net_in nw) ->
  behaves n nw now o c w (r_trace (cli n nw now o c w)) (r_world (cli n nw now o c w)) (r_end (cli n nw now o c w)).
Proof.
  intros A D1 D2 W. unfold cli.
  destruct (no_ip o) eqn:Ip.
  - destruct (async_discover nw) as [dv fo] eqn:Dc. unfold program. rewrite Ip.
    destruct fo as [hs|e]; cbn [lift].
    + assert (NW : net_works nw).
      { unfold async_discover in Dc. unfold net_works. destruct (net_open nw); [discriminate|]. destruct (net_send nw); [discriminate|].
        destruct (net_cancelled nw); [discriminate|]. auto. }
      assert (F : found (net_in nw) hs).
      { unfold async_discover in Dc. destruct NW as (X & Y & Z). rewrite X, Y, Z in Dc. injection Dc as _ <-. destruct (fold_found _ W []) as (h2 & -> & F). exact F. }
      apply no_ip_spec in Ip. destruct hs as [|h hs].
      * cbn [run]. cbn [r_trace r_world r_end]. apply B_none; auto. apply found_none, F.
      * apply found_first in F. destruct F as (be & b & af & a & Q & Fo & An & Da & De).
        destruct (an_ip a) as [[[i1 i2] i3] i4] eqn:Qi. destruct (host_args h a _ _ _ _ Qi De) as (ip & name & Di & St & Qx).
        assert (U : uses o nw (args_of_host h)) by (rewrite Qx; eapply U_found; eassumption).
        assert (Pc : match c with Discover => (if o_verbose o then Print (text "Discovered:") else fun k => k) (list_hosts (o_verbose o) (h :: hs))
                     | _ => main (o_verbose o) true now (args_of_host h) c end = main (o_verbose o) true now (args_of_host h) c)
          by (destruct c; try reflexivity; contradiction (D2 eq_refl)).
        rewrite Pc. destruct (run n (main _ _ _ _ _) w) as [ls [[t w'] e]] eqn:E.
        apply main_conducts in E; auto. destruct e as [z|x|y]; cbn [reported] in E; try (eapply B_run; eassumption).
        destruct (is_sl x); eapply B_run; eassumption.
    + cbn [run]. assert (NW : ~ net_works nw).
      { intros (X & Y & Z). unfold async_discover in Dc. rewrite X, Y, Z in Dc. discriminate. }
      apply no_ip_spec in Ip. destruct (is_sl e); cbn [r_trace r_world r_end]; apply B_net; eauto.
  - unfold program. rewrite Ip. destruct (run n (main _ _ _ _ _) w) as [ls [[t w'] e]] eqn:E.
    assert (U : uses o nw (args_of_options o)).
    { unfold no_ip in Ip. unfold args_of_options. destruct (o_ip o) as [[|z l]|] eqn:Q; try discriminate. apply U_named; [exact Q|discriminate]. }
    apply main_conducts in E; auto. destruct e as [z|x|y]; cbn [reported] in E; try (eapply B_run; eassumption).
    destruct (is_sl x); eapply B_run; eassumption.
Qed.
