(** Messages and acknowledgements of command line runs. *)
From Verif Require Import Py F64 Struct Utf Utility Const Enum Decode Data Discovery SpecDiscovery World Request Gateway Traces Api Spec SpecParse Paths Cli SpecCli
  P_Base P_Util P_Monad P_Request P_Sat P_Paths P_Dict P_Gw1 P_Gw2 P_Gw3 P_Gw4 P_Gw9 P_Gw11 P_Gw15 P_Cm3 P_Calm P_Enum P_Parse P_Discovery Prop_Enum P_Cli P_Cli2.

Definition okay (now : datetime) (c : cmd) (X : Z) (p : bytes) : Prop := connecting_code X \/ polling X \/ writes now c X p.
Definition within (ok : Z -> bytes -> Prop) (t : trace) : Prop := forall k X p, In (Send k X p) t -> ok X p.
Definition careful (n : nat) (ok : Z -> bytes -> Prop) (s : step) : Prop := forall w t w' o, does n s w = (t, w', o) -> within ok t.

Lemma within_app ok a b : within ok a -> within ok b -> within ok (a ++ b).
Proof. intros A B k X p I. apply in_app_or in I. destruct I; eauto. Qed.
Lemma within_nil ok : within ok []. Proof. intros k X p []. Qed.
Lemma progress_within n ok l w t w' en : progress n l w t w' en -> Forall (careful n ok) l -> within ok t.
Proof.
  induction 1; intros F; try apply within_nil; inversion F; subst; try (eapply H3; eassumption).
  - apply within_app; [|auto]. match goal with H : careful n ok s |- _ => eapply H; eassumption end.
  - match goal with H : careful n ok s |- _ => eapply H; eassumption end.
  - match goal with H : careful n ok s |- _ => eapply H; eassumption end.
Qed.

Section Ok.
Variables (n : nat) (now : datetime) (c : cmd).
Notation ok := (okay now c).
Lemma ok_connect x : careful n ok (Do (Connect x)).
Proof.
  intros w t w' o E. cbn [does perform] in E. unfold ignore in E.
  assert (S : Sat (allowed ok) (async_connect n x ;;; mret tt)).
  { assert (Cl := allowed_closed ok). eapply sat_bind; [exact Cl| |intros; apply (sat_ret _ _ Cl)].
    eapply sat_connect_args with (ok := ok); try exact Cl; try (intros; left; cbn; tauto). }
  exact (S _ _ _ _ E).
Qed.
Lemma ok_disconnect f : careful n ok (Do (Disconnect f)).
Proof.
  intros w t w' o E. cbn [does perform] in E.
  assert (S : Sat (allowed ok) (async_disconnect f)).
  { assert (Cl := allowed_closed ok). eapply sat_disconnect; [exact Cl|]. intros; left; cbn; tauto. }
  exact (S _ _ _ _ E).
Qed.
Lemma only_within X t : polling X -> only_code X t -> within ok t.
Proof. intros P O k Y p I. destruct (O _ _ _ I) as [->|C]; [right; left; exact P|left; exact C]. Qed.
Lemma ok_update : careful n ok (Do Update).
Proof.
  intros w t w' o E. cbn [does perform] in E. apply update_parts in E. destruct E as (t1 & t2 & t3 & t4 & t5 & -> & A1 & A2 & A3 & A4 & A5).
  repeat apply within_app; (eapply only_within; [|eassumption]); unfold polling; cbn; tauto.
Qed.
Lemma ok_get k X : k = GetScg /\ X = 12572 \/ k = GetChemistry /\ X = 12592 \/ k = GetDatetime /\ X = 8110 -> careful n ok (Do k).
Proof.
  intros K w t w' o E. cbn [does] in E. apply (only_within X).
  - destruct K as [(-> & ->)|[(-> & ->)|(-> & ->)]]; unfold polling; cbn; tauto.
  - eapply (call_only n k X); [| |exact E]; destruct K as [(-> & ->)|[(-> & ->)|(-> & ->)]]; auto.
Qed.
Lemma ok_wait ms : careful n ok (Wait ms).
Proof.
  intros w t w' o E. cbn [does] in E.
  assert (S : Sat (allowed ok) (msleep ms)) by (eapply sat_sleep, allowed_closed). exact (S _ _ _ _ E).
Qed.
End Ok.

(** a setter sends its own message only *)
Lemma setter_only n c X w t w' o : is_command c -> request_code c = Some X -> perform n c w = (t, w', o) -> only_code X t.
Proof.
  intros K R E. destruct c; try contradiction; cbn [request_code] in R; injection R as <-; cbn [perform] in E.
  all: match goal with |- only_code ?X _ =>
    assert (C : forall pl delay w t w' o, command n (command_request X pl) delay w = (t, w', o) -> only_code X t)
      by (intros ? ? ? ? ? ? E0 k Y p I; destruct (command_only _ _ _ _ _ _ _ _ E0 _ _ _ I) as [?|[-> _]]; [right; assumption|left; reflexivity]) end.
  all: unfold async_synchronize_date_time, async_set_circuit, async_set_heat_temp, async_set_heat_mode, async_set_color_lights, async_set_scg_config, async_set_chem_data, async_set_date_time, require in E.
  all: repeat first [rewrite bind_get in E | rewrite bind_assoc in E | rewrite bind_ret in E | match type of E with
    | context [mlift ?r] => destruct r; cbn [mlift] in E; [rewrite bind_ret in E|rewrite bind_raise in E; injection E as <- <- <-; intros ? ? ? []]
    | context [if ?b then _ else _] => destruct b
    | mbind (mraise _) _ _ = _ => rewrite bind_raise in E; injection E as <- <- <-; intros ? ? ? []
    | (let '(_, _) := ?p in _) _ = _ => destruct p
    end].
  all: try (eapply C; exact E).
Qed.

Lemma setter_careful n now c k X : is_command k -> request_code k = Some X ->
  (forall w t w' o q p, perform n k w = (t, w', o) -> In (Send q X p) t -> writes now c X p) -> careful n (okay now c) (Do k).
Proof.
  intros K R H w t w' o E q Y p I. cbn [does] in E.
  destruct (setter_only _ _ _ _ _ _ _ K R E _ _ _ I) as [->|C]; [right; right; eapply H; eassumption|left; exact C].
Qed.

Lemma scg_super n pool spa s timer w t w' o c p : async_set_scg_config n pool spa (Some (VStr s)) timer w = (t, w', o) ->
  In (Send c 12576 p) t -> forall z, means switches s z ->
  exists a b k, p = u32le 0 ++ u32le a ++ u32le b ++ u32le z ++ u32le k /\ chosen timer (w_data w) scg_timer_path (VInt k).
Proof.
  intros E I z (nm & N). unfold async_set_scg_config in E. rewrite bind_get in E.
  destruct (scg_args pool spa (Some (VStr s)) timer (w_data w)) as [[[[a b] s'] k]|e] eqn:A; cbn [mlift] in E.
  2:{ rewrite bind_raise in E. injection E as <- <- <-. contradiction. }
  rewrite bind_ret in E. apply (command_sends _ _ _ _ _ _ _ _ _ _ E) in I; [|not_connecting].
  assert (S : s' = VInt z).
  { unfold scg_args in A. apply as_sl_ok in A. apply rbind_ok in A. destruct A as (a' & _ & A). apply rbind_ok in A. destruct A as (b' & _ & A).
    cbn [or_current rbind] in A. apply rbind_ok in A. destruct A as (k' & _ & A).
    apply rbind_ok in A. destruct A as (? & _ & A). apply rbind_ok in A. destruct A as (? & _ & A).
    apply rbind_ok in A. destruct A as (m & Hm & A). change ON_OFF with switches in Hm.
    rewrite (C80_named switches s nm z (Some 0) en_switch N) in Hm. injection Hm as <-.
    apply rbind_ok in A. destruct A as (? & _ & A). congruence. }
  subst s'. apply scg_args_inv in A. destruct A as (Ca & Cb & Ck & _).
  pack_inv I. eexists _, _, _. rewrite u32s_5. split; [reflexivity|exact Ck].
Qed.

Lemma asks_careful n now d c l code : asks now d c l code -> accepted c = true -> dates_ok now c -> Forall (careful n (okay now c)) l.
Proof.
  intros A Ac D. destruct A; repeat (apply Forall_cons); try apply Forall_nil; try apply ok_update; try apply ok_wait;
    try (eapply ok_get; auto; fail).
  - eapply setter_careful; [exact Logic.I|reflexivity|]. intros w t w' o q p E I. cbn [perform] in E.
    destruct (set_circuit_only _ _ _ _ _ _ _ _ _ E I) as (? & ? & Q1 & Q2 & _ & _ & _ & ->). injection Q1 as <-. injection Q2 as <-. constructor; assumption.
  - eapply setter_careful; [exact Logic.I|reflexivity|]. intros w t w' o q p E I. cbn [perform] in E.
    destruct (set_lights_only _ _ _ _ _ _ _ _ E I) as (? & Q1 & _ & ->). injection Q1 as <-. constructor; assumption.
  - eapply setter_careful; [exact Logic.I|reflexivity|]. intros w t w' o q p E I. cbn [perform] in E.
    destruct (set_heat_mode_only _ _ _ _ _ _ _ _ _ E I) as (? & ? & Q1 & Q2 & _ & _ & _ & ->). injection Q1 as <-. injection Q2 as <-. constructor; assumption.
  - eapply setter_careful; [exact Logic.I|reflexivity|]. intros w t w' o q p E I. cbn [perform] in E.
    destruct (set_heat_temp_only _ _ _ _ _ _ _ _ _ E I) as (? & ? & ? & ? & Q1 & Q2 & _ & _ & _ & _ & _ & _ & _ & _ & _ & ->). injection Q1 as <-. injection Q2 as <-. constructor; assumption.
  - eapply setter_careful; [exact Logic.I|reflexivity|]. intros w t w' o q p E I. cbn [perform] in E.
    destruct (set_scg_only _ _ _ _ _ _ _ _ _ _ _ E I) as (x & y & s & k & -> & _ & _ & _ & _ & Ca & Cb & _).
    constructor.
    + intros z ->. cbn in Ca. congruence.
    + intros z ->. cbn in Cb. congruence.
    + destruct a; [left; discriminate|]. destruct b; [right; discriminate|]. contradiction H. repeat constructor.
  - eapply setter_careful; [exact Logic.I|reflexivity|]. intros w t w' o q p E I. cbn [perform] in E.
    destruct s as [s|].
    + cbn [accepted ochoice] in Ac. destruct (choice_means switches s en_switch Ac) as (z & M & _).
      destruct (scg_super _ _ _ _ _ _ _ _ _ _ _ E I z M) as (x & y & k & -> & Ck). constructor.
      * intros ? Q. injection Q as <-. exact M.
      * intros ? ->. cbn in Ck. congruence.
      * assumption.
    + destruct (set_scg_only _ _ _ _ _ _ _ _ _ _ _ E I) as (x & y & z & k & -> & _ & _ & _ & _ & Ca & Cb & Ck & _). constructor.
      * discriminate.
      * intros ? ->. cbn in Ck. congruence.
      * assumption.
  - eapply setter_careful; [exact Logic.I|reflexivity|]. intros w t w' o0 q p0 E I. cbn [perform] in E.
    destruct (set_chem_only _ _ _ _ _ _ _ _ _ _ _ _ _ E I) as (h & a & b & e & f & g & v & -> & _ & _ & _ & _ & _ & _ & Cv & Ch & Ca & _).
    constructor.
    + intros x ->. cbn in Cv. subst v. cbn [times100] in Ch. destruct (f_trunc _); [|discriminate]. cbn [rbind] in Ch. congruence.
    + intros z ->. cbn in Ca. congruence.
    + assumption.
  - eapply setter_careful; [exact Logic.I|reflexivity|]. intros w t w' o0 q p0 E I. cbn [perform] in E.
    destruct (set_chem_only _ _ _ _ _ _ _ _ _ _ _ _ _ E I) as (h & a & b & e & f & g & v & -> & _ & _ & _ & _ & _ & _ & _ & _ & _ & Cb & Ce & Cf & Cg).
    constructor; try assumption; intros z ->; [cbn in Cb|cbn in Ce|cbn in Cf|cbn in Cg]; congruence.
  - eapply setter_careful; [exact Logic.I|reflexivity|]. intros w t0 w' o q p E I. cbn [perform] in E.
    apply set_date_time_only with (c := q) (p := p) in E; [|intros ? Q; injection Q as <-; exact D|exact I].
    destruct E as (t1 & a & -> & _ & _ & ->). apply W_time. auto.
  - eapply setter_careful; [exact Logic.I|reflexivity|]. intros w t0 w' o q p E I. cbn [perform] in E.
    apply set_date_time_only with (c := q) (p := p) in E; [|intros ? Q; injection Q as <-; exact D|exact I].
    destruct E as (t1 & a & -> & _ & _ & ->). apply W_time. auto.
Qed.

(** ------------------------------------------------------------------ *)
(** * Acknowledgements *)
Lemma ack_r X a b : acknowledged X b -> acknowledged X (a ++ b).
Proof. intros (r & I & A). exists r. split; [apply in_or_app; right; exact I|exact A]. Qed.
Lemma ack_l X a b : acknowledged X a -> acknowledged X (a ++ b).
Proof. intros (r & I & A). exists r. split; [apply in_or_app; left; exact I|exact A]. Qed.
Lemma request_acked X pl mr c w t w' x : command_request X pl mr c w = (t, w', Val x) -> acknowledged X t.
Proof.
  unfold command_request. intros E. destruct pl as [p|e]; cbn [mlift] in E; [|rewrite bind_raise in E; discriminate].
  rewrite bind_ret in E. apply bind_inv in E. destruct E as [(t1 & w1 & a & t2 & E1 & E2 & ->)|[(e & E1 & Q)|(y & E1 & Q)]]; try discriminate.
  destruct a as [[|]|]; try discriminate. apply ack_l. apply request_run in E1. apply run_answer in E1.
  destruct E1 as (rs & r & Q & A). exists r. split; [|exact A]. apply replies_got. rewrite Q. apply in_or_app. right. left. reflexivity.
Qed.
Lemma attempt_acked X pl k mr w t w' x : attempt_request k (command_request X pl) mr w = (t, w', Val x) -> acknowledged X t.
Proof.
  unfold attempt_request. intros E. apply bind_inv in E. destruct E as [(t1 & w1 & b & t2 & _ & E & ->)|[(e & _ & Q)|(y & _ & Q)]]; try discriminate.
  apply ack_r. destruct (negb b); [discriminate|]. apply bind_inv in E. destruct E as [(t3 & w3 & c & t4 & _ & E & ->)|[(e & _ & Q)|(y & _ & Q)]]; try discriminate.
  apply ack_r. eapply request_acked; exact E.
Qed.
Lemma command_acked n X pl delay w t w' x : command n (command_request X pl) delay w = (t, w', Val x) -> acknowledged X t.
Proof.
  unfold command, connected_request. rewrite bind_get. unfold mcatch.
  destruct (attempt_request _ _ _ w) as [[t1 w1] [z|e|y]] eqn:E1; intros E.
  - injection E as <- <- <-. eapply attempt_acked; exact E1.
  - destruct (is_comm_error e); [|discriminate].
    match type of E with context [mbind ?a ?b w1] => destruct (mbind a b w1) as [[t2 w2] o2] eqn:E2 end.
    injection E as <- <- ->. apply ack_r. apply bind_inv in E2.
    destruct E2 as [(t3 & w3 & c & t4 & _ & E2 & ->)|[(? & _ & Q)|(? & _ & Q)]]; try discriminate. apply ack_r. apply bind_inv in E2.
    destruct E2 as [(t5 & w5 & c5 & t6 & _ & E2 & ->)|[(? & _ & Q)|(? & _ & Q)]]; try discriminate. apply ack_r. eapply attempt_acked; exact E2.
  - discriminate.
Qed.
Lemma setter_acked n c X w t w' x : is_command c -> request_code c = Some X -> perform n c w = (t, w', Val x) -> acknowledged X t.
Proof.
  intros K R E. destruct c; try contradiction; cbn [request_code] in R; injection R as <-; cbn [perform] in E.
  all: unfold async_synchronize_date_time, async_set_circuit, async_set_heat_temp, async_set_heat_mode, async_set_color_lights, async_set_scg_config, async_set_chem_data, async_set_date_time, require in E.
  all: repeat first [rewrite bind_get in E | rewrite bind_assoc in E | rewrite bind_ret in E | match type of E with
    | context [mlift ?r] => destruct r; cbn [mlift] in E; [rewrite bind_ret in E|rewrite bind_raise in E; discriminate]
    | context [if ?b then _ else _] => destruct b
    | mbind (mraise _) _ _ = _ => rewrite bind_raise in E; discriminate
    | (let '(_, _) := ?p in _) _ = _ => destruct p
    end].
  all: eapply command_acked; exact E.
Qed.
Lemma progress_acked n X k l w t w' : progress n l w t w' Finished -> In (Do k) l -> is_command k -> request_code k = Some X -> acknowledged X t.
Proof.
  intros P I K R. remember Finished as en eqn:Q. revert I. induction P; intros I; try discriminate; [destruct I|].
  destruct I as [->|I]; [apply ack_l; eapply setter_acked; eassumption|apply ack_r; auto].
Qed.
Lemma asks_setting now d c l X : asks now d c l 0 -> setting c = Some X -> exists k, In (Do k) l /\ is_command k /\ request_code k = Some X.
Proof.
  intros A S. inversion A; subst; cbn [setting] in S; try discriminate.
  all: try match type of S with context [?z =? -1] => destruct (Z.eqb_spec z (-1)); [congruence|] end.
  all: injection S as <-; first [eexists; split; [left; reflexivity|split; [exact Logic.I|reflexivity]]
                                |eexists; split; [right; left; reflexivity|split; [exact Logic.I|reflexivity]]].
Qed.
Lemma progress_app_l n X l1 l2 w t w' k : progress n (l1 ++ l2) w t w' Finished -> In (Do k) l1 -> is_command k -> request_code k = Some X -> acknowledged X t.
Proof. intros P I. eapply progress_acked; [exact P|]. apply in_or_app. left. exact I. Qed.
