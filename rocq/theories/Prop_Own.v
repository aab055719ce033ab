(** C129: the handlers the user registers for messages himself. Vocabulary: SpecOwn.v, SpecNet.v. *)
From Verif Require Import Py F64 Struct Utf Utility Const Spec Enum Decode Messages Calls World Request Gateway Traces Paths Api Tasks Pool SpecPool Net SpecNet
  P_Base P_Own P_Net7 Hostile Prop_Request Prop_Gateway Prop_Connect Prop_Pool SpecWired SpecOwn Prop_Net Prop_Wired.
From Verif Require Client Protocol Prop_Decode Prop_Term P_Hand P_Pool2.

Lemma own_app_log c a b : ran_own c (a ++ b) = ran_own c a ++ ran_own c b. Proof. apply flat_map_app. Qed.
Lemma own_wire c c' os : ran_own c (map (Wire c') os) = [].
Proof. induction os; [reflexivity|assumption]. Qed.
Lemma dealts_own c w l : ran_own c (flat_map (dealt c w) l) = flat_map (own_handler c w) l.
Proof.
  induction l as [|m l IH]; [reflexivity|]. cbn [flat_map]. rewrite own_app_log, IH. f_equal. unfold dealt, own_handler.
  destruct (handler_of c (fst m) w) as [[]|]; cbn; rewrite ?Nat.eqb_refl; destruct m; reflexivity.
Qed.

(** Bytes arrive: each message they complete that answers no request, and whose code has a handler
    of the user, makes that handler run once, in order, for that message; no other handler runs. *)
Theorem C129_once n id mr rnd h es N c b : on_wire n id mr rnd h es = Some N ->
  exists new, unasked c (n_log (nstep n N (NData c b))) = unasked c (n_log N) ++ new /\
    ran_own c (n_log (nstep n N (NData c b))) = ran_own c (n_log N) ++ flat_map (own_handler c (p_world (n_pool N))) new.
Proof.
  unfold on_wire. destruct (new_gateway id mr rnd [] h) as [w0|]; [|discriminate]. intros R. injection R as <-. destruct (sane_run n w0 es) as (B & _). set (N := nrun n (nstart w0) es) in *.
  assert (Z : nstep n N (NData c b) = N -> exists new, unasked c (n_log (nstep n N (NData c b))) = unasked c (n_log N) ++ new /\
    ran_own c (n_log (nstep n N (NData c b))) = ran_own c (n_log N) ++ flat_map (own_handler c (p_world (n_pool N))) new) by (intros ->; exists []; cbn [flat_map]; rewrite !app_nil_r; auto).
  destruct (nth_error (n_links N) c) as [s|] eqn:E; [|apply Z; cbn [nstep]; rewrite E; reflexivity].
  destruct (takes_bytes s) eqn:T; [|apply Z; cbn [nstep]; rewrite E, T; reflexivity].
  destruct (data_log n N c b s B E T) as (os & t & -> & NH & -> & _). exists (drops os).
  rewrite !unasked_app, !own_app_log, dealts_unasked, dealts_own, unasked_wire, own_wire by exact NH. cbn. rewrite !app_nil_r. auto.
Qed.
Print Assumptions C129_once.

Lemma run_Hd n code : forall es P, Hd code P -> Forall unsubscribed es -> Hd code (prun n P es).
Proof. induction es as [|e es IH]; intros P H F; [exact H|]. inversion F; subst. unfold prun. cbn [fold_left]. apply IH; [|assumption]. apply Hd_step; assumption. Qed.
Lemma run_has n code c u : forall es P, Hd code P -> Forall unsubscribed es -> Forall (not_overridden code) es -> has code c u (p_world P) -> has code c u (p_world (prun n P es)).
Proof.
  induction es as [|e es IH]; intros P H F F2 K; [exact K|]. inversion F; subst. inversion F2; subst. unfold prun. cbn [fold_left].
  destruct (Hd_step code n P e) as (H' & K'); try assumption. apply IH; auto.
Qed.
Lemma start_Hd id mr rnd h w code : new_gateway id mr rnd [] h = Ok w -> Hd code (start w).
Proof. unfold new_gateway. destruct (_ && _); [|discriminate]. intros E. injection E as <-. split; [split; reflexivity|intros t []]. Qed.

(** A handler stays where the user put it, and gets every message of its code that comes on that
    connection and answers no request, as long as nobody subscribes to anything. *)
Theorem C129_kept_partial n id mr rnd h es N c u code b : on_wire n id mr rnd h es = Some N -> registered n id mr rnd h es c u code -> no_subscriptions es ->
  connected c (p_world (n_pool N)) = true -> c_closing (get_conn c (p_world (n_pool N))) = false ->
  exists new, unasked c (n_log (nstep n N (NData c b))) = unasked c (n_log N) ++ new /\
    ran_for code (ran_own c (n_log (nstep n N (NData c b)))) = ran_for code (ran_own c (n_log N)) ++ map (fun m => (u, m)) (of_code code new).
Proof.
  intros R (e1 & e2 & N1 & E & R1 & WP & NR & NM) NS Cn Cl. destruct (C129_once _ _ _ _ _ _ _ c b R) as (new & A & B). exists new. split; [exact A|].
  destruct (in_calls_some _ _ _ _ _ _ _ R1) as (p1 & I1). destruct (plays_some n e2 (nstep n N1 (NCall (RegisterHandler code u)))) as (p2 & P2).
  assert (Sub : forall ps es', (forall c, In (Pool.Call c) ps -> In (NCall c) es') -> (forall x, In x es' -> In x es) -> Forall unsubscribed ps).
  { intros ps es' K1 K2. apply Forall_forall. intros x J. destruct x as [call| | | | |]; try exact Logic.I. destruct call; try exact Logic.I. eapply NS, K2, K1, J. }
  pose proof (in_calls_ran _ _ _ _ _ _ _ _ I1 R1) as RP. unfold ran in RP. destruct (new_gateway id mr rnd [] h) as [w|] eqn:W; [|discriminate RP]. assert (EP : n_pool N1 = prun n (start w) p1) by congruence. clear RP.
  assert (H1 : Hd code (n_pool N1)).
  { rewrite EP. apply run_Hd; [eapply start_Hd, W|]. destruct I1 as (w' & _ & PL). eapply Sub; [intros call J; exact (plays_call _ _ _ _ _ PL J)|]. intros x J. rewrite E. apply in_or_app. left. exact J. }
  set (Q := pstep n (n_pool N1) (Pool.Call (RegisterHandler code u))).
  assert (L : (c < List.length (w_conns (p_world (n_pool N1))))%nat).
  { assert (RQ : ran n id mr rnd h p1 = Some (n_pool N1)) by (unfold ran; rewrite W, EP; reflexivity); destruct (ran_inv _ _ _ _ _ _ _ RQ) as (Iv & _). pose proof (proj1 (P_Pool2.I_proto _ _ _ _ _ Iv c WP)) as Ac. destruct Ac as (i & t1 & p & ms & r & d & t2 & EO & _).
    apply (P_Pool2.I_known _ _ _ _ _ Iv i c (Send c 27 p)); [|left; left; eauto].
    assert (J : In (Send c 27 p) (own i (p_log (n_pool N1)))) by (rewrite EO; apply in_or_app; right; left; reflexivity).
    unfold own in J. apply in_flat_map in J. destruct J as ([| k e | | |] & J & K); try destruct K. destruct (Nat.eqb_spec k i); [|destruct K]. destruct K as [->|[]]. subst k. exact J. }
  assert (H2 : has code c u (p_world Q)).
  { unfold Q. cbn [pstep tperform tget tbind advance]. rewrite WP. cbn [advance tdo tret tbind fst snd p_world]. generalize dependent (p_world (n_pool N1)). intros w1 _ L. split.
    - unfold register, upd_conn. cbn [set_conns w_conns]. rewrite P_Moves.lset_len. exact L.
    - unfold register. rewrite P_Hand.get_upd, Nat.eqb_refl. destruct (Nat.ltb_spec c (List.length (w_conns w1))); [|lia]. cbn [andb c_handlers]. apply P_Hand.find_set. }
  assert (HQ : Hd code Q) by (apply Hd_step; [exact Logic.I|exact H1]).
  assert (EQ : n_pool N = prun n Q p2).
  { pose proof (on_wire_app _ _ _ _ _ _ (NCall (RegisterHandler code u) :: e2) _ R1) as RN. rewrite <- E, R in RN. assert (EN : N = nrun n N1 (NCall (RegisterHandler code u) :: e2)) by congruence.
    rewrite EN. unfold nrun. cbn [fold_left]. fold (nrun n (nstep n N1 (NCall (RegisterHandler code u))) e2). rewrite (plays_pool _ _ _ _ P2). cbn [nstep]. rewrite move_pool. reflexivity. }
  assert (H3 : has code c u (p_world (n_pool N))).
  { rewrite EQ. apply run_has; [exact HQ| | |exact H2].
    - eapply Sub; [intros call J; exact (plays_call _ _ _ _ _ P2 J)|]. intros x J. rewrite E. apply in_or_app. right. right. exact J.
    - apply Forall_forall. intros x J. destruct x as [call| | | | |]; try exact Logic.I. pose proof (plays_call _ _ _ _ _ P2 J) as J'. destruct call; try exact Logic.I; intros ->; [exact (NR _ J')|exact (NM J')]. }
  rewrite B. unfold ran_for. rewrite filter_app. f_equal. clear - H3 Cn Cl. unfold of_code. induction new as [|m new IH]; [reflexivity|]. cbn [flat_map filter]. rewrite filter_app, IH.
  
  destruct H3 as (_ & F). unfold P_Hand.find_h in F. unfold own_handler, handler_of. unfold connected in Cn. rewrite Cn, Cl. cbn [negb andb]. destruct (Z.eqb_spec (fst m) code) as [EQ|NE].
  - rewrite EQ, F. cbn [option_map filter fst snd map app]. rewrite EQ, Z.eqb_refl. reflexivity.
  - apply Z.eqb_neq in NE. clear F IH. destruct (find _ _) as [[k [v|v]]|]; cbn [option_map filter fst snd map app]; rewrite ?NE; reflexivity.
Qed.
Print Assumptions C129_kept_partial.

(** The handler is registered, the connection stays up, messages of other codes come, a request is waiting. *)
Definition own_run : list nevent := wire_login ++ [NCall (RegisterHandler 777 5); NCall (RegisterHandler 12500 6); NCall GetChemistry; NData 0 (frame (0, 12505, [1]))].
Definition own_bytes : bytes := frame (0, 777, [1; 2]) ++ frame (0, 12500, [3]) ++ frame (0, 777, [4]).
Definition own_facts (c : nat) (b : bytes) (N : net) :=
  (connected c (p_world (n_pool N)), c_closing (get_conn c (p_world (n_pool N))), ran_own c (n_log (nstep 2 N (NData c b)))).
Lemma own_ran : option_map (own_facts 0 own_bytes) (on_wire 2 (Some 777) None 0 its_host own_run) = Some (true, false, [(5%nat, (777, [1; 2])); (6%nat, (12500, [3])); (5%nat, (777, [4]))]).
Proof. vm_compute. reflexivity. Qed.
Lemma login_proto : option_map (fun N => w_proto (p_world (n_pool N))) (on_wire 2 (Some 777) None 0 its_host wire_login) = Some (Some 0%nat).
Proof. vm_compute. reflexivity. Qed.
Lemma after_login e2 u code : (forall v, ~ In (NCall (RegisterHandler code v)) e2) -> ~ In (NCall (RemoveHandler code)) e2 ->
  registered 2 (Some 777) None 0 its_host (wire_login ++ NCall (RegisterHandler code u) :: e2) 0 u code.
Proof.
  intros A B. pose proof login_proto as L. destruct (on_wire 2 (Some 777) None 0 its_host wire_login) as [N1|] eqn:R1; [|discriminate L]. unfold option_map in L.
  exists wire_login, e2, N1. split; [reflexivity|]. split; [exact R1|]. split; [congruence|]. auto.
Qed.
Ltac absent J := unfold own_run in J; repeat (apply in_app_or in J; destruct J as [J|J]); cbn [In] in J; repeat (destruct J as [J|J]; [discriminate J|]); try exact J;
  unfold wire_login in J; cbn [In app] in J; repeat (destruct J as [J|J]; [discriminate J|]); exact J.
Example C129_nonvacuous : exists N, on_wire 2 (Some 777) None 0 its_host own_run = Some N /\ registered 2 (Some 777) None 0 its_host own_run 0 5 777 /\ no_subscriptions own_run /\
  connected 0 (p_world (n_pool N)) = true /\ c_closing (get_conn 0 (p_world (n_pool N))) = false /\
  ran_own 0 (n_log (nstep 2 N (NData 0 own_bytes))) = [(5%nat, (777, [1; 2])); (6%nat, (12500, [3])); (5%nat, (777, [4]))].
Proof.
  pose proof own_ran as F. destruct (on_wire 2 (Some 777) None 0 its_host own_run) as [N|] eqn:R; [|discriminate F]. unfold option_map, own_facts in F. exists N. split; [reflexivity|].
  split; [apply after_login; [intros v J|intros J]; absent J|]. split; [intros cb code J; absent J|]. repeat split; congruence.
Qed.

(** False of the code with subscriptions: when the last subscription to another code ends, the
    handler is taken off, although the user did not take it off and the connection stays up. *)
Definition dropped_run : list nevent := wire_login ++ NCall (RegisterHandler 777 5) :: [NCall (Subscribe 9 12500); arrive 4 12523 []; NResume 2 clk; NCall (Unsubscribe 9 12500); NCall Unregister].
Lemma dropped_ran : option_map (own_facts 0 own_bytes) (on_wire 2 (Some 777) None 0 its_host dropped_run) = Some (true, false, []).
Proof. vm_compute. reflexivity. Qed.
Theorem C129_refuted : exists n id mr rnd h es N c u code b, on_wire n id mr rnd h es = Some N /\ registered n id mr rnd h es c u code /\
  connected c (p_world (n_pool N)) = true /\ c_closing (get_conn c (p_world (n_pool N))) = false /\
  exists d, In (code, d) (unasked c (n_log (nstep n N (NData c b)))) /\ ran_own c (n_log (nstep n N (NData c b))) = [].
Proof.
  assert (D : option_map (fun N => unasked 0 (n_log (nstep 2 N (NData 0 own_bytes)))) (on_wire 2 (Some 777) None 0 its_host dropped_run) = Some [(777, [1; 2]); (12500, [3]); (777, [4])]) by (vm_compute; reflexivity).
  pose proof dropped_ran as F. destruct (on_wire 2 (Some 777) None 0 its_host dropped_run) as [N|] eqn:R; [|discriminate F]. unfold option_map, own_facts in F, D.
  exists 2%nat, (Some 777), None, 0, its_host, dropped_run, N, 0%nat, 5%nat, 777, own_bytes. split; [exact R|].
  split; [apply after_login; [intros v J|intros J]; absent J|]. split; [congruence|]. split; [congruence|]. exists [1; 2]. split; [|congruence]. assert (D2 : unasked 0 (n_log (nstep 2 N (NData 0 own_bytes))) = [(777, [1; 2]); (12500, [3]); (777, [4])]) by congruence. rewrite D2. left. reflexivity.
Qed.
Print Assumptions C129_refuted.
