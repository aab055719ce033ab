(** C130: an answer that came reaches the call that asked. *)
From Verif Require Import Py F64 Struct Utf Utility Const Spec Enum Decode Messages Calls World Request Gateway Traces Paths Api Tasks Pool SpecPool Net SpecNet SpecAnswer P_Base P_Util.
From Verif Require Import P_Net1 P_Net2 P_Net3 P_Net4 P_Net5 P_Net6 P_Net8 P_Answer P_Answer2.
From Verif Require Protocol P_Proto1 P_Proto2 P_Proto3 P_Proto4 P_Pool P_Pool2 Hostile Prop_Connect.
From Verif Require Import Prop_Pool Prop_Net.
Import Protocol(OutRequest, OutWrite, OutCompleted).

(** C130. *)
Lemma wire_in c f id : forall g, In (f, id) (P_Proto2.requests_of (wires c g)) -> exists a X p b, g = a ++ Wire c (OutRequest f id X p) :: b.
Proof.
  intros g. unfold P_Proto2.requests_of, wires. intros J. apply in_flat_map in J. destruct J as (o & J & K). apply in_flat_map in J. destruct J as (x & J & Q).
  destruct x as [|c' o'| |]; try destruct Q. destruct (Nat.eqb_spec c' c) as [->|]; [|destruct Q]. destruct Q as [->|[]]. destruct o; cbn [In] in K; try contradiction. destruct K as [K|[]]. injection K as -> ->.
  apply in_split in J. destruct J as (a & b & ->). eauto.
Qed.
Lemma since_none f l : ~ In f (map fst (P_Proto2.requests_of l)) -> forall id X p l', since f (l ++ OutRequest f id X p :: l') = l'.
Proof.
  induction l as [|o l IH]; intros N id X p l'; cbn [since app]; [rewrite Nat.eqb_refl; reflexivity|].
  destruct o; try (apply IH; exact N). destruct (Nat.eqb_spec f0 f) as [->|NE]; [destruct N; left; reflexivity|]. apply IH. intros J. apply N. right. exact J.
Qed.
Lemma first_find id : forall l, option_map snd (find (fun x : option nat * message => Protocol.msg_id (snd x) =? id) l) = find (fun m => Protocol.msg_id m =? id) (map snd l).
Proof. induction l as [|[k m] l IH]; [reflexivity|]. cbn [find map snd]. destruct (Protocol.msg_id m =? id); [reflexivity|exact IH]. Qed.

Lemma answer_there n cid mr rnd h e1 e2 N1 N i c f id X p g gb code b ms :
  on_wire n cid mr rnd h e1 = Some N1 -> on_wire n cid mr rnd h (e1 ++ e2) = Some N -> octets (e1 ++ e2) ->
  n_log N = n_log N1 ++ g ++ Api (By i (Send c X p)) :: Wire c (OutRequest f id X p) :: Wire c (OutWrite (frame (id, X, p))) :: gb ->
  own i (apis gb) = [AwaitReply c 2000] -> awaits i N = Some (AwaitReply c ms) ->
  ~ In (NTimeout i) e2 -> ~ In (NCancel i) e2 ->
  Z.of_nat (List.length (sent c gb)) < 32767 ->
  first_with id (taken c gb) = Some (id, code, b) ->
  exists w0, new_gateway cid mr rnd [] h = Ok w0 /\ whole n w0 N /\ n_slot N i = ForReply c f Fair /\ Protocol.fget f (Protocol.p_futs (link c N)) = Protocol.FDone (id, code, b).
Proof.
  intros R1 R O E Ow Aw NT NC Ln F. assert (O1 : octets e1) by (intros c' b' J; apply (O c' b'), in_or_app; auto).
  destruct (on_wire_whole _ _ _ _ _ _ _ R1 O1) as (w0 & W & Wh1). destruct (on_wire_whole _ _ _ _ _ _ _ R O) as (w0' & W' & Wh). assert (w0' = w0) by congruence. subst w0'.
  assert (We : Forall wf_nevent (e1 ++ e2)) by (apply Forall_forall; intros e J; destruct e; try exact Logic.I; exact (O _ _ J)).
  unfold on_wire in R, R1. rewrite W in R, R1. injection R1 as E1. injection R as E2.
  assert (K : heeds N) by (rewrite <- E2; eapply heeds_run; eassumption).
  assert (RN : N = nrun n N1 e2) by (rewrite <- E2, <- E1; unfold nrun; rewrite fold_left_app; reflexivity).
  pose proof Wh as (G & S).
  unfold awaits in Aw. destruct (nth_error (p_tasks (n_pool N)) i) as [[ | | |y k| ]|] eqn:T; try discriminate Aw. injection Aw as ->.
  destruct (proj2 (S i) _ _ _ T) as (f' & x & Sl). destruct (proj1 (S i) _ _ _ Sl) as (_ & (ga' & X' & p' & id' & gb' & L' & Ow' & _)).
  assert (E' : n_log N = (n_log N1 ++ g) ++ Api (By i (Send c X p)) :: Wire c (OutRequest f id X p) :: Wire c (OutWrite (frame (id, X, p))) :: gb) by (rewrite E, <- app_assoc; reflexivity).
  destruct (last_ask N i _ _ _ _ _ _ _ _ _ _ _ _ _ _ E' Ow L' Ow') as (Ega & _ & <-).
  assert (x = Fair).
  { pose proof Sl as Sl'. rewrite RN in Sl'. destruct (fair_run n i e2 N1 NT NC _ _ _ Sl') as [Q|Q]; [exact Q|]. exfalso. destruct Wh1 as (G1 & S1). destruct (proj1 (S1 i) _ _ _ Q) as (_ & (ga2 & X2 & p2 & id2 & gb2 & L2 & _)).
    assert (Eq : (n_log N1 ++ g) ++ [Api (By i (Send c X p))] = ga2 ++ [Api (By i (Send c X2 p2))]).
    { eapply (request_once n w0 N c f); [exact Wh|rewrite E', <- !app_assoc; reflexivity|]. rewrite E, L2, <- !app_assoc. reflexivity. }
    apply app_inj_tail in Eq. destruct Eq as (<- & _). apply (f_equal (@List.length _)) in L2. rewrite !app_length in L2. cbn [List.length] in L2. lia. }
  subst x. destruct (K_wait _ K _ _ _ Sl) as (s & Es & (Lf & Kw)).
  pose proof (G_wired _ _ _ _ G) as (A & _). pose proof (A _ _ Es) as LK. pose proof (G_sends _ _ _ _ G _ _ _ _ _ _ E') as (g3 & Q). cbv zeta in Q.
  assert (Ef : f = List.length (sent c (n_log N1 ++ g))) by congruence. assert (Ei : id = Z.of_nat (List.length (sent c (n_log N1 ++ g))) mod 32767) by congruence. rewrite <- Ef in Ei. clear Q g3.
  assert (Lt : List.length (Protocol.p_futs s) = (f + Datatypes.S (List.length (sent c gb)))%nat).
  { rewrite (L_futs _ _ _ LK), E', sent_app, app_length, <- Ef. f_equal. unfold sent. cbn [apis flat_map app]. rewrite Nat.eqb_refl. reflexivity. }
  assert (C : P_Proto3.current s f). { intros q Lq. rewrite Lt in Lq. clear - Lq Ln. intros D. lia. }
  specialize (Kw C).
  assert (Pl : Protocol.p_log s = wires c (n_log N1 ++ g) ++ OutRequest f id X p :: OutWrite (frame (id, X, p)) :: wires c gb).
  { destruct (L_linked _ _ _ LK) as (pes & _ & _ & _ & P). rewrite P, E', wires_app. f_equal. unfold wires. cbn [flat_map app]. rewrite Nat.eqb_refl. reflexivity. }
  assert (Rp : reply_to f (Protocol.p_log s) = Some (id, code, b)).
  { unfold reply_to. rewrite Pl, since_none.
    - cbn [P_Proto2.messages_of flat_map app]. fold (P_Proto2.messages_of (wires c gb)). rewrite <- taken_messages, <- first_find. unfold P_Proto2.kth_id. rewrite <- Ei. exact F.
    - intros J. apply in_map_iff in J. destruct J as ([f0 id0] & Jf & J). cbn [fst] in Jf. subst f0. apply (wire_in c f id0) in J. destruct J as (a & X0 & p0 & b0 & J).
      assert (Eq : (n_log N1 ++ g) ++ [Api (By i (Send c X p))] = a).
      { eapply (request_once n w0 N c f); [exact Wh|rewrite E', <- !app_assoc; reflexivity|]. rewrite E', J, <- !app_assoc. reflexivity. }
      apply (f_equal (@List.length _)) in Eq. rewrite J, !app_length in Eq. cbn [List.length] in Eq. lia. }
  assert (Fd : Protocol.fget f (Protocol.p_futs (link c N)) = Protocol.FDone (id, code, b)).
  { assert (link c N = s) as -> by (unfold link; apply nth_error_nth, Es). rewrite Rp in Kw. destruct (Protocol.fget f (Protocol.p_futs s)); [discriminate Kw|congruence|destruct Kw; discriminate]. }
  exists w0. auto.
Qed.
Theorem C130_answered n cid mr rnd h e1 e2 N1 N i c f id X p g gb code b ms clk :
  on_wire n cid mr rnd h e1 = Some N1 -> on_wire n cid mr rnd h (e1 ++ e2) = Some N -> octets (e1 ++ e2) ->
  n_log N = n_log N1 ++ g ++ Api (By i (Send c X p)) :: Wire c (OutRequest f id X p) :: Wire c (OutWrite (frame (id, X, p))) :: gb ->
  own i (apis gb) = [AwaitReply c 2000] -> awaits i N = Some (AwaitReply c ms) ->
  ~ In (NTimeout i) e2 -> ~ In (NCancel i) e2 ->
  Z.of_nat (List.length (sent c gb)) < 32767 ->
  first_with id (taken c gb) = Some (id, code, b) ->
  exists r t, own i (apis (n_log (nstep n N (NResume i clk)))) = own i (apis (n_log N)) ++ Got r :: t /\ answer_of r = Some (code, b).
Proof.
  intros R1 R O E Ow Aw NT NC Ln F. destruct (answer_there _ _ _ _ _ _ _ _ _ _ _ _ _ _ _ _ _ _ _ _ R1 R O E Ow Aw NT NC Ln F) as (w0 & W & Wh & Sl & Fd).
  destruct (goes_on n cid mr rnd h w0 W N i c f _ clk Wh Sl Fd) as (t & Et). eexists _, t. split; [exact Et|]. reflexivity.
Qed.
Print Assumptions C130_answered.
(** two calls at once; an unasked-for message; the answer to the second call comes first, then the
    timer of the first call fires and the connection is lost: the second call still gets its answer *)
Definition late_run : list nevent :=
  [NCall GetStatus; NCall (SetCircuit (VInt 505) (VInt 1)); arrive 0 12500 [1]; arrive 5 12531 [7]; NTimeout 1; NLose 0; NLostTask 0].
Definition late_rest : list line :=
  [Api (By 2 (AwaitReply 0 2000)); Came 0 (frame (0, 12500, [1])); Wire 0 (Protocol.OutDropped (0, 12500, [1]));
   Came 0 (frame (5, 12531, [7])); Wire 0 (OutCompleted 5 (5, 12531, [7])); Api (Env (Lost 0)); Wire 0 Protocol.OutLost].
Definition set_505 : bytes := [0; 0; 0; 0; 249; 1; 0; 0; 1; 0; 0; 0].
Lemma late_facts : option_map (fun N => (skipn 40 (n_log N), awaits 2 N)) (on_wire 2 (Some 777) None 0 Hostile.its_host (wire_login ++ late_run)) =
  Some (Api (By 2 (Send 0 12530 set_505)) :: Wire 0 (OutRequest 5 5 12530 set_505) :: Wire 0 (OutWrite (frame (5, 12530, set_505))) :: late_rest, Some (AwaitReply 0 2000)).
Proof. vm_compute. reflexivity. Qed.
Lemma late_login : option_map (fun N => firstn 34 (n_log N)) (on_wire 2 (Some 777) None 0 Hostile.its_host (wire_login ++ late_run)) =
  option_map n_log (on_wire 2 (Some 777) None 0 Hostile.its_host wire_login).
Proof. vm_compute. reflexivity. Qed.
Example C130_nonvacuous : exists N1 N g, on_wire 2 (Some 777) None 0 Hostile.its_host wire_login = Some N1 /\
  on_wire 2 (Some 777) None 0 Hostile.its_host (wire_login ++ late_run) = Some N /\ octets (wire_login ++ late_run) /\
  n_log N = n_log N1 ++ g ++ Api (By 2 (Send 0 12530 set_505)) :: Wire 0 (OutRequest 5 5 12530 set_505) :: Wire 0 (OutWrite (frame (5, 12530, set_505))) :: late_rest /\
  own 2 (apis late_rest) = [AwaitReply 0 2000] /\ awaits 2 N = Some (AwaitReply 0 2000) /\ ~ In (NTimeout 2) late_run /\ ~ In (NCancel 2) late_run /\
  Z.of_nat (List.length (sent 0 late_rest)) < 32767 /\ first_with 5 (taken 0 late_rest) = Some (5, 12531, [7]).
Proof.
  pose proof late_facts as F. pose proof late_login as L. destruct (on_wire 2 (Some 777) None 0 Hostile.its_host wire_login) as [N1|]; [|].
  - destruct (on_wire 2 (Some 777) None 0 Hostile.its_host (wire_login ++ late_run)) as [N|]; [|discriminate F]. unfold option_map in F, L.
    exists N1, N, (firstn 6 (skipn 34 (n_log N))). split; [reflexivity|]. split; [reflexivity|]. split; [apply octets_ok; vm_compute; reflexivity|].
    split.
    { assert (L' : n_log N1 = firstn 34 (n_log N)) by congruence. assert (F' : skipn 40 (n_log N) = Api (By 2 (Send 0 12530 set_505)) :: Wire 0 (OutRequest 5 5 12530 set_505) :: Wire 0 (OutWrite (frame (5, 12530, set_505))) :: late_rest) by congruence.
      rewrite L', <- F'. rewrite <- (firstn_skipn 34 (n_log N)) at 1. f_equal. rewrite <- (firstn_skipn 6 (skipn 34 (n_log N))) at 1. f_equal.
      generalize (n_log N). intros l. do 34 (destruct l as [|? l]; [reflexivity|]). reflexivity. }
    split; [reflexivity|]. split; [congruence|].
    split; [intros J; cbn in J; repeat (destruct J as [J|J]; [discriminate J|]); exact J|]. split; [intros J; cbn in J; repeat (destruct J as [J|J]; [discriminate J|]); exact J|].
    split; [vm_compute; reflexivity|vm_compute; reflexivity].
  - exfalso. destruct (on_wire 2 (Some 777) None 0 Hostile.its_host (wire_login ++ late_run)) as [N|]; [discriminate L|discriminate F].
Qed.
