(** C112..: from the bytes on the wire to the calls. *)
From Verif Require Import Py F64 Struct Utf Utility Const Spec Enum Decode Messages Calls World Request Gateway Traces Paths Api Tasks Pool SpecPool Net SpecNet P_Base P_Util.
From Verif Require Import P_Net1 P_Net2 P_Net3 P_Net4 P_Net5 P_Net6 P_Net7 P_Net8.
From Verif Require P_Tune.
From Verif Require Protocol P_Proto1 P_Proto2 P_Proto3 P_Pool P_Pool2 Prop_Protocol Hostile Prop_Decode.
From Verif Require Import Prop_Pool.
Import Protocol(OutRequest, OutWrite, OutCompleted).

Lemma on_wire_whole n id mr rnd h es N : on_wire n id mr rnd h es = Some N -> octets es ->
  exists w0, new_gateway id mr rnd [] h = Ok w0 /\ whole n w0 N.
Proof.
  unfold on_wire. destruct (new_gateway id mr rnd [] h) as [w0|] eqn:W; [|discriminate]. intros E O. injection E as <-. exists w0. split; [reflexivity|].
  eapply run_whole; [exact W|]. apply Forall_forall. intros e J. destruct e; try exact Logic.I. exact (O _ _ J).
Qed.

(** C112. *)
Theorem C112_calls n id mr rnd h es N : on_wire n id mr rnd h es = Some N -> octets es ->
  exists pes, ran n id mr rnd h pes = Some (n_pool N) /\ p_log (n_pool N) = apis (n_log N).
Proof.
  intros R O. destruct (on_wire_whole _ _ _ _ _ _ _ R O) as (w0 & W & G & _). destruct (ran_of n id mr rnd h w0 W _ _ G) as (pes & E). exists pes. split; [exact E|].
  rewrite <- (G_log _ _ _ _ G). apply app_nil_r.
Qed.
Print Assumptions C112_calls.
Theorem C112_exchange n id mr rnd h es N g1 i r g2 code b : on_wire n id mr rnd h es = Some N -> octets es ->
  n_log N = g1 ++ Api (By i (Got r)) :: g2 -> answer_of r = Some (code, b) ->
  exists c k, exchange g1 i code b c k.
Proof. intros R O E A. destruct (on_wire_whole _ _ _ _ _ _ _ R O) as (w0 & W & G & _). eapply (G_got _ _ _ _ G); eassumption. Qed.
Print Assumptions C112_exchange.
Theorem C112_bytes n id mr rnd h es N c : on_wire n id mr rnd h es = Some N -> octets es -> heard c (n_log N).
Proof.
  intros R O. destruct (on_wire_whole _ _ _ _ _ _ _ R O) as (w0 & W & G & _). pose proof (G_wired _ _ _ _ G) as (A & B).
  destruct (nth_error (n_links N) c) as [s|] eqn:E; [eapply lk_heard, A, E|].
  apply nth_error_None in E. destruct (B c E) as (M1 & M2 & _). unfold heard, taken. rewrite M1, M2. exists []. split; [reflexivity|]. split; [constructor|apply P_Proto3.incomplete_nil].
Qed.
Print Assumptions C112_bytes.
(** no message answers two waits *)
Lemma request_once n w0 N c f id1 X1 p1 id2 X2 p2 a1 b1 a2 b2 : whole n w0 N ->
  n_log N = a1 ++ Wire c (OutRequest f id1 X1 p1) :: b1 -> n_log N = a2 ++ Wire c (OutRequest f id2 X2 p2) :: b2 -> a1 = a2.
Proof.
  intros (G & _) E1 E2. pose proof (G_wired _ _ _ _ G) as (A & B).
  assert (Pos : forall a b id X p, n_log N = a ++ Wire c (OutRequest f id X p) :: b -> List.length (P_Proto2.requests_of (wires c a)) = f).
  { intros a b id X p E. destruct (nth_error (n_links N) c) as [s|] eqn:El.
    - destruct (L_linked _ _ _ (A _ _ El)) as (pes & H & Es & _ & Pl). assert (Rs : P_Proto3.reachable s) by (exists true, pes; auto).
      assert (K : nth_error (P_Proto2.requests_of (Protocol.p_log s)) (List.length (P_Proto2.requests_of (wires c a))) = Some (f, id)).
      { rewrite Pl, E, wires_app. unfold P_Proto2.requests_of. rewrite flat_map_app, nth_error_app2 by lia. rewrite Nat.sub_diag. cbn. rewrite Nat.eqb_refl. reflexivity. }
      apply (P_Proto3.ids_nth s _ _ _ Rs) in K. symmetry. apply K.
    - exfalso. apply nth_error_None in El. destruct (B c El) as (M1 & _). rewrite E, wires_app in M1. apply app_eq_nil in M1. destruct M1 as (_ & M1). cbn in M1. rewrite Nat.eqb_refl in M1. discriminate M1. }
  pose proof (Pos _ _ _ _ _ E1) as L1. pose proof (Pos _ _ _ _ _ E2) as L2. rewrite E1 in E2. clear - E2 L1 L2.
  assert (Lt : forall a x y b, a = x ++ Wire c (OutRequest f y X1 p1) :: b -> (List.length (P_Proto2.requests_of (wires c x)) < List.length (P_Proto2.requests_of (wires c a)))%nat).
  { intros a x y b ->. rewrite wires_app. unfold P_Proto2.requests_of. rewrite flat_map_app, app_length. cbn. rewrite Nat.eqb_refl. cbn. lia. }
  assert (Lt2 : forall a x y b, a = x ++ Wire c (OutRequest f y X2 p2) :: b -> (List.length (P_Proto2.requests_of (wires c x)) < List.length (P_Proto2.requests_of (wires c a)))%nat).
  { intros a x y b ->. rewrite wires_app. unfold P_Proto2.requests_of. rewrite flat_map_app, app_length. cbn. rewrite Nat.eqb_refl. cbn. lia. }
  revert a2 E2 L1 L2 Lt Lt2. intros a2 E2 L1 L2 Lt Lt2.
  assert (D : a1 = a2 \/ (exists z, a1 = a2 ++ Wire c (OutRequest f id2 X2 p2) :: z) \/ (exists z, a2 = a1 ++ Wire c (OutRequest f id1 X1 p1) :: z)).
  { clear L1 L2 Lt Lt2. revert a2 E2. induction a1 as [|x a1 IH]; intros [|y a2] E; cbn [app] in E.
    - auto.
    - right. right. exists a2. cbn [app]. f_equal. congruence.
    - right. left. exists a1. cbn [app]. f_equal. congruence.
    - assert (x = y) by congruence. assert (E' : a1 ++ Wire c (OutRequest f id1 X1 p1) :: b1 = a2 ++ Wire c (OutRequest f id2 X2 p2) :: b2) by congruence. subst y.
      destruct (IH _ E') as [->|[(z & ->)|(z & ->)]]; [left; reflexivity|right; left; exists z; reflexivity|right; right; exists z; reflexivity]. }
  destruct D as [D|[(z & D)|(z & D)]]; [exact D| |].
  - apply Lt2 in D. lia.
  - apply Lt in D. lia.
Qed.
Lemma taken_prefix c a b k x : nth_error (taken c a) k = Some x -> nth_error (taken c (a ++ b)) k = Some x.
Proof. intros E. rewrite taken_app, nth_error_app1; [exact E|]. apply nth_error_Some. congruence. Qed.
Theorem C112_once n id mr rnd h es N g1 i r g2 code b g1' i' r' g2' code' b' c k : on_wire n id mr rnd h es = Some N -> octets es ->
  n_log N = g1 ++ Api (By i (Got r)) :: g2 -> n_log N = g1' ++ Api (By i' (Got r')) :: g2' ->
  exchange g1 i code b c k -> exchange g1' i' code' b' c k -> g1 = g1'.
Proof.
  intros R O E1 E2 X1 X2. destruct (on_wire_whole _ _ _ _ _ _ _ R O) as (w0 & W & Wh).
  destruct X1 as (ga & X & p & d & f & gb & H1 & O1 & _ & _ & _ & _ & T1). destruct X2 as (ga' & X' & p' & d' & f' & gb' & H2 & O2 & _ & _ & _ & _ & T2).
  assert (Ef : f = f').
  { apply (taken_prefix c _ (Api (By i (Got r)) :: g2)) in T1. apply (taken_prefix c _ (Api (By i' (Got r')) :: g2')) in T2. rewrite <- E1 in T1. rewrite <- E2 in T2. rewrite T1 in T2. congruence. }
  subst f'.
  assert (Q1 : n_log N = (ga ++ [Api (By i (Send c X p))]) ++ Wire c (OutRequest f d X p) :: Wire c (OutWrite (frame (d, X, p))) :: gb ++ Api (By i (Got r)) :: g2)
    by (rewrite E1, H1, <- !app_assoc; reflexivity).
  assert (Q2 : n_log N = (ga' ++ [Api (By i' (Send c X' p'))]) ++ Wire c (OutRequest f d' X' p') :: Wire c (OutWrite (frame (d', X', p'))) :: gb' ++ Api (By i' (Got r')) :: g2')
    by (rewrite E2, H2, <- !app_assoc; reflexivity).
  pose proof (request_once _ _ _ _ _ _ _ _ _ _ _ _ _ _ _ Wh Q1 Q2) as K. apply app_inj_tail in K. destruct K as (-> & K). assert (i' = i) by congruence. subst i'.
  rewrite Q1 in Q2. assert (EX : X' = X) by congruence. assert (Ep : p' = p) by congruence. subst X' p'. apply app_inv_head in Q2. assert (d' = d) by congruence. subst d'.
  assert (Q : gb ++ Api (By i (Got r)) :: g2 = gb' ++ Api (By i (Got r')) :: g2') by congruence. rewrite H1, H2. assert (Eg : gb = gb'); [|rewrite Eg; reflexivity]. clear - Q O1 O2.
  assert (No : forall x q z, own i (apis (x ++ Api (By i (Got q)) :: z)) <> [AwaitReply c 2000]).
  { intros x q z E. assert (J : In (Got q) [AwaitReply c 2000]).
    { rewrite <- E, apis_app, own_app. apply in_or_app. right. cbn. rewrite Nat.eqb_refl. left. reflexivity. }
    destruct J as [J|[]]. discriminate J. }
  destruct (P_Pool.split_app _ (Api (By i (Got r)) :: g2) _ _ _ Q) as [(g3 & K)|(g3 & K & Q')].
  - subst gb. destruct (No _ _ _ O1).
  - destruct g3 as [|y g3]; [rewrite app_nil_r in K; auto|]. injection Q' as <- _. subst gb'. destruct (No _ _ _ O2).
Qed.
Print Assumptions C112_once.

(** C113. *)
Theorem C113_at_once n id mr rnd h es N g1 i c X p g2 : on_wire n id mr rnd h es = Some N -> octets es ->
  n_log N = g1 ++ Api (By i (Send c X p)) :: g2 ->
  exists f g3, g2 = Wire c (OutRequest f (Z.of_nat (List.length (sent c g1)) mod 32767) X p)
                 :: Wire c (OutWrite (frame (Z.of_nat (List.length (sent c g1)) mod 32767, X, p))) :: g3.
Proof. intros R O E. destruct (on_wire_whole _ _ _ _ _ _ _ R O) as (w0 & W & G & _). destruct (G_sends _ _ _ _ G _ _ _ _ _ _ E) as (g3 & K). exists (List.length (sent c g1)), g3. exact K. Qed.
Print Assumptions C113_at_once.
Theorem C113_numbered n id mr rnd h es N c : on_wire n id mr rnd h es = Some N -> octets es ->
  written c (n_log N) = numbered 0 (sent c (n_log N)).
Proof.
  intros R O. destruct (on_wire_whole _ _ _ _ _ _ _ R O) as (w0 & W & G & _). pose proof (G_wired _ _ _ _ G) as (A & B).
  destruct (nth_error (n_links N) c) as [s|] eqn:E; [apply (L_written _ _ _ (A _ _ E))|].
  apply nth_error_None in E. destruct (B c E) as (M1 & _ & M3 & _). rewrite M3. apply written_none, M1.
Qed.
Print Assumptions C113_numbered.

(** C114. *)
Lemma find_own i : forall (g : list line) t1 e t2, own i (apis g) = t1 ++ e :: t2 -> exists g1 g2, g = g1 ++ Api (By i e) :: g2 /\ own i (apis g1) = t1 /\ own i (apis g2) = t2.
Proof.
  induction g as [|x g IH]; intros t1 e t2 E; [destruct t1; discriminate E|].
  assert (Skip : own i (apis [x]) = [] -> exists g1 g2, x :: g = g1 ++ Api (By i e) :: g2 /\ own i (apis g1) = t1 /\ own i (apis g2) = t2).
  { intros S. change (x :: g) with ([x] ++ g) in E. rewrite apis_app, own_app, S in E. destruct (IH _ _ _ E) as (g1 & g2 & -> & O1 & O2).
    exists (x :: g1), g2. split; [reflexivity|]. change (x :: g1) with ([x] ++ g1). rewrite apis_app, own_app, S. auto. }
  destruct x as [[ |j y| | |]|c o|c b|c v code b]; try (apply Skip; reflexivity). destruct (Nat.eqb_spec j i) as [->|NE].
  2:{ apply Skip. cbn. apply Nat.eqb_neq in NE. rewrite NE. reflexivity. }
  assert (K : own i (apis (Api (By i y) :: g)) = y :: own i (apis g)) by (cbn; rewrite Nat.eqb_refl; reflexivity). rewrite K in E.
  destruct t1 as [|z t1]; cbn [app] in E.
  - assert (y = e) by congruence. subst y. exists [], g. split; [reflexivity|]. split; [reflexivity|congruence].
  - assert (y = z) by congruence. subst y. assert (E' : own i (apis g) = t1 ++ e :: t2) by congruence. destruct (IH _ _ _ E') as (g1 & g2 & -> & O1 & O2).
    exists (Api (By i z) :: g1), g2. split; [reflexivity|]. split; [cbn; rewrite Nat.eqb_refl; cbn; f_equal; exact O1|exact O2].
Qed.
Theorem C114_settings n id mr rnd h es N i call d : on_wire n id mr rnd h es = Some N -> octets es ->
  nth_error (p_tasks (n_pool N)) i = Some (Done (Val tt)) -> begun i (apis (n_log N)) = [(call, d)] -> is_command call ->
  exists ga c X p m gb k, own_message (h_tz h) call d X p /\
    n_log N = ga ++ Wire c (OutWrite (frame (m, X, p))) :: gb /\
    heard c ga /\ heard c (n_log N) /\
    (List.length (taken c ga) <= k)%nat /\ nth_error (map snd (taken c (n_log N))) k = Some (m, X + 1, []).
Proof.
  intros R O D B IC. destruct (C112_calls _ _ _ _ _ _ _ R O) as (pes & RP & LP). rewrite <- LP in B.
  destruct (C105_acknowledged _ _ _ _ _ _ _ _ _ _ RP D B IC) as (t1 & c & X & p & ms & r & t2 & Ow & Om & A & _). rewrite LP in Ow.
  replace (t1 ++ Send c X p :: AwaitReply c ms :: Got r :: t2) with ((t1 ++ [Send c X p; AwaitReply c ms]) ++ Got r :: t2) in Ow by (rewrite <- app_assoc; reflexivity).
  destruct (find_own _ _ _ _ _ Ow) as (g1 & g2 & L & O1 & _). destruct (C112_exchange _ _ _ _ _ _ _ _ _ _ _ _ _ R O L A) as (c' & k & ga & X' & p' & m & f & gb & E & Og & _ & Ha & Hg & Lk & T).
  assert (Same : c' = c /\ X' = X /\ p' = p).
  { rewrite E, apis_app, own_app in O1. assert (K : own i (apis (Api (By i (Send c' X' p')) :: Wire c' (OutRequest f m X' p') :: Wire c' (OutWrite (frame (m, X', p'))) :: gb)) = [Send c' X' p'; AwaitReply c' 2000]).
    { cbn. rewrite Nat.eqb_refl. cbn. f_equal. exact Og. }
    rewrite K in O1. apply (f_equal (@rev ev)) in O1. rewrite !rev_app_distr in O1. cbn [rev app] in O1. split; [|split]; congruence. }
  destruct Same as (-> & -> & ->).
  exists (ga ++ [Api (By i (Send c X p)); Wire c (OutRequest f m X p)]), c, X, p, m, (gb ++ Api (By i (Got r)) :: g2), k.
  assert (M : taken c [Api (By i (Send c X p)); Wire c (OutRequest f m X p)] = []) by (unfold taken; cbn; rewrite Nat.eqb_refl; reflexivity).
  split; [exact Om|]. split; [rewrite L, E, <- !app_assoc; reflexivity|]. split.
  - destruct Ha as (rest & H1 & H2 & H3). exists rest. rewrite taken_app, M, app_nil_r, came_app. change (came c [Api (By i (Send c X p)); Wire c (OutRequest f m X p)]) with (@nil Z). rewrite app_nil_r. auto.
  - split; [apply (C112_bytes _ _ _ _ _ _ _ c R O)|]. split; [rewrite taken_app, M, app_nil_r; exact Lk|]. rewrite nth_error_map.
    assert (T' : nth_error (taken c (n_log N)) k = Some (Some f, (m, X + 1, []))) by (rewrite L; apply taken_prefix, T). rewrite T'. reflexivity.
Qed.
Print Assumptions C114_settings.

(** ** a run down to the bytes *)
Definition arrive (k code : Z) (b : bytes) : nevent := NData 0 (frame (k, code, b)).
Definition wire_login : list nevent :=
  [NCall (Connect Hostile.to_adapter); NEnd 0 KDone clk; NEnd 0 KDone clk; arrive 0 15 Hostile.mac_reply; NResume 0 clk; arrive 1 28 []; NResume 0 clk;
   arrive 2 8121 Hostile.version_reply; NResume 0 clk; arrive 3 12533 (Messages.wire_config Prop_Decode.some_config); NResume 0 clk].
(** two calls overlap; their answers come in the other order, in odd pieces, with a message for
    nobody between them; a third call times out once and is asked again *)
Definition wire_run : list nevent :=
  wire_login ++
  [NCall (SetCircuit (VInt 505) (VInt 1)); NCall GetStatus; NCall (SetColorLights (VInt 3));
   NData 0 (firstn 5 (frame (5, 12527, Messages.wire_status Prop_Decode.some_status)));
   NData 0 (skipn 5 (frame (5, 12527, Messages.wire_status Prop_Decode.some_status)) ++ frame (99, 12500, []) ++ firstn 3 (frame (4, 12531, [])));
   NResume 1 clk; NResume 2 clk; NData 0 (skipn 3 (frame (4, 12531, []))); NResume 1 clk;
   NTimeout 3; NResume 3 clk; NEnd 3 KDone clk; arrive 6 12557 []; NResume 3 clk; arrive 7 12557 []; NResume 3 clk].
Definition facts (N : net) := (outcomes (n_pool N), map fst (sent 0 (n_log N)), map fst (taken 0 (n_log N)), List.length (came 0 (n_log N))).
Lemma wire_run_facts : option_map facts (on_wire 2 (Some 777) None 0 Hostile.its_host wire_run) =
  Some (repeat (Some (Val tt)) 4, [14; 27; 8120; 12532; 12530; 12526; 12556; 12556],
        [Some O; Some 1; Some 2; Some 3; Some 5; None; Some 4; None; Some 7]%nat, 376%nat).
Proof. vm_compute. reflexivity. Qed.
Definition octets_b (es : list nevent) : bool := forallb (fun e => match e with NData _ b => forallb (fun x => (0 <=? x) && (x <? 256)) b | _ => true end) es.
Lemma octets_ok es : octets_b es = true -> octets es.
Proof.
  intros E c b J. unfold octets_b in E. rewrite forallb_forall in E. specialize (E _ J). cbn in E. rewrite forallb_forall in E.
  apply Forall_forall. intros x K. specialize (E x K). unfold is_byte. clear - E. lia.
Qed.
Definition got_of (i : nat) (N : net) : list (Z * bytes) :=
  flat_map (fun e => match e with Got r => match answer_of r with Some x => [x] | None => [] end | _ => [] end) (own i (apis (n_log N))).
Lemma got_at i N x : In x (got_of i N) -> exists g1 r g2, n_log N = g1 ++ Api (By i (Got r)) :: g2 /\ answer_of r = Some x.
Proof.
  intros J. apply in_flat_map in J. destruct J as (e & J & K). destruct e; try contradiction. destruct (answer_of r) eqn:A; [|contradiction]. destruct K as [<-|[]].
  apply in_split in J. destruct J as (t1 & t2 & J). destruct (find_own _ _ _ _ _ J) as (g1 & g2 & E & _). eauto.
Qed.
Definition run_facts (N : net) := (got_of 1 N, got_of 3 N, map fst (begun 1 (apis (n_log N)))).
Lemma wire_run_gots : option_map run_facts (on_wire 2 (Some 777) None 0 Hostile.its_host wire_run) = Some ([(12531, [])], [(12557, [])], [SetCircuit (VInt 505) (VInt 1)]).
Proof. vm_compute. reflexivity. Qed.
Example C112_nonvacuous : exists N g1 r g2, on_wire 2 (Some 777) None 0 Hostile.its_host wire_run = Some N /\ octets wire_run /\
  n_log N = g1 ++ Api (By 1 (Got r)) :: g2 /\ answer_of r = Some (12531, []).
Proof.
  pose proof wire_run_gots as F. destruct (on_wire 2 (Some 777) None 0 Hostile.its_host wire_run) as [N|]; [|discriminate F]. unfold option_map, run_facts in F.
  assert (F1 : got_of 1 N = [(12531, [])]) by congruence. destruct (got_at 1 N (12531, [])) as (g1 & r & g2 & E & A); [rewrite F1; left; reflexivity|].
  exists N, g1, r, g2. split; [reflexivity|]. split; [apply octets_ok; vm_compute; reflexivity|]. auto.
Qed.
Example C113_nonvacuous : exists N, on_wire 2 (Some 777) None 0 Hostile.its_host wire_run = Some N /\ octets wire_run /\
  map fst (sent 0 (n_log N)) = [14; 27; 8120; 12532; 12530; 12526; 12556; 12556].
Proof.
  pose proof wire_run_facts as F. destruct (on_wire 2 (Some 777) None 0 Hostile.its_host wire_run) as [N|]; [|discriminate F]. unfold option_map, facts in F.
  exists N. split; [reflexivity|]. split; [apply octets_ok; vm_compute; reflexivity|congruence].
Qed.
Example C114_nonvacuous : exists N d, on_wire 2 (Some 777) None 0 Hostile.its_host wire_run = Some N /\ octets wire_run /\
  nth_error (p_tasks (n_pool N)) 1 = Some (Done (Val tt)) /\ begun 1 (apis (n_log N)) = [(SetCircuit (VInt 505) (VInt 1), d)] /\ is_command (SetCircuit (VInt 505) (VInt 1)).
Proof.
  pose proof wire_run_gots as F. pose proof wire_run_facts as F'. destruct (on_wire 2 (Some 777) None 0 Hostile.its_host wire_run) as [N|]; [|discriminate F]. unfold option_map, run_facts in F. unfold option_map, facts in F'.
  assert (F1 : map fst (begun 1 (apis (n_log N))) = [SetCircuit (VInt 505) (VInt 1)]) by congruence. assert (F2 : outcomes (n_pool N) = repeat (Some (Val tt)) 4) by congruence.
  destruct (begun 1 (apis (n_log N))) as [|[x d] [|y l]] eqn:Eb; try discriminate F1. assert (x = SetCircuit (VInt 505) (VInt 1)) by (cbn in F1; congruence). subst x.
  exists N, d. split; [reflexivity|]. split; [apply octets_ok; vm_compute; reflexivity|]. split; [|split; [exact Eb|exact Logic.I]].
  unfold outcomes in F2. apply (f_equal (fun l => nth_error l 1)) in F2. rewrite nth_error_map in F2. destruct (nth_error (p_tasks (n_pool N)) 1) as [t|]; [|discriminate F2].
  cbn in F2. destruct t; try discriminate F2. injection F2 as ->. reflexivity.
Qed.

(** C115. *)
Theorem C115_released n id mr rnd h es1 c es2 N1 N i ms clk :
  on_wire n id mr rnd h es1 = Some N1 -> conn_lost c (n_log N1) ->
  on_wire n id mr rnd h (es1 ++ NLostTask c :: es2) = Some N -> octets (es1 ++ NLostTask c :: es2) ->
  awaits i N = Some (AwaitReply c ms) -> Z.of_nat (List.length (sent c (n_log N))) <= 32767 ->
  exists r t, own i (apis (n_log (nstep n N (NResume i clk)))) = own i (apis (n_log N)) ++ Got r :: t.
Proof.
  intros R1 L R O A Ln. assert (O1 : octets es1) by (intros c' b J; apply (O c' b), in_or_app; auto).
  destruct (on_wire_whole _ _ _ _ _ _ _ R1 O1) as (w0 & W & Wh1). destruct (on_wire_whole _ _ _ _ _ _ _ R O) as (w0' & W' & Wh). assert (w0' = w0) by congruence. subst w0'.
  eapply resumes; try eassumption. unfold on_wire in R, R1. rewrite W in R, R1. injection R as <-. injection R1 as <-. unfold nrun. rewrite fold_left_app. cbn [fold_left].
  apply cleared_run. destruct L as [L|(j & L)]; eapply cleared_now; try eassumption; [left|right; eexists]; reflexivity.
Qed.
Print Assumptions C115_released.
Definition cut_early : list nevent := wire_login ++ [NCall GetStatus; NCall (SetCircuit (VInt 505) (VInt 1)); NLose 0].
Definition cut_short : list nevent := cut_early ++ [NLostTask 0; NCall GetStatus].
Definition cut_facts (N : net) := (existsb (fun x => match x with Env (Lost 0) => true | _ => false end) (apis (n_log N)), awaits 1 N, awaits 2 N, List.length (sent 0 (n_log N)), outcomes (n_pool N)).
Lemma cut_early_facts : option_map cut_facts (on_wire 2 (Some 777) None 0 Hostile.its_host cut_early) = Some (true, Some (AwaitReply 0 2000), Some (AwaitReply 0 2000), 6%nat, [Some (Val tt); None; None]).
Proof. vm_compute. reflexivity. Qed.
Lemma cut_short_facts : option_map cut_facts (on_wire 2 (Some 777) None 0 Hostile.its_host cut_short) = Some (true, Some (AwaitReply 0 2000), Some (AwaitReply 0 2000), 6%nat, [Some (Val tt); None; None; None]).
Proof. vm_compute. reflexivity. Qed.
Example C115_nonvacuous : exists N1 N, on_wire 2 (Some 777) None 0 Hostile.its_host cut_early = Some N1 /\ conn_lost 0 (n_log N1) /\
  on_wire 2 (Some 777) None 0 Hostile.its_host (cut_early ++ NLostTask 0 :: [NCall GetStatus]) = Some N /\ octets (cut_early ++ NLostTask 0 :: [NCall GetStatus]) /\
  awaits 1 N = Some (AwaitReply 0 2000) /\ awaits 2 N = Some (AwaitReply 0 2000) /\ Z.of_nat (List.length (sent 0 (n_log N))) <= 32767.
Proof.
  pose proof cut_early_facts as F1. pose proof cut_short_facts as F2. unfold cut_short in F2.
  destruct (on_wire 2 (Some 777) None 0 Hostile.its_host cut_early) as [N1|]; [|discriminate F1].
  destruct (on_wire 2 (Some 777) None 0 Hostile.its_host (cut_early ++ NLostTask 0 :: [NCall GetStatus])) as [N|]; [|discriminate F2]. unfold option_map, cut_facts in F1, F2.
  exists N1, N. split; [reflexivity|]. split.
  - left. assert (E : existsb (fun x => match x with Env (Lost 0) => true | _ => false end) (apis (n_log N1)) = true) by congruence. apply existsb_exists in E.
    destruct E as (x & J & E). destruct x as [| |[]| |]; try discriminate E. destruct c; [exact J|discriminate E].
  - split; [reflexivity|]. split; [apply octets_ok; vm_compute; reflexivity|]. split; [congruence|]. split; [congruence|].
    assert (E : List.length (sent 0 (n_log N)) = 6%nat) by congruence. rewrite E. lia.
Qed.

(** C116. *)
Theorem C116_came n id mr rnd h es N c g1 g2 : on_wire n id mr rnd h es = Some N -> n_log N = g1 ++ g2 ->
  some_of (pushed c g1) (unasked c g1).
Proof.
  unfold on_wire. destruct (new_gateway id mr rnd [] h) as [w0|]; [|discriminate]. intros R E. injection R as <-. exact (proj2 (sane_run n w0 es) c g1 g2 E).
Qed.
Print Assumptions C116_came.
Theorem C116_all n id mr rnd h es N c b : on_wire n id mr rnd h es = Some N ->
  exists new, unasked c (n_log (nstep n N (NData c b))) = unasked c (n_log N) ++ new /\
    pushed c (n_log (nstep n N (NData c b))) = pushed c (n_log N) ++ filter (subscribed c (p_world (n_pool N))) new.
Proof.
  unfold on_wire. destruct (new_gateway id mr rnd [] h) as [w0|]; [|discriminate]. intros R. injection R as <-. destruct (sane_run n w0 es) as (B & _). set (N := nrun n (nstart w0) es) in *.
  assert (Z : nstep n N (NData c b) = N -> exists new, unasked c (n_log (nstep n N (NData c b))) = unasked c (n_log N) ++ new /\
    pushed c (n_log (nstep n N (NData c b))) = pushed c (n_log N) ++ filter (subscribed c (p_world (n_pool N))) new) by (intros ->; exists []; cbn [filter]; rewrite !app_nil_r; auto).
  destruct (nth_error (n_links N) c) as [s|] eqn:E; [|apply Z; cbn [nstep]; rewrite E; reflexivity].
  destruct (takes_bytes s) eqn:T; [|apply Z; cbn [nstep]; rewrite E, T; reflexivity].
  destruct (data_log n N c b s B E T) as (os & t & -> & NH & -> & _). exists (drops os). rewrite !unasked_app, !pushed_app, dealts_unasked, dealts_pushed, unasked_wire, pushed_wire by exact NH. cbn. rewrite !app_nil_r. auto.
Qed.
Print Assumptions C116_all.
(** a frame reaches get_data() by way of a subscription only *)
Theorem C116_subscribed n id mr rnd h es N g1 c code b g2 : on_wire n id mr rnd h es = Some N -> octets es ->
  n_log N = g1 ++ Api (Pushed c code b) :: g2 -> exists i cb d, In (Api (Started i (Subscribe cb code) d)) g1.
Proof.
  intros R O E. destruct (C112_calls _ _ _ _ _ _ _ R O) as (pes & RP & L). unfold ran in RP. destruct (new_gateway id mr rnd [] h) as [w|] eqn:W; [|discriminate RP]. injection RP as RP.
  rewrite E in L. unfold apis in L. rewrite flat_map_app in L. cbn [flat_map app] in L. rewrite <- RP in L.
  assert (H : P_Tune.heeds (fun _ => False) w).
  { unfold new_gateway in W. destruct (_ && _); [|discriminate W]. injection W as <-. unfold P_Tune.heeds. cbn. repeat split; intros; contradiction. }
  destruct (P_Tune.heeds_run n w pes H _ _ _ _ _ L) as (i & cb & d & J). exists i, cb, d. apply in_flat_map in J. destruct J as (y & J & K). destruct y as [y| | |]; try contradiction. destruct K as [->|[]]. exact J.
Qed.
Print Assumptions C116_subscribed.
(** get_data(), read off the bytes: every answer is that of an exchange (C112), every push a
    frame that came *)
Theorem C116_data n id mr rnd h es N : on_wire n id mr rnd h es = Some N -> octets es ->
  shows (h_float h) [] (apis (n_log N)) (w_data (p_world (n_pool N))).
Proof. intros R O. destruct (C112_calls _ _ _ _ _ _ _ R O) as (pes & RP & <-). eapply Prop_Pool.C103_data, RP. Qed.
Print Assumptions C116_data.
(** a subscription; then the status is pushed, and a code nobody subscribed to, in one go *)
Definition push_run : list nevent := wire_login ++ [NCall (Subscribe 9 12500); arrive 4 12523 []; NResume 1 clk].
Definition push_bytes : bytes := frame (0, 12505, [1]) ++ frame (0, 12500, Messages.wire_status Prop_Decode.some_status).
Definition push_facts (N : net) := (outcomes (n_pool N), map fst (unasked 0 (n_log N)), map fst (pushed 0 (n_log N)), get_value true [KS "circuit"; KI 505] (w_data (p_world (n_pool N)))).
Lemma push_run_facts : option_map push_facts (on_wire 2 (Some 777) None 0 Hostile.its_host (push_run ++ [NData 0 push_bytes; NHandle])) = Some ([Some (Val tt); Some (Val tt)], [12505; 12500], [12500], Ok (VInt 0)).
Proof. vm_compute. reflexivity. Qed.
Example C116_nonvacuous : exists N, on_wire 2 (Some 777) None 0 Hostile.its_host (push_run ++ [NData 0 push_bytes; NHandle]) = Some N /\ octets (push_run ++ [NData 0 push_bytes; NHandle]) /\
  map fst (unasked 0 (n_log N)) = [12505; 12500] /\ map fst (pushed 0 (n_log N)) = [12500] /\ get_value true [KS "circuit"; KI 505] (w_data (p_world (n_pool N))) = Ok (VInt 0).
Proof.
  pose proof push_run_facts as F. destruct (on_wire 2 (Some 777) None 0 Hostile.its_host (push_run ++ [NData 0 push_bytes; NHandle])) as [N|]; [|discriminate F]. unfold option_map, push_facts in F.
  exists N. split; [reflexivity|]. split; [apply octets_ok; vm_compute; reflexivity|]. repeat split; congruence.
Qed.

(** C117. *)
Definition answered_at_once (g : list line) : Prop := forall g1 i c X p g2, g = g1 ++ Api (By i (Send c X p)) :: g2 ->
  exists f b g3, g2 = Wire c (OutRequest f b X p) :: Wire c (OutWrite (frame (b, X, p))) :: g3.
Lemma writes_enough c : forall g, answered_at_once g -> (List.length (sent c g) <= List.length (written c g))%nat.
Proof.
  intros g. remember (List.length g) as k eqn:K. revert g K. induction k as [k IH] using lt_wf_ind. intros [|x g] -> A; [cbn; lia|].
  assert (Ag : forall g', (exists h, x :: g = h ++ g') -> answered_at_once g') by (intros g' (h & E) g1 i c' X p g2 E'; apply (A (h ++ g1) i c' X p g2); rewrite E, E', app_assoc; reflexivity).
  assert (Skip : sent c [x] = [] -> (List.length (sent c (x :: g)) <= List.length (written c (x :: g)))%nat).
  { intros S. change (x :: g) with ([x] ++ g). rewrite sent_app, S, written_app, !app_length. cbn [List.length]. pose proof (IH (List.length g) (Nat.lt_succ_diag_r _) g eq_refl (Ag g (ex_intro _ [x] eq_refl))). lia. }
  destruct x as [[ |i y| | |]|c' o|c' b|c' v code b]; try (apply Skip; reflexivity). destruct y; try (apply Skip; reflexivity).
  destruct (Nat.eqb_spec c0 c) as [->|NE]; [|apply Skip; cbn; apply Nat.eqb_neq in NE; rewrite NE; reflexivity].
  destruct (A [] i c code payload g eq_refl) as (f & b & g3 & ->).
  set (hd := [Api (By i (Send c code payload)); Wire c (OutRequest f b code payload); Wire c (OutWrite (frame (b, code, payload)))]) in *.
  assert (E : Api (By i (Send c code payload)) :: Wire c (OutRequest f b code payload) :: Wire c (OutWrite (frame (b, code, payload))) :: g3 = hd ++ g3) by reflexivity. rewrite E in *.
  rewrite sent_app, written_app, !app_length. assert (H1 : List.length (sent c hd) = 1%nat) by (unfold hd; cbn; rewrite Nat.eqb_refl; reflexivity).
  assert (H2 : List.length (written c hd) = 1%nat) by (unfold hd, written, wires; cbn [flat_map app]; rewrite Nat.eqb_refl; reflexivity).
  assert (H3 : (List.length (sent c g3) <= List.length (written c g3))%nat) by (apply (IH (List.length g3)); [cbn; lia|reflexivity|apply Ag; eauto]). lia.
Qed.
Lemma bytes_out_app c a b : bytes_out c (a ++ b) = bytes_out c a ++ bytes_out c b. Proof. apply flat_map_app. Qed.
Lemma out_frames c g : (forall j b, ~ In (Api (By j (Raw c b))) g) -> bytes_out c g = List.concat (written c g).
Proof.
  induction g as [|x g IH]; intros N; [reflexivity|]. change (x :: g) with ([x] ++ g). rewrite bytes_out_app, written_app, concat_app, IH by (intros j b J; apply (N j b); right; exact J). f_equal.
  destruct x as [[ |i y| | |]|c' o|c' b|c' v code b]; try reflexivity.
  - destruct y; try reflexivity. cbn. destruct (Nat.eqb_spec c0 c) as [->|NE]; [|reflexivity]. exfalso. eapply N. left. reflexivity.
  - unfold written, wires. cbn [flat_map]. destruct o; cbn [bytes_out flat_map app]; destruct (Nat.eqb c' c); cbn; rewrite ?app_nil_r; reflexivity.
Qed.
Lemma api_at x g : In x (apis g) -> exists g1 g2, g = g1 ++ Api x :: g2.
Proof.
  intros J. unfold apis in J. apply in_flat_map in J. destruct J as (y & J & K). destruct y as [y| | |]; try contradiction. destruct K as [->|[]]. apply in_split in J. exact J.
Qed.
Lemma api_in x g : In (Api x) g -> In x (apis g).
Proof. intros J. apply in_flat_map. exists (Api x). split; [exact J|left; reflexivity]. Qed.
Lemma sent_none c g : (forall j X p, ~ In (By j (Send c X p)) (apis g)) -> sent c g = [].
Proof.
  intros N. unfold sent. revert N. generalize (apis g) as l. induction l as [|x l IH]; intros N; [reflexivity|]. cbn [flat_map]. rewrite IH by (intros j X p J; apply (N j X p); right; exact J).
  destruct x as [|i []| | |]; try reflexivity. destruct (Nat.eqb_spec c0 c) as [->|NE]; [|reflexivity]. exfalso. eapply N. left. reflexivity.
Qed.
Theorem C117_stream n id mr rnd h es N c : on_wire n id mr rnd h es = Some N -> octets es ->
  (bytes_out c (n_log N) = [] /\ sent c (n_log N) = []) \/
  bytes_out c (n_log N) = GREETING ++ List.concat (numbered 0 (sent c (n_log N))).
Proof.
  intros R O. pose proof (C113_numbered _ _ _ _ _ _ _ c R O) as W. destruct (C112_calls _ _ _ _ _ _ _ R O) as (pes & RP & LP).
  assert (Dec : (exists j b, In (By j (Raw c b)) (apis (n_log N))) \/ (forall j b, ~ In (By j (Raw c b)) (apis (n_log N)))).
  { generalize (apis (n_log N)) as l. induction l as [|x l [(j & b & J)|K]]; [right; intros j b []|left; exists j, b; right; exact J|].
    destruct x as [ |i y| | |]; try (right; intros j' b' [J|J]; [discriminate J|exact (K _ _ J)]). destruct y; try (right; intros j' b' [J|J]; [discriminate J|exact (K _ _ J)]).
    destruct (Nat.eq_dec c0 c) as [->|NE]; [left; exists i, b; left; reflexivity|]. right. intros j b' [J|J]; [injection J; congruence|exact (K _ _ J)]. }
  destruct Dec as [(j & b & J)|K].
  - right. destruct (api_at _ _ J) as (ga & gb & E). rewrite <- W.
    assert (EP : p_log (n_pool N) = apis ga ++ By j (Raw c b) :: apis gb) by (rewrite LP, E, apis_app; reflexivity).
    destruct (Prop_Pool.C101_greeting _ _ _ _ _ _ _ _ _ _ _ _ RP EP) as (Eb & _). fold GREETING in Eb. destruct (Prop_Pool.C101_greeting_first _ _ _ _ _ _ _ _ _ _ _ _ RP EP) as (NR & NS).
    assert (NRb : forall j' b', ~ In (Api (By j' (Raw c b'))) gb).
    { intros j' b' J'. apply in_split in J'. destruct J' as (g1 & g2 & ->). assert (EP' : p_log (n_pool N) = (apis ga ++ By j (Raw c b) :: apis g1) ++ By j' (Raw c b') :: apis g2).
      { rewrite EP, apis_app, <- app_assoc. reflexivity. }
      destruct (Prop_Pool.C101_greeting_first _ _ _ _ _ _ _ _ _ _ _ _ RP EP') as (NR' & _). apply (NR' j b). apply in_or_app. right. left. reflexivity. }
    assert (NRa : forall j' b', ~ In (Api (By j' (Raw c b'))) ga) by (intros j' b' J'; apply (NR j' b'), api_in, J').
    assert (AO : answered_at_once gb).
    { intros g1 i c' X p g2 Eg. destruct (C113_at_once _ _ _ _ _ _ _ (ga ++ Api (By j (Raw c b)) :: g1) i c' X p g2 R O) as (f & g3 & ->); [rewrite E, Eg, <- app_assoc; reflexivity|]. eauto. }
    assert (Sa : sent c ga = []) by (apply sent_none; exact NS).
    assert (Wa : written c ga = []).
    { pose proof (writes_enough c gb AO) as Le. rewrite E in W. change (Api (By j (Raw c b)) :: gb) with ([Api (By j (Raw c b))] ++ gb) in W. apply (f_equal (@List.length bytes)) in W.
      rewrite !written_app, !sent_app, Sa, !app_length in W. change (sent c [Api (By j (Raw c b))]) with (@nil (Z * bytes)) in W. cbn [app] in W.
      assert (Ln : forall l k, List.length (numbered k l) = List.length l) by (induction l as [|[X p] l IH]; intros k; [reflexivity|cbn [numbered List.length]; rewrite IH; reflexivity]).
      rewrite Ln in W. destruct (written c ga); [reflexivity|]. cbn [List.length] in W. lia. }
    rewrite E. change (Api (By j (Raw c b)) :: gb) with ([Api (By j (Raw c b))] ++ gb). rewrite !bytes_out_app, !written_app, (out_frames c ga NRa), (out_frames c gb NRb), Wa, Eb.
    cbn [List.concat app]. f_equal. unfold bytes_out. cbn [flat_map]. rewrite Nat.eqb_refl. apply app_nil_r.
  - left. assert (NS : sent c (n_log N) = []).
    { apply sent_none. intros j X p J. apply in_split in J. destruct J as (g1 & g2 & E). rewrite <- LP in E, K. destruct (Prop_Pool.C101_greeted _ _ _ _ _ _ _ RP _ _ _ _ _ _ E) as (j' & J').
      apply (K j' GREETING). rewrite E. apply in_or_app. left. exact J'. }
    split; [|exact NS]. rewrite out_frames, W, NS; [reflexivity|]. intros j b J. apply (K j b), api_in, J.
Qed.
Print Assumptions C117_stream.
Lemma wire_run_out : option_map (fun N => (List.length (bytes_out 0 (n_log N)), firstn 29 (bytes_out 0 (n_log N)))) (on_wire 2 (Some 777) None 0 Hostile.its_host wire_run) =
  Some (170%nat, GREETING ++ frame (0, 14, [])).
Proof. vm_compute. reflexivity. Qed.
Example C117_nonvacuous : exists N, on_wire 2 (Some 777) None 0 Hostile.its_host wire_run = Some N /\ octets wire_run /\ List.length (bytes_out 0 (n_log N)) = 170%nat.
Proof.
  pose proof wire_run_out as F. destruct (on_wire 2 (Some 777) None 0 Hostile.its_host wire_run) as [N|]; [|discriminate F]. unfold option_map in F.
  exists N. split; [reflexivity|]. split; [apply octets_ok; vm_compute; reflexivity|congruence].
Qed.

(** C118. *)
Lemma on_wire_tidy n id mr rnd h es N : on_wire n id mr rnd h es = Some N -> octets es ->
  exists w0, new_gateway id mr rnd [] h = Ok w0 /\ whole n w0 N /\ tidy N.
Proof.
  intros R O. destruct (on_wire_whole _ _ _ _ _ _ _ R O) as (w0 & W & Wh). exists w0. split; [exact W|]. split; [exact Wh|]. unfold on_wire in R. rewrite W in R. injection R as <-.
  eapply tidy_run; [exact W|]. apply Forall_forall. intros e J. destruct e; try exact Logic.I. exact (O _ _ J).
Qed.
Theorem C118_forced n id mr rnd h es N j c i ms clk : on_wire n id mr rnd h es = Some N -> octets es ->
  In (By j (AwaitFutures c true)) (apis (n_log N)) -> awaits i N = Some (AwaitReply c ms) -> Z.of_nat (List.length (sent c (n_log N))) <= 32767 ->
  exists r t, own i (apis (n_log (nstep n N (NResume i clk)))) = own i (apis (n_log N)) ++ Got r :: t.
Proof. intros R O J A Ln. destruct (on_wire_tidy _ _ _ _ _ _ _ R O) as (w0 & W & Wh & K). eapply shut_resumes; eassumption. Qed.
Print Assumptions C118_forced.
Definition force_run : list nevent := wire_login ++ [NCall GetStatus; NCall (SetCircuit (VInt 505) (VInt 1)); NCall (Disconnect true)].
Definition force_facts (N : net) := (existsb (fun x => match x with By 3 (AwaitFutures 0 true) => true | _ => false end) (apis (n_log N)), awaits 1 N, awaits 2 N, List.length (sent 0 (n_log N))).
Lemma force_run_facts : option_map force_facts (on_wire 2 (Some 777) None 0 Hostile.its_host force_run) = Some (true, Some (AwaitReply 0 2000), Some (AwaitReply 0 2000), 6%nat).
Proof. vm_compute. reflexivity. Qed.
Example C118_nonvacuous : exists N, on_wire 2 (Some 777) None 0 Hostile.its_host force_run = Some N /\ octets force_run /\
  In (By 3 (AwaitFutures 0 true)) (apis (n_log N)) /\ awaits 1 N = Some (AwaitReply 0 2000) /\ awaits 2 N = Some (AwaitReply 0 2000) /\ Z.of_nat (List.length (sent 0 (n_log N))) <= 32767.
Proof.
  pose proof force_run_facts as F. destruct (on_wire 2 (Some 777) None 0 Hostile.its_host force_run) as [N|]; [|discriminate F]. unfold option_map, force_facts in F.
  exists N. split; [reflexivity|]. split; [apply octets_ok; vm_compute; reflexivity|]. split; [|split; [congruence|split; [congruence|]]].
  - assert (E : existsb (fun x => match x with By 3 (AwaitFutures 0 true) => true | _ => false end) (apis (n_log N)) = true) by congruence. apply existsb_exists in E. destruct E as (x & J & E).
    destruct x as [|i e| | |]; try discriminate E. do 4 (destruct i as [|i]; try discriminate E). destruct e; try discriminate E. destruct c; [|discriminate E]. destruct force; [exact J|discriminate E].
  - assert (E : List.length (sent 0 (n_log N)) = 6%nat) by congruence. rewrite E. lia.
Qed.

(** C119. *)
Theorem C119_timer n id mr rnd h es N c i ms clk : on_wire n id mr rnd h es = Some N -> octets es -> awaits i N = Some (AwaitReply c ms) ->
  ms = 2000 /\
  exists r t, own i (apis (n_log (nrun n N [NTimeout i; NResume i clk]))) = own i (apis (n_log N)) ++ Got r :: t /\
    (r_kind r = KTimeout \/ (exists X b, r_kind r = KTimeoutReply X b) \/ (r_kind r = KCancelTask /\ In (NCancel i) es)).
Proof.
  intros R O A. destruct (on_wire_tidy _ _ _ _ _ _ _ R O) as (w0 & W & Wh & K). split.
  - unfold awaits in A. destruct (nth_error (p_tasks (n_pool N)) i) as [[ | | |y k| ]|] eqn:T; try discriminate A. injection A as ->.
    destruct (proj2 (proj2 Wh i) _ _ _ T) as (f & x & Sl). destruct (proj1 (proj2 Wh i) _ _ _ Sl) as ((k' & T') & _). rewrite T in T'. congruence.
  - destruct (timer_resumes n id mr rnd h w0 W N c i ms clk Wh K A) as (r & t & E & D). exists r, t. split; [exact E|].
    destruct D as [D|[D|(D & f & Sl)]]; [auto|auto|]. right. right. split; [exact D|].
    unfold on_wire in R. rewrite W in R. injection R as <-. eapply run_cancel, Sl.
Qed.
Print Assumptions C119_timer.
Example C119_nonvacuous : exists N, on_wire 2 (Some 777) None 0 Hostile.its_host force_run = Some N /\ octets force_run /\ awaits 1 N = Some (AwaitReply 0 2000).
Proof. destruct C118_nonvacuous as (N & R & O & _ & A & _). eauto. Qed.
