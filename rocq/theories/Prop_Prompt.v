(** C131: with the answer to its message a call is done. *)
From Verif Require Import Py F64 Struct Utf Utility Const Spec Enum Decode Messages Calls World Request Gateway Traces Paths Api Tasks Pool SpecPool Net SpecNet SpecAnswer SpecPrompt P_Base P_Util.
From Verif Require Import P_Net1 P_Net2 P_Net3 P_Net4 P_Net5 P_Net6 P_Net8 P_Answer P_Answer2 P_Path P_Prompt.
From Verif Require P_Dict P_Data Protocol P_Proto1 P_Proto2 P_Proto3 P_Proto4 P_Pool P_Pool2 Hostile Prop_Connect.
From Verif Require Import Prop_Pool Prop_Net Prop_Answer.
Import Protocol(OutRequest, OutWrite, OutCompleted).

Lemma start_called n w : within (start w) /\ called n (start w).
Proof. split; [intros i e []|]. split; [reflexivity|]. intros [|i] m E; discriminate E. Qed.
(** the task of a call that has its answer goes on at once *)
Lemma on_answer n cid mr rnd h e1 e2 N1 N i c f id X p g gb b ms clk call d (pre : world -> Prop) (F : world -> world * unit) :
  on_wire n cid mr rnd h e1 = Some N1 -> on_wire n cid mr rnd h (e1 ++ e2) = Some N -> octets (e1 ++ e2) ->
  n_log N = n_log N1 ++ g ++ Api (By i (Send c X p)) :: Wire c (OutRequest f id X p) :: Wire c (OutWrite (frame (id, X, p))) :: gb ->
  own i (apis gb) = [AwaitReply c 2000] -> awaits i N = Some (AwaitReply c ms) ->
  ~ In (NTimeout i) e2 -> ~ In (NCancel i) e2 -> Z.of_nat (List.length (sent c gb)) < 32767 ->
  first_with id (taken c gb) = Some (id, X + 1, b) ->
  begun i (apis (n_log N)) = [(call, d)] -> aware X b (lands pre F) (tperform n call) -> pre (set_clock clk (p_world (n_pool N))) ->
  p_world (n_pool (nstep n N (NResume i clk))) = fst (F (set_clock clk (p_world (n_pool N)))) /\
  nth_error (p_tasks (n_pool (nstep n N (NResume i clk)))) i = Some (Done (Val tt)) /\
  own i (apis (n_log (nstep n N (NResume i clk)))) = own i (apis (n_log N)) ++ [Got (mkResp (KReply (X + 1) b) [] None clk)].
Proof.
  intros R1 R O E Ow Aw NT NC Ln Fi B Aa Pr. destruct (answer_there _ _ _ _ _ _ _ _ _ _ _ _ _ _ _ _ _ _ _ _ R1 R O E Ow Aw NT NC Ln Fi) as (w0 & W & Wh & Sl & Fd).
  pose proof (resumed n w0 N i c f _ clk Wh Sl Fd) as Pm. cbn [Protocol.msg_code Protocol.msg_data fst snd] in Pm. pose proof Wh as (G & _). pose proof (G_log _ _ _ _ G) as L. rewrite app_nil_r in L.
  destruct (step_whole n cid mr rnd h w0 W N (NResume i clk) Logic.I Wh) as (G' & _). pose proof (G_log _ _ _ _ G') as L'. rewrite app_nil_r in L'.
  destruct (G_run _ _ _ _ G) as (es & Rn). destruct (start_called n w0) as (W0 & C0). pose proof (called_run n es _ W0 C0) as (_ & Cl). rewrite <- Rn in Cl.
  unfold awaits in Aw. destruct (nth_error (p_tasks (n_pool N)) i) as [m|] eqn:T; [|discriminate Aw].
  destruct (Cl _ _ T) as (call' & d' & w1 & B' & Pt). rewrite L in B. assert (call' = call) by congruence. subst call'.
  destruct (path_told X b _ _ _ _ _ _ Aa Pt) as ((_ & To) & _).
  assert (Eo : own i (p_log (n_pool N)) = own i (apis (n_log N1 ++ g)) ++ [Send c X p; AwaitReply c 2000]).
  { rewrite <- L, E, app_assoc, P_Net2.apis_app, P_Net5.own_app. f_equal. cbn [apis flat_map app own]. rewrite Nat.eqb_refl. cbn [app]. f_equal. exact Ow. }
  destruct (To _ _ _ Eo) as (k & -> & La). rewrite Pm, L', Pm, L. clear L L'. specialize (La _ Pr).
  destruct (n_pool N) as [w ts l] eqn:PN. cbn [p_world p_tasks p_log] in *. cbn [Pool.pstep p_world p_tasks p_log]. rewrite T. cbn [fits opened_by]. rewrite La.
  cbn [p_world p_tasks p_log]. split; [reflexivity|]. split.
  - destruct (F (set_clock clk w)) as [w2 []]. eapply nth_lset_eq, T.
  - rewrite P_Net5.own_app. cbn [map app own flat_map]. rewrite Nat.eqb_refl. reflexivity.
Qed.
Ltac asked_for := let H := fresh in intros H; vm_compute in H; intuition discriminate.
Lemma setting_aware n call X : request_code call = Some X -> is_command call -> aware X [] (lands anywhere (fun w => (w, tt))) (tperform n call).
Proof.
  intros RX IC.
  assert (K : ~ connecting_code X -> forall pl, aware X [] (lands anywhere (fun w => (w, tt))) (tcommand n (tcommand_request X pl) 0)).
  { intros NC pl. apply aware_tcommand; [exact NC|]. intros mr c. apply aware_setting. reflexivity. }
  assert (Q : forall x, aware X [] (lands anywhere (fun w => (w, tt))) (trequire x)).
  { intros x. unfold trequire. destruct x as [[]|e]; exact Logic.I. }
  assert (S : forall x, silent X [] (trequire x)). { intros x. unfold trequire. destruct x as [[]|e]; exact Logic.I. }
  destruct call; try destruct IC; injection RX as <-; cbn [tperform]; repeat (apply aw_get; intros ?);
    repeat (apply aw_bind; [apply S|intros _]); try (apply aw_bind; [apply sil_lift|intros ?]; repeat match goal with |- context [match ?y with (_, _) => _ end] => destruct y end); apply K; asked_for.
Qed.
Lemma sent_aware n X m b : ~ connecting_code X -> aware X b (lands anywhere (fun w => (w, tt))) (tperform n (SendMessage X m)).
Proof.
  intros NC. cbn [tperform]. eapply aware_bind; [apply aware_tcommand with (pre := anywhere) (F := fun w => (w, Some b)); [exact NC|]| |intros r; exact Logic.I].
  - intros mr c. eapply aware_weak; [apply gives_lands|]. apply aware_request.
  - intros x Lx w H. rewrite (advance_bind _ _ _ _ _ (Lx w H)). reflexivity.
Qed.
Lemma fetch_aware n call X K x b : fetches call X K x ->
  aware X b (lands (fun w => decodes b (fun b => run_decoder (x (w_clock w) b)) w) (fun w => (stored b (fun b => run_decoder (x (w_clock w) b)) K w, tt))) (tperform n call).
Proof.
  intros [| | |]; cbn [tperform run_decoder];
  [apply (aware_tpoll 12526 b ltac:(asked_for) n _ (fun _ => decode_pool_status))|apply (aware_tpoll 12592 b ltac:(asked_for) n _ (fun _ => decode_chemistry))
  |apply (aware_tpoll 12572 b ltac:(asked_for) n _ (fun _ => decode_scg_config))|apply (aware_tpoll 8110 b ltac:(asked_for) n _ decode_date_time)]; intros mr c.
  - apply aware_fetch.
  - apply aware_fetch.
  - apply aware_fetch.
  - apply aware_date. reflexivity.
Qed.

Section Statement.
  Variables (n : nat) (cid mr : option Z) (rnd : Z) (h : host) (e1 e2 : list nevent) (N1 N : net) (i c f : nat) (id X : Z) (p : bytes) (g gb : list line) (b : bytes) (ms : Z) (call : api_call) (d : dict).
  (** task [i], of the call [call], has sent the message of that call, and the first message with
      the id of that message is an answer to it; the task was not cancelled and its timer did not fire *)
  Record answered_in_time : Prop := {
    A_before : on_wire n cid mr rnd h e1 = Some N1;
    A_now : on_wire n cid mr rnd h (e1 ++ e2) = Some N;
    A_octets : octets (e1 ++ e2);
    A_log : n_log N = n_log N1 ++ g ++ Api (By i (Send c X p)) :: Wire c (OutRequest f id X p) :: Wire c (OutWrite (frame (id, X, p))) :: gb;
    A_own : own i (apis gb) = [AwaitReply c 2000];
    A_waits : awaits i N = Some (AwaitReply c ms);
    A_timer : ~ In (NTimeout i) e2;
    A_cancel : ~ In (NCancel i) e2;
    A_few : Z.of_nat (List.length (sent c gb)) < 32767;
    A_answer : first_with id (taken c gb) = Some (id, X + 1, b);
    A_call : begun i (apis (n_log N)) = [(call, d)];
    A_code : request_code call = Some X }.
End Statement.

(** C131.  A setting that was acknowledged returns, and changes nothing here. *)
Theorem C131_setting n cid mr rnd h e1 e2 N1 N i c f id X p g gb b ms call d clk :
  answered_in_time n cid mr rnd h e1 e2 N1 N i c f id X p g gb b ms call d -> is_command call -> b = [] ->
  let N' := nstep n N (NResume i clk) in
  nth_error (p_tasks (n_pool N')) i = Some (Done (Val tt)) /\ w_data (p_world (n_pool N')) = w_data (p_world (n_pool N)) /\
  exists r, own i (apis (n_log N')) = own i (apis (n_log N)) ++ [Got r] /\ answer_of r = Some (X + 1, []).
Proof.
  intros [] IC ->. cbv zeta. destruct (on_answer _ _ _ _ _ _ _ _ _ _ _ _ _ _ _ _ _ _ _ clk _ _ _ _ A_before0 A_now0 A_octets0 A_log0 A_own0 A_waits0 A_timer0 A_cancel0 A_few0 A_answer0 A_call0 (setting_aware n call X A_code0 IC) Logic.I) as (Ew & T & Og).
  rewrite Ew. split; [exact T|]. split; [reflexivity|]. eexists. split; [exact Og|reflexivity].
Qed.
Print Assumptions C131_setting.
(** A message of the user's own that was answered returns; nothing is read from the answer. *)
Theorem C131_message n cid mr rnd h e1 e2 N1 N i c f id X p g gb b ms m d clk :
  answered_in_time n cid mr rnd h e1 e2 N1 N i c f id X p g gb b ms (SendMessage X m) d -> ~ connecting_code X ->
  let N' := nstep n N (NResume i clk) in
  nth_error (p_tasks (n_pool N')) i = Some (Done (Val tt)) /\ w_data (p_world (n_pool N')) = w_data (p_world (n_pool N)) /\
  exists r, own i (apis (n_log N')) = own i (apis (n_log N)) ++ [Got r] /\ answer_of r = Some (X + 1, b).
Proof.
  intros [] NC. cbv zeta. destruct (on_answer _ _ _ _ _ _ _ _ _ _ _ _ _ _ _ _ _ _ _ clk _ _ _ _ A_before0 A_now0 A_octets0 A_log0 A_own0 A_waits0 A_timer0 A_cancel0 A_few0 A_answer0 A_call0 (sent_aware n X m b NC) Logic.I) as (Ew & T & Og).
  rewrite Ew. split; [exact T|]. split; [reflexivity|]. eexists. split; [exact Og|reflexivity].
Qed.
Print Assumptions C131_message.
(** A query that was answered returns, and get_data() is what the answer makes of it. *)
Theorem C131_query n cid mr rnd h e1 e2 N1 N i c f id X p g gb b ms call d clk K x :
  answered_in_time n cid mr rnd h e1 e2 N1 N i c f id X p g gb b ms call d -> fetches call X K x ->
  let N' := nstep n N (NResume i clk) in
  let old := w_data (p_world (n_pool N)) in
  (b <> [] -> snd (run_decoder (x clk b) old) = Ok tt) ->
  nth_error (p_tasks (n_pool N')) i = Some (Done (Val tt)) /\
  (b = [] -> w_data (p_world (n_pool N')) = old) /\
  (b <> [] -> w_data (p_world (n_pool N')) = fst (run_decoder (x clk b) old) /\ dget K (w_last (p_world (n_pool N'))) = Some (VBytes b)) /\
  exists r, own i (apis (n_log N')) = own i (apis (n_log N)) ++ [Got r] /\ answer_of r = Some (X + 1, b).
Proof.
  intros [] Fe. cbv zeta. intros D. destruct (on_answer _ _ _ _ _ _ _ _ _ _ _ _ _ _ _ _ _ _ _ clk _ _ _ _ A_before0 A_now0 A_octets0 A_log0 A_own0 A_waits0 A_timer0 A_cancel0 A_few0 A_answer0 A_call0 (fetch_aware n call X K x b Fe) D) as (Ew & T & Og).
  rewrite Ew. split; [exact T|]. cbn [fst w_clock set_clock]. unfold stored. split; [intros ->; reflexivity|].
  split; [|eexists; split; [exact Og|reflexivity]]. intros NE. destruct b as [|y l]; [destruct NE; reflexivity|]. split; [reflexivity|]. cbn [set_last w_last]. rewrite P_Dict.dget_dset, P_Data.key_eqb_refl. reflexivity.
Qed.
Print Assumptions C131_query.

(** two calls at once; an unasked-for message; the answer to the second call; then the timer of the
    first call fires and the connection is lost *)
Definition prompt_run (call : api_call) (X : Z) (b : bytes) : list nevent :=
  [NCall GetStatus; NCall call; arrive 0 12500 [1]; arrive 5 (X + 1) b; NTimeout 1; NLose 0; NLostTask 0].
Definition prompt_end (call : api_call) (X : Z) (b : bytes) : option net := on_wire 2 (Some 777) None 0 Hostile.its_host (wire_login ++ prompt_run call X b).
Definition prompt_rest (X : Z) (b : bytes) : list line :=
  [Api (By 2 (AwaitReply 0 2000)); Came 0 (frame (0, 12500, [1])); Wire 0 (Protocol.OutDropped (0, 12500, [1]));
   Came 0 (frame (5, X + 1, b)); Wire 0 (OutCompleted 5 (5, X + 1, b)); Api (Env (Lost 0)); Wire 0 Protocol.OutLost].
Definition prompt_facts (call : api_call) (X : Z) (p b : bytes) : Prop :=
  option_map (fun N => (skipn 40 (n_log N), awaits 2 N, map fst (begun 2 (apis (n_log N))))) (prompt_end call X b) =
    Some (Api (By 2 (Send 0 X p)) :: Wire 0 (OutRequest 5 5 X p) :: Wire 0 (OutWrite (frame (5, X, p))) :: prompt_rest X b, Some (AwaitReply 0 2000), [call]) /\
  option_map (fun N => firstn 34 (n_log N)) (prompt_end call X b) = option_map n_log (on_wire 2 (Some 777) None 0 Hostile.its_host wire_login).
Lemma prompt_in_time call X p b : prompt_facts call X p b -> octets (wire_login ++ prompt_run call X b) -> request_code call = Some X ->
  first_with 5 (taken 0 (prompt_rest X b)) = Some (5, X + 1, b) -> sent 0 (prompt_rest X b) = [] ->
  exists N1 N g gb d, prompt_end call X b = Some N /\
    answered_in_time 2 (Some 777) None 0 Hostile.its_host wire_login (prompt_run call X b) N1 N 2 0 5 5 X p g gb b 2000 call d.
Proof.
  intros (Fa & L) O RX Fi Se. unfold prompt_end in *. destruct (on_wire 2 (Some 777) None 0 Hostile.its_host (wire_login ++ prompt_run call X b)) as [N|] eqn:EN; [|discriminate Fa].
  destruct (on_wire 2 (Some 777) None 0 Hostile.its_host wire_login) as [N1|] eqn:E1; [|discriminate L]. cbn [option_map] in Fa, L.
  assert (L' : n_log N1 = firstn 34 (n_log N)) by congruence.
  assert (F' : skipn 40 (n_log N) = Api (By 2 (Send 0 X p)) :: Wire 0 (OutRequest 5 5 X p) :: Wire 0 (OutWrite (frame (5, X, p))) :: prompt_rest X b) by congruence.
  assert (B' : map fst (begun 2 (apis (n_log N))) = [call]) by congruence. destruct (begun 2 (apis (n_log N))) as [|[cl d] [|y l]] eqn:Eb; try discriminate B'. assert (cl = call) by (cbn in B'; congruence). subst cl.
  exists N1, N, (firstn 6 (skipn 34 (n_log N))), (prompt_rest X b), d. split; [reflexivity|]. split; auto.
  - rewrite L', <- F'. rewrite <- (firstn_skipn 34 (n_log N)) at 1. f_equal. rewrite <- (firstn_skipn 6 (skipn 34 (n_log N))) at 1. f_equal.
    generalize (n_log N). intros l. do 34 (destruct l as [|? l]; [reflexivity|]). reflexivity.
  - congruence.
  - intros J. cbn in J. repeat (destruct J as [J|J]; [discriminate J|]). exact J.
  - intros J. cbn in J. repeat (destruct J as [J|J]; [discriminate J|]). exact J.
  - rewrite Se. reflexivity.
Qed.
Lemma prompt_setting : prompt_facts (SetCircuit (VInt 505) (VInt 1)) 12530 set_505 []. Proof. split; vm_compute; reflexivity. Qed.
Lemma prompt_message : prompt_facts (SendMessage 9000 [5; 6]) 9000 [5; 6] [1; 2; 3]. Proof. split; vm_compute; reflexivity. Qed.
(** Friday, 1 November 2024, 12:30:15.250, summer time on *)
Definition a_date : bytes := [232; 7; 11; 0; 5; 0; 1; 0; 12; 0; 30; 0; 15; 0; 250; 0; 1; 0; 0; 0].
Lemma prompt_query : prompt_facts GetDatetime 8110 [] a_date. Proof. split; vm_compute; reflexivity. Qed.
Lemma prompt_read : option_map (fun N => snd (run_decoder (DDate clk a_date) (w_data (p_world (n_pool N))))) (prompt_end GetDatetime 8110 a_date) = Some (Ok tt).
Proof. vm_compute. reflexivity. Qed.
Example C131_nonvacuous :
  (exists N1 N g gb d, answered_in_time 2 (Some 777) None 0 Hostile.its_host wire_login (prompt_run (SetCircuit (VInt 505) (VInt 1)) 12530 []) N1 N 2 0 5 5 12530 set_505 g gb [] 2000 (SetCircuit (VInt 505) (VInt 1)) d) /\
  (exists N1 N g gb d, answered_in_time 2 (Some 777) None 0 Hostile.its_host wire_login (prompt_run (SendMessage 9000 [5; 6]) 9000 [1; 2; 3]) N1 N 2 0 5 5 9000 [5; 6] g gb [1; 2; 3] 2000 (SendMessage 9000 [5; 6]) d) /\
  (exists N1 N g gb d, answered_in_time 2 (Some 777) None 0 Hostile.its_host wire_login (prompt_run GetDatetime 8110 a_date) N1 N 2 0 5 5 8110 [] g gb a_date 2000 GetDatetime d /\
    fetches GetDatetime 8110 (KS "date_time") DDate /\ snd (run_decoder (DDate clk a_date) (w_data (p_world (n_pool N)))) = Ok tt).
Proof.
  split; [|split].
  - destruct (prompt_in_time _ _ _ _ prompt_setting) as (N1 & N & g & gb & d & _ & H); [apply octets_ok; vm_compute; reflexivity|reflexivity|vm_compute; reflexivity|reflexivity|eauto 6].
  - destruct (prompt_in_time _ _ _ _ prompt_message) as (N1 & N & g & gb & d & _ & H); [apply octets_ok; vm_compute; reflexivity|reflexivity|vm_compute; reflexivity|reflexivity|eauto 6].
  - destruct (prompt_in_time _ _ _ _ prompt_query) as (N1 & N & g & gb & d & E & H); [apply octets_ok; vm_compute; reflexivity|reflexivity|vm_compute; reflexivity|reflexivity|].
    exists N1, N, g, gb, d. split; [exact H|]. split; [constructor|]. pose proof prompt_read as R. rewrite E in R. cbn [option_map] in R. congruence.
Qed.
