(** C132: a disconnect says goodbye first. *)
From Verif Require Import Py F64 Struct Utf Utility Const Spec Enum Decode Messages World Request Gateway Traces Paths Api Tasks Pool SpecPool SpecKeep SpecBye P_Base P_Util.
From Verif Require Import P_Pool P_Moves P_Path P_Bye.
From Verif Require P_Gw1 P_Gw11 P_Timer P_Tune Prop_Decode Hostile.
From Verif Require Import Prop_Pool Prop_Keep.

Lemma packed_id x : is_u32 x -> pack_Is [VInt 0; VInt x] = Ok (u32le 0 ++ u32le x) /\ exists b, makeMessage 0 12524 (u32le 0 ++ u32le x) = Ok b.
Proof.
  intros HI. assert (PK : pack_Is [VInt 0; VInt x] = Ok (u32le 0 ++ u32le x)).
  { change [VInt 0; VInt x] with (map VInt [0; x]). rewrite (P_Gw1.pack_Is_ok [0; x]); [cbn [map List.concat]; rewrite app_nil_r; reflexivity|]. constructor; [unfold is_u32; lia|]. constructor; [exact HI|constructor]. }
  split; [exact PK|]. eapply P_Gw11.pack2_small; [|exact PK]. unfold is_u16. lia.
Qed.

(** C132.  What a disconnect does while any other calls run. *)
Theorem C132_goodbye n id mr rnd h ea eb P0 P force : ran n id mr rnd h ea = Some P0 -> is_u32 (over id rnd) ->
  ran n id mr rnd h (ea ++ Pool.Call (Disconnect force) :: eb) = Some P ->
  let i := List.length (p_tasks P0) in
  (nth_error (p_tasks P) i = Some (Done (Exc ECancelled)) /\ exists r, r_kind r = KCancelTask /\ own i (p_log P) = [Got r]) \/
  exists c a b, own i (p_log P) = a ++ b /\ asked_once c 12524 (u32le 0 ++ u32le (over id rnd)) a /\
    (b = [] \/ answered_all a /\ exists c', closes c' force b).
Proof.
  intros R0 HI R. cbv zeta. rewrite (ran_app _ _ _ _ _ _ _ _ R0) in R. injection R as <-. destruct (packed_id _ HI) as (PK & MK).
  assert (T : exists U m, (is_client (p_world P0) = true -> has (over id rnd) (p_world P0) /\ U = has (over id rnd)) /\
     nth_error (p_tasks (prun n P0 (Pool.Call (Disconnect force) :: eb))) (List.length (p_tasks P0)) = Some m /\
     path U (tperform n (Disconnect force)) (p_world P0) (own (List.length (p_tasks P0)) (p_log (prun n P0 (Pool.Call (Disconnect force) :: eb)))) m).
  { destruct (is_client (p_world P0)) eqn:IC.
    - assert (H : has (over id rnd) (p_world P0)).
      { split; [|eapply ran_id, R0]. unfold is_client, attached in IC. destruct (m_proto (w_cm (p_world P0))); [discriminate|]. rewrite andb_false_r in IC. discriminate IC. }
      destruct (call_path n (over id rnd) P0 (Disconnect force) eb) as (m & N & T); [eapply ran_within, R0|eapply ran_made, R0|exact H|]. exists (has (over id rnd)), m. auto.
    - destruct (P_Timer.call_path_U (fun _ => True) n P0 (Disconnect force) eb) as (m & N & T); [eapply ran_within, R0|auto|]. exists (fun _ => True), m. split; [discriminate|]. auto. }
  destruct T as (U & m & HU & N & T). destruct (disconnect_path U n (over id rnd) (p_world P0) _ force PK MK HU _ _ T) as [(-> & r & K & E)|H]; [left; split; [exact N|eauto]|right; exact H].
Qed.
Print Assumptions C132_goodbye.
(** While the gateway is a registered client on a working connection and nobody holds the lock, the
    goodbye is the first thing a disconnect does, before any other call runs. *)
Theorem C132_first n id mr rnd h ea eb P0 P force c : ran n id mr rnd h ea = Some P0 -> is_u32 (over id rnd) ->
  is_client (p_world P0) = true -> m_locked (w_cm (p_world P0)) = false -> m_proto (w_cm (p_world P0)) = Some c ->
  c_closing (get_conn c (p_world P0)) = false -> c_open (get_conn c (p_world P0)) = true ->
  ran n id mr rnd h (ea ++ Pool.Call (Disconnect force) :: eb) = Some P ->
  let i := List.length (p_tasks P0) in
  p_log (pstep n P0 (Pool.Call (Disconnect force))) = p_log P0 ++ [Started i (Disconnect force) (w_data (p_world P0)); By i (Send c 12524 (u32le 0 ++ u32le (over id rnd))); By i (AwaitReply c 2000)] /\
  exists t, own i (p_log P) = Send c 12524 (u32le 0 ++ u32le (over id rnd)) :: AwaitReply c 2000 :: t.
Proof.
  intros R0 HI IC L PR CC CO R. cbv zeta. rewrite (ran_app _ _ _ _ _ _ _ _ R0) in R.
  assert (RP : P = prun n P0 (Pool.Call (Disconnect force) :: eb)) by congruence. clear R. subst P. destruct (packed_id _ HI) as (PK & MK).
  destruct (goodbye_first n (over id rnd) (p_world P0) _ force c PK MK IC L PR (ran_id _ _ _ _ _ _ _ R0) CC CO) as (w' & m & E).
  assert (S1 : p_log (pstep n P0 (Pool.Call (Disconnect force))) = p_log P0 ++ [Started (List.length (p_tasks P0)) (Disconnect force) (w_data (p_world P0)); By (List.length (p_tasks P0)) (Send c 12524 (u32le 0 ++ u32le (over id rnd))); By (List.length (p_tasks P0)) (AwaitReply c 2000)]).
  { cbn [pstep]. rewrite E. reflexivity. }
  split; [exact S1|]. pose proof (within_own P0 (List.length (p_tasks P0)) (ran_within _ _ _ _ _ _ _ R0) (Nat.le_refl _)) as O0.
  assert (G : forall es Q, exists x, p_log (prun n Q es) = p_log Q ++ x).
  { induction es as [|e es IH]; intros Q; [exists []; symmetry; apply app_nil_r|]. cbn [prun fold_left]. destruct (IH (pstep n Q e)) as (x & Ex). destruct (P_Tune.log_grows n Q e) as (y & Ey). exists (y ++ x).
    change (fold_left (pstep n) es (pstep n Q e)) with (prun n (pstep n Q e) es). rewrite Ex, Ey, app_assoc. reflexivity. }
  destruct (G eb (pstep n P0 (Pool.Call (Disconnect force)))) as (x & Ex). exists (own (List.length (p_tasks P0)) x).
  assert (Q : prun n P0 (Pool.Call (Disconnect force) :: eb) = prun n (pstep n P0 (Pool.Call (Disconnect force))) eb) by reflexivity. rewrite Q, Ex, S1, !own_app, O0. cbn [own flat_map app]. rewrite Nat.eqb_refl. reflexivity.
Qed.
Print Assumptions C132_first.
(** a registered gateway, a query of which still waits, disconnects by force *)
Definition bye_run : list Pool.event := [reply 3 12525 []; done 3; done 3].
Definition bye_before (P : Pool.pool) := (is_client (p_world P), m_locked (w_cm (p_world P)), m_proto (w_cm (p_world P)), c_closing (get_conn 0 (p_world P)), c_open (get_conn 0 (p_world P)), List.length (p_tasks P)).
Lemma bye_starts : option_map bye_before (ran 2 (Some 777) None 0 Hostile.its_host kept_alive) = Some (true, false, Some 0%nat, false, true, 3%nat).
Proof. vm_compute. reflexivity. Qed.
Lemma bye_ends : option_map (fun P => (own 3 (p_log P), nth_error (outcomes P) 3)) (ran 2 (Some 777) None 0 Hostile.its_host (kept_alive ++ Pool.Call (Disconnect true) :: bye_run)) =
  Some ([Send 0 12524 [0; 0; 0; 0; 9; 3; 0; 0]; AwaitReply 0 2000; Got (mkResp (KReply 12525 []) [] None clk); AwaitFutures 0 true; Got (mkResp KDone [] None clk); CloseTransport 0; AwaitClosed 0; Got (mkResp KDone [] None clk); Lost 0], Some (Some (Val tt))).
Proof. vm_compute. reflexivity. Qed.
Example C132_nonvacuous : exists P0 P, ran 2 (Some 777) None 0 Hostile.its_host kept_alive = Some P0 /\ is_u32 (over (Some 777) 0) /\
  is_client (p_world P0) = true /\ m_locked (w_cm (p_world P0)) = false /\ m_proto (w_cm (p_world P0)) = Some 0%nat /\
  c_closing (get_conn 0 (p_world P0)) = false /\ c_open (get_conn 0 (p_world P0)) = true /\ List.length (p_tasks P0) = 3%nat /\
  ran 2 (Some 777) None 0 Hostile.its_host (kept_alive ++ Pool.Call (Disconnect true) :: bye_run) = Some P /\
  asked_once 0 12524 [0; 0; 0; 0; 9; 3; 0; 0] (firstn 3 (own 3 (p_log P))) /\ closes 0 true (skipn 3 (own 3 (p_log P))).
Proof.
  pose proof bye_starts as B. pose proof bye_ends as E. destruct (ran 2 (Some 777) None 0 Hostile.its_host kept_alive) as [P0|]; [|discriminate B].
  destruct (ran 2 (Some 777) None 0 Hostile.its_host (kept_alive ++ Pool.Call (Disconnect true) :: bye_run)) as [P|]; [|discriminate E]. cbn [option_map] in B, E. unfold bye_before in B.
  assert (O : own 3 (p_log P) = [Send 0 12524 [0; 0; 0; 0; 9; 3; 0; 0]; AwaitReply 0 2000; Got (mkResp (KReply 12525 []) [] None clk); AwaitFutures 0 true; Got (mkResp KDone [] None clk); CloseTransport 0; AwaitClosed 0; Got (mkResp KDone [] None clk); Lost 0]) by congruence.
  exists P0, P. split; [reflexivity|]. split; [unfold is_u32; cbn; lia|]. split; [congruence|]. split; [congruence|]. split; [congruence|]. split; [congruence|]. split; [congruence|]. split; [congruence|]. split; [reflexivity|].
  rewrite O. split.
  - right. exists [Send 0 12524 [0; 0; 0; 0; 9; 3; 0; 0]]. split; [auto|]. right. eexists. reflexivity.
  - cbn [skipn]. eexists. split; [reflexivity|]. repeat constructor.
Qed.
