(** C127: a subscriber is told of every message of its code that comes on the connection, whatever
    else goes on. Vocabulary: SpecHand.v, SpecTold.v. *)
From Verif Require Import Py F64 Struct Utf Utility Const Spec Enum Decode Messages Calls World Request Gateway Traces Paths Api Tasks Pool SpecPool
  P_Base P_Hand Hostile Prop_Request Prop_Gateway Prop_Connect Prop_Pool SpecTold Prop_Told SpecHand.
From Verif Require Client Prop_Decode Prop_Term P_Dead P_Pool2.

Lemma ran_Hd n id mr rnd h code : valid_id id rnd -> forall es P, ran n id mr rnd h es = Some P -> undisturbed code es -> Hd code P.
Proof.
  intros VI. induction es as [|e es IH] using rev_ind; intros P R U.
  - unfold ran, new_gateway in R. destruct (_ && _); [|discriminate R]. injection R as <-. split; [|intros t []]. split; [|intros c E; discriminate E].
    cbn. unfold is_u32, over, valid_id in *. destruct id; lia.
  - destruct (ran_last _ _ _ _ _ _ _ _ R) as (P0 & R0 & ->). apply Hd_step.
    + exact (Prop_Term.ran_valid _ _ _ _ _ _ _ R0).
    + destruct U as (U1 & U2). destruct e as [c| | | | |]; try exact Logic.I. destruct c; try exact Logic.I; intros ->.
      * apply (U1 h0), in_or_app. right. left. reflexivity.
      * apply U2, in_or_app. right. left. reflexivity.
    + apply IH; [exact R0|]. destruct U as (U1 & U2). split; [intros h0 J; apply (U1 h0)|intros J; apply U2]; apply in_or_app; left; exact J.
Qed.
Lemma at_code_in code cb l : In cb (at_code code l) -> In code (map fst l).
Proof.
  unfold at_code. destruct (find _ l) as [[k s]|] eqn:F; [|intros []]. intros _. apply find_some in F. destruct F as (F1 & F2). cbn [fst] in F2. apply Z.eqb_eq in F2. subst k.
  apply (in_map fst) in F1. exact F1.
Qed.

(** A message of a subscribed code is handed to the client manager when it comes. *)
Theorem C127_handed n id mr rnd h es P cb code c b : ran n id mr rnd h es = Some P -> valid_id id rnd -> undisturbed code es ->
  listening n id mr rnd h es cb code -> works_on c (p_world P) -> ~ signed_off c (p_log P) ->
  pstep n P (Push c code b) = mkPool (p_world P) (p_tasks P) (p_log P ++ [Pushed c code b]).
Proof.
  intros R VI U L (M & Cn & Cl) S. destruct (ran_Hd _ _ _ _ _ _ VI _ _ R U) as ((_ & H) & _).
  apply (subscribed_now _ _ _ _ _ _ _ _ _ R) in L. rewrite listeners_at in L. apply at_code_in in L.
  destruct (ran_inv _ _ _ _ _ _ _ R) as (I & _). pose proof (P_Pool2.I_open _ _ _ _ _ I c Cn Cl) as Op.
  assert (F : find_h code (c_handlers (get_conn c (p_world P))) = Some (code, HClient code)) by (apply H; auto).
  cbn [pstep]. unfold handler_of. unfold connected in Cn. rewrite Cn, Cl. cbn [negb andb]. unfold find_h in F. rewrite F. reflexivity.
Qed.
Print Assumptions C127_handed.

Lemma dealt_split (x : nat * Z * bytes) more : forall (g : log) a, dealt_with g = a ++ x :: more -> exists g1 cbs g2, g = g1 ++ Applied (fst (fst x)) (snd (fst x)) (snd x) cbs :: g2 /\ dealt_with g1 = a.
Proof.
  induction g as [|y g IH]; intros a E; [destruct a; discriminate E|].
  assert (Skip : dealt_with g = a ++ x :: more -> dealt_with [y] = [] -> exists g1 cbs g2, y :: g = g1 ++ Applied (fst (fst x)) (snd (fst x)) (snd x) cbs :: g2 /\ dealt_with g1 = a).
  { intros E1 N. destruct (IH _ E1) as (g1 & cbs & g2 & -> & D). exists (y :: g1), cbs, g2. split; [reflexivity|]. rewrite (dealt_app [y] g1 : dealt_with (y :: g1) = _), N. exact D. }
  destruct y as [| | | |c code b cbs]; try (apply Skip; [exact E|reflexivity]).
  destruct a as [|z a]; cbn in E.
  - injection E as <- E. exists [], cbs, g. split; reflexivity.
  - injection E as <- E. destruct (IH _ E) as (g1 & cbs' & g2 & -> & D). exists (Applied c code b cbs :: g1), cbs', g2. split; [reflexivity|]. cbn. f_equal. exact D.
Qed.
Lemma split_events {X} (a b c d : list X) x y : a ++ x :: b = c ++ y :: d -> (exists l, a = c ++ y :: l) \/ (a = c /\ x = y) \/ (exists l, c = a ++ x :: l /\ b = l ++ y :: d).
Proof.
  revert c. induction a as [|z a IH]; intros c E; destruct c as [|z' c]; cbn [app] in E; injection E as -> E.
  - right. left. auto.
  - right. right. exists c. split; [reflexivity|exact E].
  - left. exists a. reflexivity.
  - destruct (IH _ E) as [(l & ->)|[(-> & ->)|(l & -> & ->)]]; [left; exists l; reflexivity|right; left; split; reflexivity|right; right; exists l; split; reflexivity].
Qed.
Lemma listening_longer n id mr rnd h es es' cb code : listening n id mr rnd h es cb code -> ~ In (Pool.Call (Unsubscribe cb code)) es' -> listening n id mr rnd h (es ++ es') cb code.
Proof.
  intros (e1 & e2 & P1 & -> & R & A & N) N'. exists e1, (e2 ++ es'), P1. split; [rewrite <- app_assoc; reflexivity|]. split; [exact R|]. split; [exact A|].
  intros J. apply in_app_or in J. destruct J; auto.
Qed.

(** ... and its subscriber is told when the turn of the message has come: whatever happens in between
    (other calls, lost connections, disconnects, failures), as long as it is not unsubscribed. *)
Theorem C127_told n id mr rnd h es P cb code c b es' waiting : ran n id mr rnd h es = Some P -> valid_id id rnd -> undisturbed code es ->
  listening n id mr rnd h es cb code -> works_on c (p_world P) -> ~ signed_off c (p_log P) ->
  came_in (p_log P) = dealt_with (p_log P) ++ waiting -> (List.length waiting + 1 <= handles es')%nat -> ~ In (Pool.Call (Unsubscribe cb code)) es' ->
  exists e1 e2 P1 cbs g, es' = e1 ++ Handle :: e2 /\ ran n id mr rnd h (es ++ Push c code b :: e1) = Some P1 /\
    p_log (prun n P (Push c code b :: es')) = p_log P1 ++ Applied c code b cbs :: g /\ dealt_with (p_log P1) = came_in (p_log P) /\
    (~ unreadable code b (w_data (p_world P1)) -> In cb cbs).
Proof.
  intros R VI U L WO S W K NU. pose proof (C127_handed _ _ _ _ _ _ _ _ _ _ b R VI U L WO S) as H. set (P' := pstep n P (Push c code b)) in *.
  assert (R' : ran n id mr rnd h (es ++ [Push c code b]) = Some P').
  { unfold ran in *. destruct (new_gateway id mr rnd [] h) as [w|]; [|discriminate R]. injection R as <-. unfold prun. rewrite fold_left_app. reflexivity. }
  assert (C' : came_in (p_log P') = came_in (p_log P) ++ [(c, code, b)]) by (rewrite H; cbn [p_log]; apply came_app).
  assert (D' : dealt_with (p_log P') = dealt_with (p_log P)) by (rewrite H; cbn [p_log]; rewrite dealt_app; apply app_nil_r).
  destruct (C125_served _ _ _ _ _ _ _ es' (waiting ++ [(c, code, b)]) R') as (more & D).
  { rewrite C', D', W, <- app_assoc. reflexivity. }
  { rewrite app_length. exact K. }
  change (prun n P (Push c code b :: es')) with (prun n P' es'). rewrite C', <- app_assoc in D. cbn [app] in D.
  destruct (dealt_split _ _ _ _ D) as (g1 & cbs & g2 & G & D1). cbn [fst snd] in G.
  assert (RF : ran n id mr rnd h (es ++ Push c code b :: es') = Some (prun n P' es')).
  { unfold ran in *. destruct (new_gateway id mr rnd [] h) as [w|]; [|discriminate R]. injection R' as <-. unfold prun. rewrite !fold_left_app. reflexivity. }
  destruct (C126_told _ _ _ _ _ _ _ _ _ _ _ _ _ RF G) as (e1 & e2 & P1 & P2 & ES & R1 & R2 & L1 & L2 & _ & _ & Told & _).
  assert (X : exists l, e1 = es ++ Push c code b :: l /\ es' = l ++ Handle :: e2).
  { destruct (split_events _ _ _ _ _ _ ES) as [(l & E)|[(_ & E)|E]]; [|discriminate E|exact E]. exfalso.
    assert (RP : P = prun n P2 l).
    { unfold ran in R, R2. destruct (new_gateway id mr rnd [] h) as [w|]; [|discriminate R]. injection R as <-. injection R2 as <-. unfold prun. rewrite <- fold_left_app, <- app_assoc. f_equal. exact E. }
    destruct (grows n l P2) as (g3 & G3). rewrite <- RP, L2 in G3. apply (f_equal dealt_with) in G3. rewrite !dealt_app, D1 in G3. apply (f_equal (@List.length _)) in G3.
    rewrite !app_length in G3. cbn in G3. apply (f_equal (@List.length _)) in W. rewrite app_length in W. lia. }
  destruct X as (l & E1 & E2). subst e1. exists l, e2, P1, cbs, g2. split; [exact E2|]. split; [exact R1|]. split; [rewrite L1; exact G|]. split; [congruence|].
  intros NR. apply Told; [exact NR|]. apply listening_longer; [exact L|]. intros [J|J]; [discriminate J|]. apply NU. rewrite E2. apply in_or_app. left. exact J.
Qed.
Print Assumptions C127_told.
(** Subscribed; the connection is lost; a status call reconnects (which restores the subscription)
    and another call is still waiting for its answer. Then a status message comes on the new
    connection; before its turn that connection is lost too. *)
Definition restored : list event :=
  [Pool.Call (Connect to_adapter)] ++ login_of 0 ++ [Pool.Call (Subscribe 7 12500); reply 1 12523 []; Pool.Call (RegisterHandler 777 1); Pool.Call GetChemistry; Lose 0; Resume 3 KCancelFut clk; done 3; done 3] ++
  login_of 3 ++ [reply 3 12523 []].
Definition a_status : bytes := Messages.wire_status Prop_Decode.some_status.
Definition signed_off_b (g : log) : list nat := flat_map (fun x => match x with By _ (Send c 12524 _) => [c] | _ => [] end) g.
Definition restored_facts (P : Pool.pool) :=
  (m_proto (w_cm (p_world P)), connected 1 (p_world P), c_closing (get_conn 1 (p_world P)), signed_off_b (p_log P), listeners_of 12500 (p_world P), came_in (p_log P), dealt_with (p_log P), outcomes P,
   flat_map (fun x => match x with Applied c code _ cbs => [(c, code, cbs)] | _ => [] end) (p_log (prun 2 P [Push 1 12500 a_status; Lose 1; Handle]))).
Lemma restored_run : option_map restored_facts (ran 2 (Some 777) None 0 its_host restored) =
  Some (Some 1%nat, true, false, [], [7%nat], [], [], [Some (Val tt); Some (Val tt); Some (Val tt); None], [(1%nat, 12500, [7%nat])]).
Proof. vm_compute. reflexivity. Qed.
Lemma signed_off_in c g : signed_off c g -> In c (signed_off_b g).
Proof. intros (i & p & J). apply in_flat_map. exists (By i (Send c 12524 p)). split; [exact J|left; reflexivity]. Qed.
Example C127_nonvacuous : exists P, ran 2 (Some 777) None 0 its_host restored = Some P /\ valid_id (Some 777) 0 /\ undisturbed 12500 restored /\
  listening 2 (Some 777) None 0 its_host restored 7 12500 /\ works_on 1 (p_world P) /\ ~ signed_off 1 (p_log P) /\
  came_in (p_log P) = dealt_with (p_log P) ++ [] /\ (0 + 1 <= handles [Lose 1; Handle])%nat /\ ~ In (Pool.Call (Unsubscribe 7 12500)) [Lose 1; Handle] /\
  (exists t, In t (p_tasks P) /\ forall o, t <> Done o).
Proof.
  pose proof restored_run as F. destruct (ran 2 (Some 777) None 0 its_host restored) as [P|] eqn:R; [|discriminate F]. unfold option_map, restored_facts in F. exists P. split; [reflexivity|].
  split; [cbn; lia|]. split.
  { split; [intros h J|intros J]; unfold restored, login_of, reply, done in J; cbn [app] in J; repeat (destruct J as [J|J]; [discriminate J|]); exact J. }
  split. { rewrite <- (subscribed_now _ _ _ _ _ _ _ _ _ R). replace (listeners_of 12500 (p_world P)) with [7%nat] by congruence. left. reflexivity. }
  split. { split; [congruence|]. split; congruence. }
  split. { intros J. apply signed_off_in in J. replace (signed_off_b (p_log P)) with (@nil nat) in J by congruence. exact J. }
  split. { rewrite app_nil_r. congruence. }
  split; [cbn; lia|]. split; [intros [J|[J|[]]]; discriminate J|].
  assert (O : outcomes P = [Some (Val tt); Some (Val tt); Some (Val tt); None]) by congruence. clear - O. unfold outcomes in O.
  destruct (p_tasks P) as [|t0 [|t1 [|t2 [|t3 [|]]]]]; try discriminate O. exists t3. split; [cbn; auto|]. intros o ->. cbn in O. discriminate O.
Qed.
