(** C128: every message of a subscribed code that comes over the wire is handed to its subscribers.
    Vocabulary: SpecWired.v, SpecHand.v, SpecTold.v, SpecNet.v. *)
From Verif Require Import Py F64 Struct Utf Utility Const Spec Enum Decode Messages Calls World Request Gateway Traces Paths Api Tasks Pool SpecPool Net SpecNet
  P_Base P_Hand Hostile Prop_Request Prop_Gateway Prop_Connect Prop_Pool SpecTold Prop_Told SpecHand Prop_Hand SpecWired Prop_Net.
From Verif Require Client Protocol Prop_Decode Prop_Term P_Dead P_Pool2.

(** What a step on the wire is for the calls. *)
Definition background (e : event) : Prop := match e with Pool.Call _ | Handle => False | _ => True end.
Definition stands_for (e : nevent) (pes : list event) : Prop :=
  match e with
  | NCall c => pes = [Pool.Call c]
  | NHandle => pes = [Handle]
  | NData c _ => exists l, pes = map (fun m => Push c (fst m) (snd m)) l
  | _ => Forall background pes
  end.
Lemma hears_pool l : forall N, n_pool (fold_left hear l N) = n_pool N.
Proof.
  induction l as [|x l IH]; intros N; [reflexivity|]. cbn [fold_left]. rewrite IH.
  assert (F : forall c e N, n_pool (feed c e N) = n_pool N) by (intros c e N0; unfold feed; destruct (nth_error _ _); reflexivity).
  destruct x as [| i [] |[]| |]; cbn [hear note n_pool put_slot]; rewrite ?F; reflexivity.
Qed.
Lemma move_pool n e N : n_pool (move n e N) = pstep n (n_pool N) e.
Proof. unfold move. rewrite hears_pool. reflexivity. Qed.
Lemma feed_pool c e N : n_pool (feed c e N) = n_pool N.
Proof. unfold feed. destruct (nth_error _ _); reflexivity. Qed.
Lemma nstep_pool n N e : exists pes, stands_for e pes /\ n_pool (nstep n N e) = prun n (n_pool N) pes.
Proof.
  assert (Zr : Forall background [] /\ n_pool N = prun n (n_pool N) []) by (split; [constructor|reflexivity]).
  assert (One : forall N' x, n_pool N' = n_pool N -> background x -> Forall background [x] /\ n_pool (move n x N') = prun n (n_pool N) [x]).
  { intros N' x E B. split; [constructor; [exact B|constructor]|]. rewrite move_pool, E. reflexivity. }
  destruct e as [c|i|i k clk|c b|c|c|i|i|i clk|]; cbn [nstep stands_for].
  - exists [Pool.Call c]. split; [reflexivity|]. rewrite move_pool. reflexivity.
  - exists [Enter i]. apply One; [reflexivity|exact Logic.I].
  - destruct (awaits i N) as [[]|]; try (exists []; exact Zr); exists [Resume i k clk]; apply One; try reflexivity; exact Logic.I.
  - assert (Z' : exists pes, (exists l, pes = map (fun m : Z * bytes => Push c (fst m) (snd m)) l) /\ n_pool N = prun n (n_pool N) pes) by (exists []; split; [exists []; reflexivity|reflexivity]).
    destruct (nth_error (n_links N) c) as [s|]; [|exact Z']. destruct (takes_bytes s); [|exact Z'].
    match goal with |- context [fold_left _ ?l ?x] => generalize l as os; assert (E : n_pool x = n_pool N) by (rewrite feed_pool; reflexivity); revert E; generalize x as N' end.
    clear Zr One Z'. intros N' E os. rewrite <- E. clear E N. revert N'. induction os as [|o os IH]; intros N'; cbn [fold_left].
    + exists []. split; [exists []; reflexivity|reflexivity].
    + destruct o as [| | | |m| | |]; try apply IH.
      destruct (IH (shove n c N' (Protocol.OutDropped m))) as (pes & (l & ->) & E). rewrite E. cbn [shove]. rewrite move_pool. replace (n_pool (Net.tell c m N')) with (n_pool N') by (unfold Net.tell; destruct (handler_of _ _ _) as [[]|]; reflexivity).
      eexists. split; [exists ((Protocol.msg_code m, Protocol.msg_data m) :: l); reflexivity|reflexivity].
  - exists [Lose c]. apply One; [reflexivity|exact Logic.I].
  - exists []. rewrite feed_pool. exact Zr.
  - destruct (n_slot N i) as [|c f []|]; exists []; try exact Zr. cbn [put_slot n_pool]. rewrite feed_pool. exact Zr.
  - destruct (n_slot N i) as [|c f h|c j].
    + destruct (awaits i N) as [[]|]; try (destruct (queues i N); [eexists; apply One; [reflexivity|exact Logic.I]|exists []; exact Zr]); eexists; apply One; try reflexivity; exact Logic.I.
    + exists []. cbn [put_slot n_pool]. rewrite feed_pool. exact Zr.
    + exists []. rewrite feed_pool. exact Zr.
  - destruct (n_slot N i) as [|c f h|c j], (awaits i N) as [[]|]; try (exists []; exact Zr).
    + destruct (Protocol.p_closed _); try (exists []; exact Zr); eexists; apply One; try reflexivity; exact Logic.I.
    + destruct (Protocol.fget _ _), h; try (exists []; exact Zr); eexists; apply One; try reflexivity; exact Logic.I.
    + destruct (nth _ _ _) as [fs| | |]; try (exists []; exact Zr). destruct (Protocol.gather_done _ _); [|exists []; exact Zr]. eexists; apply One; [apply feed_pool|exact Logic.I].
  - exists [Handle]. split; [reflexivity|]. rewrite move_pool. reflexivity.
Qed.

Inductive plays (n : nat) : net -> list nevent -> list event -> Prop :=
| plays_nil N : plays n N [] []
| plays_cons N e es p ps : stands_for e p -> n_pool (nstep n N e) = prun n (n_pool N) p -> plays n (nstep n N e) es ps -> plays n N (e :: es) (p ++ ps).
Lemma plays_some n es : forall N, exists ps, plays n N es ps.
Proof.
  induction es as [|e es IH]; intros N; [exists []; constructor|]. destruct (nstep_pool n N e) as (p & S & E), (IH (nstep n N e)) as (ps & P). exists (p ++ ps). constructor; auto.
Qed.
Lemma plays_pool n N es ps : plays n N es ps -> n_pool (nrun n N es) = prun n (n_pool N) ps.
Proof. intros P. induction P as [N|N e es p ps S E P IH]; [reflexivity|]. unfold nrun, prun in *. cbn [fold_left]. rewrite fold_left_app, IH, E. reflexivity. Qed.
Lemma plays_app n es es' : forall N ps ps', plays n N es ps -> plays n (nrun n N es) es' ps' -> plays n N (es ++ es') (ps ++ ps').
Proof.
  intros N ps ps' P. revert es' ps'. induction P as [N|N e es p ps S E P IH]; intros es' ps' P'; [exact P'|]. rewrite <- app_assoc. cbn [app]. constructor; auto.
Qed.
Lemma stands_in e p x : stands_for e p -> In x p -> match x with Pool.Call c => e = NCall c | Handle => e = NHandle | _ => True end.
Proof.
  intros S J. destruct e; cbn [stands_for] in S; try (rewrite Forall_forall in S; specialize (S _ J); destruct x; try exact Logic.I; contradiction).
  - subst p. destruct J as [<-|[]]. reflexivity.
  - destruct S as (l & ->). apply in_map_iff in J. destruct J as (m & <- & _). exact Logic.I.
  - subst p. destruct J as [<-|[]]. reflexivity.
Qed.
Lemma plays_call n N es ps c : plays n N es ps -> In (Pool.Call c) ps -> In (NCall c) es.
Proof.
  intros P. induction P as [N|N e es p ps S E P IH]; [intros []|]. intros J. apply in_app_or in J. destruct J as [J|J]; [left; exact (stands_in _ _ _ S J)|right; auto].
Qed.
Lemma plays_handles n N es ps : plays n N es ps -> handles ps = handled_n es.
Proof.
  intros P. induction P as [N|N e es p ps S E P IH]; [reflexivity|]. unfold handles, handled_n in *. rewrite filter_app, app_length, IH. cbn [filter].
  assert (Z : (forall x, In x p -> x <> Handle) -> filter (fun e => match e with Handle => true | _ => false end) p = []).
  { clear. induction p as [|x p IH]; intros H; [reflexivity|]. cbn [filter]. rewrite IH by (intros y J; apply H; right; exact J). destruct x; try reflexivity. exfalso. apply (H Handle); [left; reflexivity|reflexivity]. }
  destruct e; try (rewrite Z; [reflexivity|intros x J ->; pose proof (stands_in _ _ _ S J) as X; discriminate X]). cbn in S. subst p. reflexivity.
Qed.
(** where a task made for a handler ran *)
Lemma plays_at n N es ps e1 e2 : plays n N es ps -> ps = e1 ++ Handle :: e2 -> exists f1 f2, es = f1 ++ NHandle :: f2 /\ plays n N f1 e1.
Proof.
  intros P. revert e1. induction P as [N|N e es p ps S E P IH]; intros e1 EQ; [destruct e1; discriminate EQ|].
  assert (X : (exists l, p = e1 ++ Handle :: l) \/ (exists l, e1 = p ++ l /\ ps = l ++ Handle :: e2)).
  { clear - EQ. revert e1 EQ. induction p as [|x p IHp]; intros e1 EQ; [right; exists e1; split; [reflexivity|exact EQ]|]. destruct e1 as [|y e1]; cbn [app] in EQ; injection EQ as -> EQ.
    - left. exists p. reflexivity.
    - destruct (IHp _ EQ) as [(l & ->)|(l & -> & ->)]; [left|right]; exists l; [reflexivity|split; reflexivity]. }
  destruct X as [(l & ->)|(l & -> & EQ')].
  - assert (J : In Handle (e1 ++ Handle :: l)) by (apply in_or_app; right; left; reflexivity). pose proof (stands_in _ _ _ S J) as X. cbn in X. subst e. cbn [stands_for] in S.
    destruct e1 as [|x [|]]; try discriminate S. exists [], es. split; [reflexivity|constructor].
  - destruct (IH _ EQ') as (f1 & f2 & -> & P'). exists (e :: f1), f2. split; [reflexivity|]. constructor; auto.
Qed.

Section Runs.
  Context (n : nat) (id mr : option Z) (rnd : Z) (h : host).
  (** the calls of a run on the wire, as a run of Pool.v *)
  Definition in_calls (es : list nevent) (ps : list event) : Prop := exists w, new_gateway id mr rnd [] h = Ok w /\ plays n (nstart w) es ps.
  Lemma in_calls_some es N : on_wire n id mr rnd h es = Some N -> exists ps, in_calls es ps.
  Proof. unfold on_wire, in_calls. destruct (new_gateway id mr rnd [] h) as [w|]; [|discriminate]. intros _. destruct (plays_some n es (nstart w)) as (ps & P). exists ps, w. auto. Qed.
  Lemma in_calls_ran es ps N : in_calls es ps -> on_wire n id mr rnd h es = Some N -> ran n id mr rnd h ps = Some (n_pool N).
  Proof. unfold on_wire, in_calls, ran. intros (w & -> & P) E. injection E as <-. f_equal. rewrite (plays_pool _ _ _ _ P). reflexivity. Qed.
  Lemma on_wire_app es es' N : on_wire n id mr rnd h es = Some N -> on_wire n id mr rnd h (es ++ es') = Some (nrun n N es').
  Proof. unfold on_wire. destruct (new_gateway id mr rnd [] h) as [w|]; [|discriminate]. intros E. injection E as <-. unfold nrun. rewrite fold_left_app. reflexivity. Qed.
  Lemma in_calls_app es es' N ps ps' : on_wire n id mr rnd h es = Some N -> in_calls es ps -> plays n N es' ps' -> in_calls (es ++ es') (ps ++ ps').
  Proof. unfold on_wire, in_calls. intros E (w & W & P) P'. rewrite W in E. injection E as <-. exists w. split; [exact W|]. eapply plays_app; eassumption. Qed.
  Lemma calls_undisturbed es ps code : in_calls es ps -> unmeddled code es -> undisturbed code ps.
  Proof. intros (w & _ & P) (U1 & U2). split; [intros u J; apply (U1 u)|intros J; apply U2]; exact (plays_call _ _ _ _ _ P J). Qed.
  Lemma calls_listening es N cb code : on_wire n id mr rnd h es = Some N -> tuned_in n id mr rnd h es cb code -> exists ps, in_calls es ps /\ listening n id mr rnd h ps cb code.
  Proof.
    intros R (e1 & e2 & N1 & -> & R1 & A & NU). destruct (in_calls_some _ _ R1) as (p1 & I1). destruct (plays_some n e2 (nstep n N1 (NCall (Subscribe cb code)))) as (p2 & P2).
    assert (PL : plays n N1 (NCall (Subscribe cb code) :: e2) ([Pool.Call (Subscribe cb code)] ++ p2)) by (constructor; [reflexivity|cbn [nstep]; rewrite move_pool; reflexivity|exact P2]).
    exists (p1 ++ Pool.Call (Subscribe cb code) :: p2). split; [exact (in_calls_app _ _ _ _ _ R1 I1 PL)|]. exists p1, p2, (n_pool N1). split; [reflexivity|]. split; [exact (in_calls_ran _ _ _ I1 R1)|].
    split; [exact A|]. intros J. apply NU. exact (plays_call _ _ _ _ _ P2 J).
  Qed.
End Runs.

Lemma handed_over n id mr rnd h es P cb code c d : ran n id mr rnd h es = Some P -> valid_id id rnd -> undisturbed code es ->
  listening n id mr rnd h es cb code -> works_on c (p_world P) -> ~ signed_off c (p_log P) -> subscribed c (p_world P) (code, d) = true.
Proof.
  intros R VI U L W S. pose proof (C127_handed _ _ _ _ _ _ _ _ _ _ d R VI U L W S) as H. cbn [pstep] in H. unfold subscribed. cbn [fst].
  destruct (handler_of c code (p_world P)) as [[k|u]|]; [reflexivity| |]; exfalso; apply (f_equal (fun P => List.length (p_log P))) in H; cbn [p_log] in H; rewrite app_length in H; cbn in H; lia.
Qed.
Lemma filter_filter_sub {X} (f g : X -> bool) l : (forall x, g x = true -> f x = true) -> filter g (filter f l) = filter g l.
Proof. intros H. induction l as [|x l IH]; [reflexivity|]. cbn [filter]. destruct (f x) eqn:F; cbn [filter]; rewrite IH; [reflexivity|]. destruct (g x) eqn:G; [apply H in G; congruence|reflexivity]. Qed.

(** Bytes arrive: each message they complete that answers no request and has the code of a
    subscription is handed to the client manager, once and in order. *)
Theorem C128_handed n id mr rnd h es N cb code c b : on_wire n id mr rnd h es = Some N -> octets es -> valid_id id rnd -> unmeddled code es ->
  tuned_in n id mr rnd h es cb code -> works_on c (p_world (n_pool N)) -> ~ signed_off c (apis (n_log N)) ->
  exists new, unasked c (n_log (nstep n N (NData c b))) = unasked c (n_log N) ++ new /\
    of_code code (pushed c (n_log (nstep n N (NData c b)))) = of_code code (pushed c (n_log N)) ++ of_code code new.
Proof.
  intros R O VI U T W S. destruct (C116_all n id mr rnd h es N c b R) as (new & A & B). exists new. split; [exact A|]. rewrite B. unfold of_code. rewrite filter_app. f_equal.
  apply filter_filter_sub. intros (k & d) E. cbn [fst] in E. apply Z.eqb_eq in E. subst k.
  destruct (calls_listening _ _ _ _ _ _ _ _ _ R T) as (ps & I & L). destruct (C112_calls _ _ _ _ _ _ _ R O) as (_ & _ & LG). rewrite <- LG in S.
  eapply handed_over; [exact (in_calls_ran _ _ _ _ _ _ _ _ I R)|exact VI|exact (calls_undisturbed _ _ _ _ _ _ _ _ I U)|exact L|exact W|exact S].
Qed.
Print Assumptions C128_handed.

(** pushes change nothing but the log *)
Lemma pushes_add n c l : forall P, exists l', p_world (prun n P (map (fun m => Push c (fst m) (snd m)) l)) = p_world P /\
  came_in (p_log (prun n P (map (fun m => Push c (fst m) (snd m)) l))) = came_in (p_log P) ++ on_conn c l' /\
  dealt_with (p_log (prun n P (map (fun m => Push c (fst m) (snd m)) l))) = dealt_with (p_log P).
Proof.
  induction l as [|m l IH]; intros P; [exists []; cbn; rewrite app_nil_r; auto|]. unfold prun in *. cbn [map fold_left].
  destruct (IH (pstep n P (Push c (fst m) (snd m)))) as (l' & A & B & D).
  assert (X : pstep n P (Push c (fst m) (snd m)) = P \/ pstep n P (Push c (fst m) (snd m)) = mkPool (p_world P) (p_tasks P) (p_log P ++ [Pushed c (fst m) (snd m)])).
  { cbn [pstep]. destruct (handler_of _ _ _) as [[]|]; auto. }
  destruct X as [X|X]; rewrite X in *; [exists l'; auto|]. exists (m :: l'). cbn [p_world p_log] in *. rewrite A, B, D, came_app, dealt_app. cbn. rewrite app_nil_r, <- app_assoc. auto.
Qed.
Lemma pushed_of c g : pushed c g = of_conn c (came_in (apis g)).
Proof.
  unfold pushed, of_conn, came_in. induction (apis g) as [|x l IH]; [reflexivity|]. cbn [flat_map]. rewrite flat_map_app, <- IH. destruct x; try reflexivity. cbn [flat_map fst snd app]. destruct (Nat.eqb _ _); reflexivity.
Qed.
Lemma of_conn_on c l : of_conn c (on_conn c l) = l.
Proof. unfold of_conn, on_conn. induction l as [|m l IH]; [reflexivity|]. cbn [map flat_map fst snd]. rewrite Nat.eqb_refl, IH. destruct m. reflexivity. Qed.
Lemma of_conn_app c l l' : of_conn c (l ++ l') = of_conn c l ++ of_conn c l'.
Proof. apply flat_map_app. Qed.

Lemma ran_turn n id mr rnd h es P : ran n id mr rnd h es = Some P -> in_turn (p_log P).
Proof. unfold ran. destruct (new_gateway id mr rnd [] h) as [w|]; [|discriminate]. intros R. injection R as <-. apply turn_run. Qed.
(** the turn of a message comes *)
Lemma turn n id mr rnd h es P cb code c b es' a more : ran n id mr rnd h es = Some P -> listening n id mr rnd h es cb code ->
  came_in (p_log P) = a ++ (c, code, b) :: more -> (List.length (dealt_with (p_log P)) <= List.length a)%nat ->
  (List.length (came_in (p_log P)) <= List.length (dealt_with (p_log P)) + handles es')%nat -> ~ In (Pool.Call (Unsubscribe cb code)) es' ->
  exists e1 e2 P1 cbs g, es' = e1 ++ Handle :: e2 /\ ran n id mr rnd h (es ++ e1) = Some P1 /\
    p_log (prun n P es') = p_log P1 ++ Applied c code b cbs :: g /\ dealt_with (p_log P1) = a /\
    (~ unreadable code b (w_data (p_world P1)) -> In cb cbs).
Proof.
  intros R L C LA K NU. destruct (ran_turn _ _ _ _ _ _ _ R) as (waiting & W).
  destruct (C125_served _ _ _ _ _ _ _ es' waiting R W) as (more' & D).
  { pose proof (f_equal (@List.length _) W) as X. rewrite app_length in X. lia. }
  rewrite C, <- app_assoc in D. cbn [app] in D. destruct (dealt_split _ _ _ _ D) as (g1 & cbs & g2 & G & D1). cbn [fst snd] in G.
  assert (RF : ran n id mr rnd h (es ++ es') = Some (prun n P es')).
  { unfold ran in *. destruct (new_gateway id mr rnd [] h) as [w|]; [|discriminate R]. injection R as <-. unfold prun. rewrite !fold_left_app. reflexivity. }
  destruct (C126_told _ _ _ _ _ _ _ _ _ _ _ _ _ RF G) as (e1 & e2 & P1 & P2 & ES & R1 & R2 & L1 & L2 & _ & _ & Told & _).
  assert (X : exists l, e1 = es ++ l /\ es' = l ++ Handle :: e2).
  { assert (Y : (exists l, es = e1 ++ Handle :: l) \/ (exists l, e1 = es ++ l /\ es' = l ++ Handle :: e2)).
    { clear - ES. revert e1 ES. induction es as [|x p IHp]; intros e1 EQ; [right; exists e1; split; [reflexivity|exact EQ]|]. destruct e1 as [|y e1]; cbn [app] in EQ; injection EQ as -> EQ.
      - left. exists p. reflexivity.
      - destruct (IHp _ EQ) as [(l & ->)|(l & -> & ->)]; [left|right]; exists l; [reflexivity|split; reflexivity]. }
    destruct Y as [(l & E)|Y]; [|exact Y]. exfalso.
    assert (RP : P = prun n P2 l).
    { unfold ran in R, R2. destruct (new_gateway id mr rnd [] h) as [w|]; [|discriminate R]. injection R as <-. injection R2 as <-. unfold prun. rewrite <- fold_left_app, <- app_assoc. f_equal. exact E. }
    destruct (grows n l P2) as (g3 & G3). rewrite <- RP, L2 in G3. apply (f_equal dealt_with) in G3. rewrite !dealt_app, D1 in G3. apply (f_equal (@List.length _)) in G3.
    rewrite !app_length in G3. cbn in G3. lia. }
  destruct X as (l & E1 & E2). subst e1. exists l, e2, P1, cbs, g2. split; [exact E2|]. split; [exact R1|]. split; [rewrite L1; exact G|]. split; [congruence|].
  intros NR. apply Told; [exact NR|]. apply listening_longer; [exact L|]. intros J. apply NU. rewrite E2. apply in_or_app. left. exact J.
Qed.

(** ... and when the turn of such a message has come its subscriber is told of it: of every one of
    them, whatever happens in between, as long as it is not unsubscribed. *)
Theorem C128_told n id mr rnd h es N cb code c b es' : on_wire n id mr rnd h es = Some N -> octets (es ++ NData c b :: es') -> valid_id id rnd -> unmeddled code es ->
  tuned_in n id mr rnd h es cb code -> works_on c (p_world (n_pool N)) -> ~ signed_off c (apis (n_log N)) ->
  let N' := nstep n N (NData c b) in
  (List.length (came_in (apis (n_log N'))) <= List.length (dealt_with (apis (n_log N'))) + handled_n es')%nat -> ~ In (NCall (Unsubscribe cb code)) es' ->
  exists new, unasked c (n_log N') = unasked c (n_log N) ++ new /\
  forall l1 d l2, new = l1 ++ (code, d) :: l2 ->
    exists e1 e2 N1 cbs g, es' = e1 ++ NHandle :: e2 /\ on_wire n id mr rnd h (es ++ NData c b :: e1) = Some N1 /\
      apis (n_log (nrun n N' es')) = apis (n_log N1) ++ Applied c code d cbs :: g /\
      (exists mine, dealt_with (apis (n_log N1)) = came_in (apis (n_log N)) ++ on_conn c mine /\ of_code code mine = of_code code l1) /\
      (~ unreadable code d (w_data (p_world (n_pool N1))) -> In cb cbs).
Proof.
  intros R O VI U T W S N' K NU. destruct (C116_all n id mr rnd h es N c b R) as (new & A & B). exists new. split; [exact A|]. intros l1 d l2 ->.
  assert (Oes : octets es) by (intros c0 b0 J; apply (O c0 b0), in_or_app; left; exact J).
  destruct (calls_listening _ _ _ _ _ _ _ _ _ R T) as (ps & I & L). destruct (C112_calls _ _ _ _ _ _ _ R Oes) as (_ & _ & LG). rewrite <- LG in S.
  pose proof (in_calls_ran _ _ _ _ _ _ _ _ I R) as RP.
  destruct (nstep_pool n N (NData c b)) as (p & (l & ->) & EP). set (p := map (fun m : Z * bytes => Push c (fst m) (snd m)) l) in *. fold N' in EP, A, B.
  assert (R' : on_wire n id mr rnd h (es ++ [NData c b]) = Some N') by (exact (on_wire_app _ _ _ _ _ _ [NData c b] _ R)).
  assert (O' : octets (es ++ [NData c b])) by (intros c0 b0 J; apply (O c0 b0); rewrite in_app_iff in *; cbn [In] in *; tauto).
  destruct (C112_calls _ _ _ _ _ _ _ R' O') as (_ & _ & LG').
  assert (I' : in_calls n id mr rnd h (es ++ [NData c b]) (ps ++ p)).
  { replace p with (p ++ []) by apply app_nil_r. eapply in_calls_app; [exact R|exact I|]. constructor; [exists l; reflexivity|exact EP|constructor]. }
  pose proof (in_calls_ran _ _ _ _ _ _ _ _ I' R') as RP'.
  destruct (pushes_add n c l (n_pool N)) as (l' & Wd & Cm & Dl). fold p in Wd, Cm, Dl. rewrite <- EP in Wd, Cm, Dl.
  assert (EL : l' = filter (subscribed c (p_world (n_pool N))) (l1 ++ (code, d) :: l2)).
  { rewrite !pushed_of, <- LG, <- LG', Cm, of_conn_app, of_conn_on in B. apply app_inv_head in B. exact B. }
  rewrite filter_app in EL. cbn [filter] in EL. rewrite (handed_over _ _ _ _ _ _ _ _ _ _ d RP VI (calls_undisturbed _ _ _ _ _ _ _ _ I U) L W S) in EL.
  destruct (plays_some n es' N') as (p' & PL).
  assert (LL : listening n id mr rnd h (ps ++ p) cb code) by (apply listening_longer; [exact L|]; intros J; apply in_map_iff in J; destruct J as (m & J & _); discriminate J).
  rewrite <- LG' in K. rewrite EL in Cm. unfold on_conn in Cm. rewrite map_app in Cm. cbn [map fst snd] in Cm. rewrite app_assoc in Cm.
  destruct (ran_turn _ _ _ _ _ _ _ RP) as (waiting & Wt).
  destruct (turn n id mr rnd h (ps ++ p) _ cb code c d p' _ _ RP' LL Cm) as (e1 & e2 & P1 & cbs & g & E1 & R1 & G & D1 & Tell).
  { rewrite Dl, app_length. apply (f_equal (@List.length _)) in Wt. rewrite app_length in Wt. lia. }
  { rewrite (plays_handles _ _ _ _ PL). exact K. }
  { intros J. apply NU. exact (plays_call _ _ _ _ _ PL J). }
  destruct (plays_at _ _ _ _ _ _ PL E1) as (f1 & f2 & F & PL1).
  pose proof (on_wire_app _ _ _ _ _ _ f1 _ R') as RN. rewrite <- app_assoc in RN. cbn [app] in RN.
  assert (IN : in_calls n id mr rnd h ((es ++ [NData c b]) ++ f1) ((ps ++ p) ++ e1)) by (eapply in_calls_app; eassumption).
  rewrite <- (app_assoc es) in IN. cbn [app] in IN. pose proof (in_calls_ran _ _ _ _ _ _ _ _ IN RN) as RQ. rewrite R1 in RQ. injection RQ as ->.
  assert (O1 : octets (es ++ NData c b :: f1)) by (intros c0 b0 J; apply (O c0 b0); rewrite F; rewrite !in_app_iff in *; cbn [In] in *; rewrite !in_app_iff; tauto).
  destruct (C112_calls _ _ _ _ _ _ _ RN O1) as (_ & _ & LG1).
  pose proof (on_wire_app _ _ _ _ _ _ es' _ R') as RF. rewrite <- app_assoc in RF. cbn [app] in RF. destruct (C112_calls _ _ _ _ _ _ _ RF O) as (_ & _ & LGF).
  exists f1, f2, (nrun n N' f1), cbs, g. split; [exact F|]. split; [exact RN|]. split; [rewrite <- LGF, <- LG1, (plays_pool _ _ _ _ PL); exact G|].
  rewrite <- LG1, <- LG.
  split; [|exact Tell]. eexists. split; [exact D1|]. unfold of_code. apply filter_filter_sub. intros (k & e) X. cbn [fst] in X. apply Z.eqb_eq in X. subst k.
  eapply handed_over; [exact RP|exact VI|exact (calls_undisturbed _ _ _ _ _ _ _ _ I U)|exact L|exact W|exact S].
Qed.
Print Assumptions C128_told.
(** Subscribed; a chemistry request is waiting for its answer. Two status messages come, cut into
    two pieces in the middle of the first one; before their turn the connection is lost. *)
Definition a_push : bytes := frame (0, 12500, a_status).
Definition half_heard : list nevent := push_run ++ [NCall GetChemistry; NData 0 (firstn 100 a_push)].
Definition the_rest : bytes := skipn 100 a_push ++ frame (0, 12505, [1]) ++ a_push.
Definition then_lost : list nevent := [NLose 0; NHandle; NHandle].
Definition subscribers (g : list line) := flat_map (fun x => match x with Applied c code _ cbs => [(c, code, cbs)] | _ => [] end) (apis g).
Definition split_facts (N : net) :=
  (m_proto (w_cm (p_world (n_pool N))), connected 0 (p_world (n_pool N)), c_closing (get_conn 0 (p_world (n_pool N))), signed_off_b (apis (n_log N)),
   (map fst (unasked 0 (n_log N)), map fst (unasked 0 (n_log (nstep 2 N (NData 0 the_rest))))),
   (List.length (came_in (apis (n_log (nstep 2 N (NData 0 the_rest))))), List.length (dealt_with (apis (n_log (nstep 2 N (NData 0 the_rest)))))),
   subscribers (n_log (nrun 2 (nstep 2 N (NData 0 the_rest)) then_lost))).
Lemma split_run : option_map split_facts (on_wire 2 (Some 777) None 0 its_host half_heard) =
  Some (Some 0%nat, true, false, [], ([], [12500; 12505; 12500]), (2%nat, 0%nat), [(0%nat, 12500, [9%nat]); (0%nat, 12500, [9%nat])]).
Proof. vm_compute. reflexivity. Qed.
Lemma login_attached : option_map (fun N => attached (p_world (n_pool N))) (on_wire 2 (Some 777) None 0 its_host wire_login) = Some true.
Proof. vm_compute. reflexivity. Qed.
Example C128_nonvacuous : exists N, on_wire 2 (Some 777) None 0 its_host half_heard = Some N /\ octets (half_heard ++ NData 0 the_rest :: then_lost) /\ valid_id (Some 777) 0 /\
  unmeddled 12500 half_heard /\ tuned_in 2 (Some 777) None 0 its_host half_heard 9 12500 /\ works_on 0 (p_world (n_pool N)) /\ ~ signed_off 0 (apis (n_log N)) /\
  (let N' := nstep 2 N (NData 0 the_rest) in
   (List.length (came_in (apis (n_log N'))) <= List.length (dealt_with (apis (n_log N'))) + handled_n then_lost)%nat /\ map fst (unasked 0 (n_log N')) = [12500; 12505; 12500] /\
   subscribers (n_log (nrun 2 N' then_lost)) = [(0%nat, 12500, [9%nat]); (0%nat, 12500, [9%nat])]) /\
  ~ In (NCall (Unsubscribe 9 12500)) then_lost.
Proof.
  pose proof split_run as F. destruct (on_wire 2 (Some 777) None 0 its_host half_heard) as [N|] eqn:R; [|discriminate F]. unfold option_map, split_facts in F. exists N. split; [reflexivity|].
  split; [apply octets_ok; vm_compute; reflexivity|]. split; [cbn; lia|]. split.
  { split; [intros h J|intros J]; unfold half_heard, push_run in J; repeat (apply in_app_or in J; destruct J as [J|J]); cbn [In] in J;
      repeat (destruct J as [J|J]; [discriminate J|]); try exact J; unfold wire_login in J; cbn [In app] in J; repeat (destruct J as [J|J]; [discriminate J|]); exact J. }
  split.
  { pose proof login_attached as A. destruct (on_wire 2 (Some 777) None 0 its_host wire_login) as [N1|] eqn:R1; [|discriminate A]. unfold option_map in A.
    exists wire_login, ([arrive 4 12523 []; NResume 1 clk] ++ [NCall GetChemistry; NData 0 (firstn 100 a_push)]), N1.
    split; [unfold half_heard, push_run; rewrite <- app_assoc; reflexivity|]. split; [exact R1|]. split; [congruence|].
    intros J. cbn [app In] in J. repeat (destruct J as [J|J]; [discriminate J|]). exact J. }
  split. { split; [congruence|]. split; congruence. }
  split. { intros J. apply signed_off_in in J. replace (signed_off_b (apis (n_log N))) with (@nil nat) in J by congruence. exact J. }
  cbn zeta. set (N' := nstep 2 N (NData 0 the_rest)) in *.
  assert (F1 : List.length (came_in (apis (n_log N'))) = 2%nat) by congruence. assert (F2 : List.length (dealt_with (apis (n_log N'))) = 0%nat) by congruence.
  assert (F3 : map fst (unasked 0 (n_log N')) = [12500; 12505; 12500]) by congruence. assert (F4 : subscribers (n_log (nrun 2 N' then_lost)) = [(0%nat, 12500, [9%nat]); (0%nat, 12500, [9%nat])]) by congruence.
  split; [split; [rewrite F1, F2; cbn; lia|split; [exact F3|exact F4]]|]. intros J. cbn [In then_lost] in J. repeat (destruct J as [J|J]; [discriminate J|]). exact J.
Qed.
