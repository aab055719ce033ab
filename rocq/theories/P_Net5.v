(** The invariant of Net.v, kept by every event. *)
From Verif Require Import Py F64 Struct Utf Utility Const Spec Enum Decode Messages Calls World Request Gateway Traces Paths Api Tasks Pool SpecPool Net SpecNet P_Base P_Util.
From Verif Require Import P_Net1 P_Net2 P_Net3 P_Net4.
From Verif Require Protocol P_Proto1 P_Proto2 P_Proto3 P_Pool P_Pool2 Prop_Pool.
Import Protocol(pstate, pout, pevent, OutRequest, OutWrite, OutCompleted, EvData, EvRequest, EvClose, EvLost).

(** task [i] has asked on [c] under request number [f], and only waits since *)
Definition requested (g : list line) (i c f : nat) : Prop :=
  exists ga X p id gb,
    g = ga ++ Api (By i (Send c X p)) :: Wire c (OutRequest f id X p) :: Wire c (OutWrite (frame (id, X, p))) :: gb /\
    own i (apis gb) = [AwaitReply c 2000] /\ 0 <= id <= 32766 /\ (forall m, ~ In (OutCompleted f m) (wires c ga)) /\ heard c ga.
Lemma own_app i a b : own i (a ++ b) = own i a ++ own i b. Proof. apply flat_map_app. Qed.
Lemma requested_more g i c f extra : requested g i c f -> own i (apis extra) = [] -> requested (g ++ extra) i c f.
Proof.
  intros (ga & X & p & id & gb & -> & O & B & N) E. exists ga, X, p, id, (gb ++ extra). split; [rewrite <- app_assoc; reflexivity|].
  rewrite apis_app, own_app, E, app_nil_r. auto.
Qed.

Definition gots (g : list line) : Prop := forall g1 i r g2 code b, g = g1 ++ Api (By i (Got r)) :: g2 -> answer_of r = Some (code, b) ->
  exists c k, exchange g1 i code b c k.
Lemma gots_more g extra : gots g -> (forall i r, ~ In (Api (By i (Got r))) extra) -> gots (g ++ extra).
Proof.
  intros G N g1 i r g2 code b E A. destruct (P_Pool.split_app _ _ _ _ _ E) as [(g3 & K)|(g3 & _ & K)]; [eapply G; eassumption|].
  destruct (N i r). rewrite K. apply in_or_app. right. left. reflexivity.
Qed.

(** every message was written at once *)
Definition sends (g : list line) : Prop := forall g1 i c X p g2, g = g1 ++ Api (By i (Send c X p)) :: g2 ->
  exists g3, let f := List.length (sent c g1) in let id := Z.of_nat f mod 32767 in
    g2 = Wire c (OutRequest f id X p) :: Wire c (OutWrite (frame (id, X, p))) :: g3.
Lemma sends_more g extra : sends g -> (forall i c X p, ~ In (Api (By i (Send c X p))) extra) -> sends (g ++ extra).
Proof.
  intros G N g1 i c X p g2 E. destruct (P_Pool.split_app _ _ _ _ _ E) as [(g3 & K)|(g3 & _ & K)].
  - subst g. rewrite <- app_assoc in E. apply app_inv_head in E. injection E as E. destruct (G g1 i c X p g3 eq_refl) as (g4 & ->). subst g2. eexists. reflexivity.
  - destruct (N i c X p). rewrite K. apply in_or_app. right. left. reflexivity.
Qed.
Lemma lk_heard c s g : lk c s g -> heard c g.
Proof. intros K. destruct (linked_frames c s g (L_linked _ _ _ K)) as (A & B & C). exists (Protocol.p_buff s). auto. Qed.
Lemma no_send_wire c os : forall i c' X p, ~ In (Api (By i (Send c' X p))) (map (Wire c) os).
Proof. intros i c' X p J. apply in_map_iff in J. destruct J as (o & J & _). discriminate J. Qed.

Section Run.
  Variables (n : nat) (cid mr : option Z) (rnd : Z) (h : host) (w0 : world).
  Hypothesis W0 : new_gateway cid mr rnd [] h = Ok w0.

  Record good (N : net) (rest : Pool.log) : Prop := {
    G_run : exists es, n_pool N = Pool.prun n (start w0) es;
    G_log : apis (n_log N) ++ rest = p_log (n_pool N);
    G_len : List.length (n_links N) = List.length (w_conns (p_world (n_pool N)));
    G_wired : wired (n_links N) (n_log N);
    G_got : gots (n_log N);
    G_sends : sends (n_log N) }.
  Definition slot_ok (N : net) (i : nat) : Prop := forall c f x, n_slot N i = ForReply c f x ->
    (exists k, nth_error (p_tasks (n_pool N)) i = Some (Wait (AwaitReply c 2000) k)) /\ requested (n_log N) i c f.

  Lemma ran_of0 P : (exists es, P = Pool.prun n (start w0) es) -> exists es, Prop_Pool.ran n cid mr rnd h es = Some P.
  Proof. intros (es & E). exists es. unfold Prop_Pool.ran. rewrite W0, E. reflexivity. Qed.
  Lemma ran_of N rest : good N rest -> exists es, Prop_Pool.ran n cid mr rnd h es = Some (n_pool N).
  Proof. intros G. destruct (G_run _ _ G) as (es & E). exists es. unfold Prop_Pool.ran. rewrite W0, E. reflexivity. Qed.
  Lemma run_fine es : all_fine (Pool.prun n (start w0) es).
  Proof.
    assert (K : forall P, all_fine P -> all_fine (Pool.prun n P es)).
    { induction es as [|e l IH]; intros P A; [exact A|]. cbn [Pool.prun fold_left]. apply IH. apply (pool_moved n P e A). }
    apply K. intros m [].
  Qed.

  (** hearing an entry that is neither a message nor an answer *)
  Lemma hear_quiet N x rest : good N (x :: rest) -> quiet x ->
    good (hear N x) rest /\ n_pool (hear N x) = n_pool N /\
    (exists extra, n_log (hear N x) = n_log N ++ Api x :: extra /\ apis extra = []) /\
    (forall i, own i [x] = [] -> n_slot (hear N x) i = n_slot N i) /\
    (forall i, (forall c f z, n_slot N i <> ForReply c f z) -> forall c f z, n_slot (hear N x) i <> ForReply c f z).
  Proof.
    intros G Q. destruct G as [R L Le Wd Go Se].
    assert (Xs0 : forall c, sent c [Api x] = []) by (intros c; unfold sent; cbn [apis flat_map app]; destruct x as [| ? []| | |]; try reflexivity; destruct Q).
    assert (Xq : forall c, ~ is_lost c x -> mute c [Api x]).
    { intros c NL. split; [reflexivity|]. split; [reflexivity|]. split; [apply Xs0|]. intros y [<-|[]]. exact NL. }
    assert (Xg : forall i r, ~ In (Api (By i (Got r))) [Api x]).
    { intros i r [E|[]]. injection E as ->. destruct Q. }
    assert (Xs : forall i c X p, ~ In (Api (By i (Send c X p))) [Api x]).
    { intros i c X p [E|[]]. injection E as ->. destruct Q. }
    assert (Plain : (forall c, ~ is_lost c x) -> good (note (Api x) N) rest).
    { intros NL. split; cbn [note n_pool n_log n_links]; [exact R| |exact Le|apply wired_other; auto|apply gots_more; assumption|apply sends_more; assumption].
      rewrite apis_app, <- app_assoc. exact L. }
    assert (Fed : forall c e, P_Proto2.wf_event e -> tells e = true -> (forall X p, e <> EvRequest X p) -> (forall b, e <> EvData b) ->
      (forall f, e = EvClose f -> exists j f', In (By j (AwaitFutures c f')) (apis (n_log N ++ [Api x]))) ->
      (e = EvLost -> exists y, In y (apis (n_log N ++ [Api x])) /\ is_lost c y) ->
      (is_lost c x -> e = EvLost) -> (forall c', c' <> c -> ~ is_lost c' x) -> (nth_error (n_links N) c = None -> ~ is_lost c x) ->
      good (feed c e (note (Api x) N)) rest /\ n_pool (feed c e (note (Api x) N)) = n_pool N /\
      (exists extra, n_log (feed c e (note (Api x) N)) = n_log N ++ Api x :: extra /\ apis extra = []) /\ n_slot (feed c e (note (Api x) N)) = n_slot N).
    { intros c e We T NR ND X4 X5 X6 X7 X8. unfold feed. cbn [note n_links n_log n_pool n_slot].
      destruct (nth_error (n_links N) c) as [s|] eqn:E.
      - split; [|split; [reflexivity|split; [|reflexivity]]].
        + split; cbn [n_pool n_log n_links]; [exact R| |rewrite lset_size; exact Le| | |].
          * rewrite !apis_app, apis_wire, app_nil_r, <- app_assoc. exact L.
          * apply wired_step; auto; [destruct e; try reflexivity; destruct (ND b eq_refl)|]. intros y [<-|[]]. exact X6.
          * apply gots_more; [apply gots_more; assumption|]. intros i r J. apply in_map_iff in J. destruct J as (o & J & _). discriminate J.
          * apply sends_more; [apply sends_more; assumption|apply no_send_wire].
        + exists (map (Wire c) (new_of s e)). rewrite <- app_assoc. split; [reflexivity|apply apis_wire].
      - split; [apply Plain; intros c'; destruct (Nat.eq_dec c' c) as [->|NE]; auto|]. split; [reflexivity|]. split; [exists []; split; reflexivity|reflexivity]. }
    assert (Note : (forall c, ~ is_lost c x) -> good (note (Api x) N) rest /\ n_pool (note (Api x) N) = n_pool N /\
      (exists extra, n_log (note (Api x) N) = n_log N ++ Api x :: extra /\ apis extra = []) /\
      (forall i, own i [x] = [] -> n_slot (note (Api x) N) i = n_slot N i) /\
      (forall i, (forall c f z, n_slot N i <> ForReply c f z) -> forall c f z, n_slot (note (Api x) N) i <> ForReply c f z)).
    { intros NL. split; [exact (Plain NL)|]. split; [reflexivity|]. split; [exists []; split; reflexivity|]. split; auto. }
    assert (InX : forall y, y = x -> In y (apis (n_log N ++ [Api x]))) by (intros y ->; rewrite apis_app; apply in_or_app; right; left; reflexivity).
    
    assert (Kn : forall c, is_lost c x -> nth_error (n_links N) c <> None).
    { intros c Lx E. apply nth_error_None in E. destruct (ran_of0 _ R) as (es & RN). destruct (Prop_Pool.ran_inv _ _ _ _ _ _ _ RN) as (ID & _).
      assert (J : In x (p_log (n_pool N))) by (rewrite <- L; apply in_or_app; right; left; reflexivity). pose proof (P_Pool2.I_lostk _ _ _ _ _ ID c x J Lx). lia. }
    unfold hear. destruct x as [i c d|i []|[]| |]; try (apply Note; intros ? [Y|(? & Y)]; discriminate Y); try destruct Q.
    - (* AwaitFutures *)
      match goal with |- context [feed c (EvClose ?b) _] => destruct (Fed c (EvClose b)) as (F1 & F2 & F3 & F4) end; [exact Logic.I|reflexivity|discriminate|discriminate|intros; do 2 eexists; apply InX; reflexivity|discriminate|intros [Y|(? & Y)]; discriminate Y|intros ? _ [Y|(? & Y)]; discriminate Y|intros _ [Y|(? & Y)]; discriminate Y|].
      split; [destruct F1; split; assumption|]. split; [exact F2|]. split; [exact F3|]. cbn [put_slot n_slot]. rewrite F4. split.
      + intros j O. cbn [own flat_map app] in O. destruct (Nat.eqb_spec i j); [discriminate O|]. destruct (Nat.eqb_spec j i); [congruence|reflexivity].
      + intros j H c0 f z. destruct (Nat.eqb j i); [discriminate|apply H].
    - destruct (Fed c EvLost) as (F1 & F2 & F3 & F4); [exact Logic.I|reflexivity|discriminate|discriminate|discriminate|intros _; eexists; split; [apply InX; reflexivity|right; eauto]|reflexivity|intros c' NE [Y|(? & Y)]; [discriminate Y|congruence]|intros E Lx; exact (Kn _ Lx E)|].
      split; [exact F1|]. split; [exact F2|]. split; [exact F3|]. rewrite F4. auto.
    - destruct (Fed c EvLost) as (F1 & F2 & F3 & F4); [exact Logic.I|reflexivity|discriminate|discriminate|discriminate|intros _; eexists; split; [apply InX; reflexivity|left; reflexivity]|reflexivity|intros c' NE [Y|(? & Y)]; [congruence|discriminate Y]|intros E Lx; exact (Kn _ Lx E)|].
      split; [exact F1|]. split; [exact F2|]. split; [exact F3|]. rewrite F4. auto.
  Qed.
  Lemma hear_quiets xs : forall N rest, good N (xs ++ rest) -> Forall quiet xs -> let N' := fold_left hear xs N in
    good N' rest /\ n_pool N' = n_pool N /\
    (exists extra, n_log N' = n_log N ++ extra /\ apis extra = xs) /\
    (forall i, own i xs = [] -> n_slot N' i = n_slot N i) /\
    (forall i, (forall c f z, n_slot N i <> ForReply c f z) -> forall c f z, n_slot N' i <> ForReply c f z).
  Proof.
    induction xs as [|x xs IH]; intros N rest G F; cbn zeta; cbn [fold_left app] in *.
    - split; [exact G|]. split; [reflexivity|]. split; [exists []; rewrite app_nil_r; auto|]. auto.
    - inversion F as [|? ? Q Qs]; subst. destruct (hear_quiet N x _ G Q) as (G1 & P1 & (e1 & L1 & A1) & S1 & T1). destruct (IH _ _ G1 Qs) as (G2 & P2 & (e2 & L2 & A2) & S2 & T2).
      split; [exact G2|]. split; [congruence|]. split.
      + exists (Api x :: e1 ++ e2). split; [rewrite L2, L1, <- app_assoc; reflexivity|]. change (apis (Api x :: e1 ++ e2)) with (x :: apis (e1 ++ e2)). rewrite apis_app, A1, A2. reflexivity.
      + split; [|auto]. intros i O. change (x :: xs) with ([x] ++ xs) in O. rewrite own_app in O. apply app_eq_nil in O. destruct O as (O1 & O2). rewrite (S2 i O2). apply S1, O1.
  Qed.

  (** hearing an answer *)
  Lemma hear_got N a r rest : good N (By a (Got r) :: rest) -> (forall code b, answer_of r = Some (code, b) -> exists c k, exchange (n_log N) a code b c k) ->
    let N' := hear N (By a (Got r)) in
    good N' rest /\ n_pool N' = n_pool N /\ n_log N' = n_log N ++ [Api (By a (Got r))] /\ n_slot N' a = NoWait /\ (forall i, i <> a -> n_slot N' i = n_slot N i).
  Proof.
    intros [R L Le Wd Go Se] X. cbn [hear note put_slot n_pool n_links n_log n_slot]. split; [|split; [reflexivity|split; [reflexivity|split; [rewrite Nat.eqb_refl; reflexivity|]]]].
    - split; cbn [put_slot note n_pool n_log n_links]; [exact R| |exact Le| | |].
      + rewrite apis_app, <- app_assoc. exact L.
      + apply wired_other; [exact Wd|]. intros c. split; [reflexivity|]. split; [reflexivity|]. split; [reflexivity|]. intros x [<-|[]] [Y|(? & Y)]; discriminate Y.
      + intros g1 i r0 g2 code b E A. destruct (P_Pool.split_app _ _ _ _ _ E) as [(g3 & K)|(g3 & -> & K)]; [eapply Go; eassumption|].
        destruct g3 as [|y g3]; [|destruct g3; discriminate K]. injection K as <- <- _. rewrite app_nil_r. apply X, A.
      + apply sends_more; [exact Se|]. intros i c Y p [J|[]]. discriminate J.
    - intros i NE. apply Nat.eqb_neq in NE. rewrite NE. reflexivity.
  Qed.

  (** hearing a message *)
  Lemma hear_send N a c X p rest : good N (By a (Send c X p) :: By a (AwaitReply c 2000) :: rest) -> packed X p ->
    let N' := hear (hear N (By a (Send c X p))) (By a (AwaitReply c 2000)) in
    good N' rest /\ n_pool N' = n_pool N /\ (exists f, n_slot N' a = ForReply c f Fair /\ requested (n_log N') a c f) /\ (forall i, i <> a -> n_slot N' i = n_slot N i) /\
    exists extra, n_log N' = n_log N ++ extra /\ apis extra = [By a (Send c X p); By a (AwaitReply c 2000)].
  Proof.
    intros G Pk. pose proof G as [R L Le Wd Go Se]. destruct (ran_of _ _ G) as (es & RN).
    assert (U : P_Pool2.in_use c (apis (n_log N))) by (apply (Prop_Pool.ran_ok _ _ _ _ _ _ _ _ _ _ _ RN (eq_sym L)); discriminate).
    destruct (Prop_Pool.ran_inv _ _ _ _ _ _ _ RN) as (ID & _).
    assert (Kc : (c < List.length (n_links N))%nat).
    { rewrite Le. eapply (P_Pool2.I_known _ _ _ _ _ ID a c (Send c X p)); [|left; eauto]. rewrite <- L. apply in_or_app. right. left. reflexivity. }
    destruct (nth_error (n_links N) c) as [s|] eqn:E; [|apply nth_error_None in E; lia].
    pose proof (proj1 Wd _ _ E) as K. destruct U as (U1 & _ & U3).
    assert (C : Protocol.p_closing s = false) by (destruct (Protocol.p_closing s) eqn:C; [destruct (L_closing _ _ _ K C) as (j & f & J); destruct (U1 _ _ J)|reflexivity]).
    assert (T : Protocol.p_transport s = Protocol.TUp).
    { destruct (L_sound _ _ _ K) as (S1 & S2). destruct (S2 C) as (_ & S3). destruct (Protocol.p_transport s) eqn:T; try congruence. destruct (L_gone _ _ _ K T) as (x & J1 & J2). destruct (U3 _ J1 J2). }
    assert (WdS : wired (lset c (Protocol.pstep s (EvRequest X p)) (n_links N)) ((n_log N ++ [Api (By a (Send c X p))]) ++ map (Wire c) (new_of s (EvRequest X p)))) by (apply wired_send; assumption).
    destruct (lk_send c s (n_log N) a X p K T C (proj1 Pk) (proj2 Pk)) as (NW & _ & _). set (f := List.length (sent c (n_log N))) in *.
    assert (HN : hear (hear N (By a (Send c X p))) (By a (AwaitReply c 2000)) =
      mkNet (n_pool N) (lset c (Protocol.pstep s (EvRequest X p)) (n_links N)) (fun j => if Nat.eqb j a then ForReply c f Fair else n_slot N j)
        (((n_log N ++ [Api (By a (Send c X p))]) ++ map (Wire c) (new_of s (EvRequest X p))) ++ [Api (By a (AwaitReply c 2000))])).
    { unfold hear at 2. unfold feed. cbn [note n_links]. rewrite E. cbn [put_slot n_pool n_links n_slot n_log hear note]. f_equal.
      replace (List.length (Protocol.p_futs (link c (note (Api (By a (Send c X p))) N)))) with f; [reflexivity|]. unfold link, note. cbn [n_links]. rewrite (nth_error_nth _ _ _ E). symmetry. apply (L_futs _ _ _ K). }
    cbn zeta. rewrite HN. split; [|split; [reflexivity|split; [|split]]].
    - split; cbn [n_pool n_log n_links]; [exact R| |rewrite lset_size; exact Le| | |].
      + rewrite !apis_app, apis_wire, app_nil_r, <- !app_assoc. exact L.
      + apply wired_other; [exact WdS|]. intros c'. split; [reflexivity|]. split; [reflexivity|]. split; [reflexivity|]. intros x [<-|[]] [Y|(? & Y)]; discriminate Y.
      + apply gots_more; [apply gots_more; [apply gots_more; [exact Go|]|]|].
        * intros i r [J|[]]. discriminate J.
        * intros i r J. apply in_map_iff in J. destruct J as (o & J & _). discriminate J.
        * intros i r [J|[]]. discriminate J.
      + apply sends_more; [|intros i c' Y q [J|[]]; discriminate J]. rewrite NW, <- app_assoc. intros g1 i c' Y q g2 E2. destruct (P_Pool.split_app _ _ _ _ _ E2) as [(g3 & K3)|(g3 & -> & K3)].
        * rewrite K3, <- app_assoc in E2. apply app_inv_head in E2. injection E2 as E2. destruct (Se _ _ _ _ _ _ K3) as (g4 & ->). rewrite <- E2. eexists. reflexivity.
        * destruct g3 as [|y g3].
          -- injection K3 as <- <- <- <- <-. rewrite app_nil_r. exists []. reflexivity.
          -- exfalso. apply (f_equal (@List.tl line)) in K3. cbn [app List.tl map] in K3. pose proof (no_send_wire c (new_of s (EvRequest X p)) i c' Y q) as NS. rewrite NW in NS. cbn [map] in NS. apply NS. rewrite K3. apply in_or_app. right. left. reflexivity.
    - exists f. cbn [n_slot n_log]. rewrite Nat.eqb_refl. split; [reflexivity|]. rewrite NW. exists (n_log N), X, p, (Z.of_nat f mod 32767), [Api (By a (AwaitReply c 2000))].
      split; [rewrite <- !app_assoc; reflexivity|]. split; [cbn; rewrite Nat.eqb_refl; reflexivity|]. split; [clear; lia|].
      split; [intros m J; apply (completed_bound c s _ _ _ K) in J; unfold f in J; lia|]. eapply lk_heard, K.
    - intros i NE. cbn [n_slot]. apply Nat.eqb_neq in NE. rewrite NE. reflexivity.
    - exists (([Api (By a (Send c X p))] ++ map (Wire c) (new_of s (EvRequest X p))) ++ [Api (By a (AwaitReply c 2000))]). split; [cbn [n_log]; rewrite <- !app_assoc; reflexivity|].
      rewrite !apis_app, apis_wire. reflexivity.
  Qed.

  (** one step of Pool.v *)
  Definition slot_full (N : net) (i : nat) : Prop := forall c ms k, nth_error (p_tasks (n_pool N)) i = Some (Wait (AwaitReply c ms) k) -> exists f x, n_slot N i = ForReply c f x.
  Definition whole (N : net) : Prop := good N [] /\ forall i, slot_ok N i /\ slot_full N i.
  (** between its goes a task has never just sent *)
  Lemma no_send_end es i t9 c9 X9 p9 : own i (p_log (Pool.prun n (start w0) es)) <> t9 ++ [Send c9 X9 p9].
  Proof.
    assert (K : forall l P, all_fine P -> (forall t c X p, own i (p_log P) <> t ++ [Send c X p]) -> forall t c X p, own i (p_log (Pool.prun n P l)) <> t ++ [Send c X p]).
    { induction l as [|e l IH]; intros P A H; [exact H|]. cbn [Pool.prun fold_left]. destruct (pool_moved n P e A) as (A' & new & LN & M). apply IH; [exact A'|]. clear IH. intros t0 c0 X0 p0.
      assert (Q : forall l, Forall quiet l -> forall t c X p, own i (p_log P ++ l) <> t ++ [Send c X p]).
      { intros l0 F t1 c1 X1 p1 E. rewrite own_app in E. remember (own i l0) as l1 eqn:O. symmetry in O. destruct l1 as [|y z]; [rewrite app_nil_r in E; exact (H _ _ _ _ E)|]. destruct (@exists_last _ (y :: z)) as (z' & y' & Ez); [discriminate|]. rewrite Ez in *. clear y z Ez.
        rewrite app_assoc in E. apply app_inj_tail in E. destruct E as (_ & ->). assert (J : In (Send c1 X1 p1) (own i l0)) by (rewrite O; apply in_or_app; right; left; reflexivity).
        unfold own in J. apply in_flat_map in J. destruct J as (x & J1 & J2). rewrite Forall_forall in F. specialize (F x J1). destruct x as [|j y| | |]; try destruct J2. destruct (Nat.eqb j i); [|destruct J2]. destruct J2 as [->|[]]. destruct F. }
      rewrite LN. destruct M as [new T F O|a head t m T1 T2 O1 Wt Hd]; [apply Q, F|].
      destruct (Nat.eq_dec i a) as [->|NE].
      2:{ rewrite own_app, own_app. assert (Z : own i (map (By a) t) = []).
          { clear - NE. induction t as [|y t IH]; [reflexivity|]. cbn [map own flat_map]. destruct (Nat.eqb_spec a i); [congruence|exact IH]. }
          rewrite Z. destruct Hd as [(_ & Oh & _)|[(k & clk & x & f & _ & -> & _)|(clk & q & x & _ & -> & _)]].
          - rewrite (Oh i), !app_nil_r. apply H.
          - cbn. destruct (Nat.eqb_spec a i); [congruence|]. rewrite !app_nil_r. apply H.
          - cbn. destruct (Nat.eqb_spec a i); [congruence|]. rewrite !app_nil_r. apply H. }
      rewrite app_assoc, own_app. assert (Oa : forall t, own a (map (By a) t) = t).
      { clear. induction t as [|y t IH]; [reflexivity|]. cbn [map own flat_map]. rewrite Nat.eqb_refl. cbn [app]. f_equal. exact IH. }
      rewrite Oa. destruct O1 as [Pl|(t1 & c1 & X1 & p1 & k1 & -> & _ & _ & _)].
      - destruct t as [|y t] using rev_ind.
        + rewrite app_nil_r, own_app. destruct Hd as [(_ & Oh & _)|[(k & clk & x & f & _ & -> & _)|(clk & q & x & _ & -> & _)]].
          * rewrite (Oh a), app_nil_r. apply H.
          * intros E. cbn in E. rewrite Nat.eqb_refl in E. apply app_inj_tail in E. destruct E as (_ & E). discriminate E.
          * intros E. cbn in E. rewrite Nat.eqb_refl in E. apply app_inj_tail in E. destruct E as (_ & E). discriminate E.
        + intros E. rewrite app_assoc in E. apply app_inj_tail in E. destruct E as (_ & ->). apply Forall_app in Pl. destruct Pl as (_ & Pl). inversion Pl as [|? ? F _]. destruct F.
      - intros E. change [Send c1 X1 p1; AwaitReply c1 2000] with ([Send c1 X1 p1] ++ [AwaitReply c1 2000]) in E. rewrite !app_assoc in E. apply app_inj_tail in E. destruct E as (_ & E). discriminate E. }
    apply K; [intros m []|]. intros t0 c0 X0 p0 E. destruct t0; discriminate E.
  Qed.
  Lemma move_whole e N : whole N ->
    (forall a k clk x f code b, e = Resume a k clk -> nth_error (p_tasks (n_pool N)) a = Some (Wait x f) -> fits x k = true -> answer_of (mkResp k [] None clk) = Some (code, b) ->
       exists c m, exchange (n_log N) a code b c m) ->
    whole (move n e N).
  Proof.
    intros (G & S) X. pose proof G as [(es & R) L Le Wd Go Se].
    assert (A : all_fine (n_pool N)) by (rewrite R; apply run_fine). destruct (pool_moved n (n_pool N) e A) as (_ & new & LN & M).
    set (P' := Pool.pstep n (n_pool N) e) in *. unfold move. fold P'.
    assert (SK : skipn (List.length (p_log (n_pool N))) (p_log P') = new) by (rewrite LN, skipn_app, skipn_all, Nat.sub_diag; reflexivity). rewrite SK.
    match goal with |- whole (fold_left hear new ?x) => set (N0 := x) end.
    assert (R0 : exists es, n_pool N0 = Pool.prun n (start w0) es) by (exists (es ++ [e]); unfold Pool.prun; rewrite fold_left_app; fold (Pool.prun n (start w0) es); rewrite <- R; reflexivity).
    assert (Grow : (List.length (w_conns (p_world (n_pool N))) <= List.length (w_conns (p_world P')))%nat).
    { unfold P'. rewrite R. pose proof (P_Moves.goes_keeps) as K. destruct (P_Moves.prun_made _ K n es (start w0) (P_Moves.start_made w0)) as (_ & AM).
      apply (P_Moves.pstep_made _ K n _ e AM). }
    assert (G0 : good N0 new).
    { split; cbn [N0 n_pool n_log n_links]; [exact R0| | |apply wired_new; exact Wd|exact Go|exact Se].
      - rewrite app_nil_r in L. rewrite L, LN. reflexivity.
      - rewrite app_length, repeat_length. lia. }
    assert (PP : n_pool N0 = P') by reflexivity. assert (NS : forall i, n_slot N0 i = n_slot N i) by reflexivity. assert (NL : n_log N0 = n_log N) by reflexivity. clearbody N0.
    (* a task that did nothing keeps its request *)
    assert (Stay : forall N' i extra, n_pool N' = P' -> n_log N' = n_log N ++ extra -> own i (apis extra) = [] -> n_slot N' i = n_slot N i ->
      nth_error (p_tasks P') i = nth_error (p_tasks (n_pool N)) i -> slot_ok N' i /\ slot_full N' i).
    { intros N' i extra E1 E2 O E3 E4. split.
      - intros c f x E. rewrite E3 in E. destruct (proj1 (S i) _ _ _ E) as (T & Q). rewrite E1, E4, E2. split; [exact T|]. apply requested_more; assumption.
      - intros c ms k E. rewrite E1, E4 in E. rewrite E3. exact (proj2 (S i) _ _ _ E). }
    destruct M as [new T Q O|a head t m T1 T2 O1 Wt H].
    - rewrite <- (app_nil_r new) in G0. destruct (hear_quiets new N0 [] G0 Q) as (G1 & P1 & (extra & L1 & A1) & S1 & _). split; [exact G1|].
      intros i. apply (Stay _ i extra); [congruence|congruence|rewrite A1; apply O|rewrite (S1 i (O i)); apply NS|rewrite T; reflexivity].
    - (* the actor has no request once its head has been heard *)
      assert (Head : exists N1 extra, fold_left hear head N0 = N1 /\ good N1 (map (By a) t) /\ n_pool N1 = P' /\ n_log N1 = n_log N ++ extra /\ apis extra = head /\
        (forall i, i <> a -> n_slot N1 i = n_slot N i) /\ (forall c f z, n_slot N1 a <> ForReply c f z) /\ (forall i, i <> a -> own i head = [])).
      { destruct H as [(Q & O & NW)|[(k & clk & x & f & -> & -> & Tw & Ft)|(clk & q & x & -> & -> & Tw)]].
        - destruct (hear_quiets head N0 _ G0 Q) as (G1 & P1 & (extra & L1 & A1) & S1 & F1). eexists _, extra. split; [reflexivity|]. split; [exact G1|]. split; [congruence|]. split; [congruence|]. split; [exact A1|].
          split; [intros i _; rewrite (S1 i (O i)); apply NS|]. split; [|auto]. apply F1. intros c f z E. rewrite NS in E. destruct (proj1 (S a) _ _ _ E) as ((k & J) & _). exact (NW _ _ J).
        - cbn [app] in G0. destruct (hear_got N0 a (mkResp k [] None clk) _ G0) as (G1 & P1 & L1 & S1 & S2).
          { intros code b E. rewrite NL. eapply X; [reflexivity|exact Tw|exact Ft|exact E]. }
          cbn [fold_left]; eexists _, [_]. split; [reflexivity|]. split; [exact G1|]. split; [congruence|]. split; [rewrite L1, NL; reflexivity|]. split; [reflexivity|].
          split; [intros i NE; rewrite (S2 i NE); apply NS|]. split; [rewrite S1; discriminate|]. intros i NE. cbn. destruct (Nat.eqb_spec a i); [congruence|reflexivity].
        - cbn [app] in G0. destruct (hear_got N0 a (mkResp KCancelTask [] None clk) _ G0) as (G1 & P1 & L1 & S1 & S2).
          { intros code b E. discriminate E. }
          cbn [fold_left]; eexists _, [_]. split; [reflexivity|]. split; [exact G1|]. split; [congruence|]. split; [rewrite L1, NL; reflexivity|]. split; [reflexivity|].
          split; [intros i NE; rewrite (S2 i NE); apply NS|]. split; [rewrite S1; discriminate|]. intros i NE. cbn. destruct (Nat.eqb_spec a i); [congruence|reflexivity]. }
      destruct Head as (N1 & e1 & HE & G1 & P1 & L1 & A1 & S1 & F1 & O). rewrite fold_left_app, HE. clear HE.
      assert (Ot : forall i t', i <> a -> own i (map (By a) t') = []).
      { intros i t' NE. induction t' as [|y t' IH]; [reflexivity|]. cbn [map own flat_map]. destruct (Nat.eqb_spec a i); [congruence|exact IH]. }
      destruct O1 as [Pl|(t0 & c & Y & p & k & -> & Pl & Pk & ->)].
      + rewrite <- (app_nil_r (map (By a) t)) in G1. destruct (hear_quiets _ N1 [] G1 (quiet_by a _ Pl)) as (G2 & P2 & (e2 & L2 & A2) & S2 & F2). split; [exact G2|].
        intros i. destruct (Nat.eq_dec i a) as [->|NE].
        * split; [intros c f x E; destruct (F2 a F1 _ _ _ E)|]. intros c ms k E. exfalso. rewrite P2, P1, T1 in E. injection E as ->. destruct (Wt _ _ eq_refl) as (t' & ->).
          (* a wait for a reply comes right after the message *)
          destruct (ran_of0 _ R0) as (es' & RN). rewrite PP in RN. rewrite map_app in LN. cbn [map] in LN. rewrite !app_assoc in LN.
          destruct (Prop_Pool.ran_ok _ _ _ _ _ _ _ _ _ _ _ RN LN) as (_ & t0 & X0 & p0 & Ow); [discriminate|].
          assert (Oa : forall t, own a (map (By a) t) = t).
          { clear. induction t as [|y t IH]; [reflexivity|]. cbn [map own flat_map]. rewrite Nat.eqb_refl. cbn [app]. f_equal. exact IH. }
          rewrite own_app, Oa in Ow. apply Forall_app in Pl. destruct Pl as (Pl & _). destruct t' as [|y t'] using rev_ind.
          -- rewrite app_nil_r, own_app in Ow. destruct H as [(_ & Oh & _)|[(k' & clk & x & f & _ & -> & _)|(clk & q & x & _ & -> & _)]].
             ++ rewrite (Oh a), app_nil_r, R in Ow. exact (no_send_end _ _ _ _ _ _ Ow).
             ++ cbn in Ow. rewrite Nat.eqb_refl in Ow. apply app_inj_tail in Ow. destruct Ow as (_ & Ow). discriminate Ow.
             ++ cbn in Ow. rewrite Nat.eqb_refl in Ow. apply app_inj_tail in Ow. destruct Ow as (_ & Ow). discriminate Ow.
          -- rewrite app_assoc in Ow. apply app_inj_tail in Ow. destruct Ow as (_ & ->). apply Forall_app in Pl. destruct Pl as (_ & Pl). inversion Pl as [|? ? F _]. destruct F.
        * apply (Stay _ i (e1 ++ e2)); [congruence|rewrite L2, L1, app_assoc; reflexivity|rewrite apis_app, A1, A2, own_app, (O i NE), (Ot i t NE); reflexivity| |apply T2, NE].
          rewrite (S2 i (Ot i t NE)). apply S1, NE.
      + rewrite map_app in *. cbn [map] in *. rewrite fold_left_app. destruct (hear_quiets _ N1 _ G1 (quiet_by a _ Pl)) as (G2 & P2 & (e2 & L2 & A2) & S2 & F2).
        match type of G2 with good ?x _ => set (N2 := x) in * end. destruct (hear_send N2 a c Y p [] G2 Pk) as (G3 & P3 & (f & Sa & Rq) & S3 & e3 & L3 & A3).
        cbn [fold_left]. match type of G3 with good ?x _ => set (N3 := x) in * end. split; [exact G3|]. intros i. destruct (Nat.eq_dec i a) as [->|NE].
        * split; [intros c' f' x E; rewrite Sa in E; injection E as <- <- <-; split; [|exact Rq]; exists k; rewrite P3, P2, P1; exact T1|].
          intros c' ms k' E. rewrite P3, P2, P1, T1 in E. injection E as <- <- _. exists f, Fair. exact Sa.
        * apply (Stay _ i (e1 ++ e2 ++ e3)); [congruence|rewrite L3, L2, L1, !app_assoc; reflexivity| | |apply T2, NE].
          -- rewrite !apis_app, A1, A2, A3, !own_app, (O i NE), (Ot i t0 NE). change (own i [By a (Send c Y p); By a (AwaitReply c 2000)]) with (own i (map (By a) [Send c Y p; AwaitReply c 2000])). rewrite (Ot i _ NE). reflexivity.
          -- rewrite (S3 i NE), (S2 i (Ot i t0 NE)). apply S1, NE.
  Qed.

  (** an event of a link that no task makes *)
  Lemma whole_same N N' : whole N -> n_pool N' = n_pool N -> good N' [] ->
    (exists extra, n_log N' = n_log N ++ extra /\ apis extra = []) ->
    (forall i c f, (exists x, n_slot N' i = ForReply c f x) <-> exists x', n_slot N i = ForReply c f x') -> whole N'.
  Proof.
    intros (G & S) P G' (extra & L & A) T. split; [exact G'|]. intros i. split.
    - intros c f x E. destruct (proj1 (T _ _ _) (ex_intro _ x E)) as (x' & E'). destruct (proj1 (S _) _ _ _ E') as (K1 & K2).
      rewrite P, L. split; [exact K1|]. apply requested_more; [exact K2|]. rewrite A. reflexivity.
    - intros c ms k E. rewrite P in E. destruct (proj2 (S i) _ _ _ E) as (f & x & E'). exists f. apply T. eauto.
  Qed.
  Definition idle (e : pevent) : Prop :=
    match e with Protocol.EvLostTask | Protocol.EvCancel _ | Protocol.EvCloseResume _ | Protocol.EvCloseCancel _ => True | _ => False end.
  Lemma feed_good N c e : good N [] -> idle e -> good (feed c e N) [] /\ n_pool (feed c e N) = n_pool N /\ (exists extra, n_log (feed c e N) = n_log N ++ extra /\ apis extra = []) /\
    n_slot (feed c e N) = n_slot N.
  Proof.
    intros [R L Le Wd Go Se] I. unfold feed. destruct (nth_error (n_links N) c) as [s|] eqn:E; [|split; [split; assumption|split; [reflexivity|split; [exists []; rewrite app_nil_r; auto|reflexivity]]]].
    split; [|split; [reflexivity|split; [|reflexivity]]].
    - split; cbn [n_pool n_log n_links]; [exact R| |rewrite lset_size; exact Le| | |].
      + rewrite apis_app, apis_wire, app_nil_r. exact L.
      + rewrite <- (app_nil_r (n_log N)). apply wired_step; auto; try (destruct e; try destruct I; try exact Logic.I; try reflexivity; discriminate); [|intros x []]. intros c' _. split; [reflexivity|]. split; [reflexivity|]. split; [reflexivity|]. intros x [].
      + apply gots_more; [exact Go|]. intros i r J. apply in_map_iff in J. destruct J as (o & J & _). discriminate J.
      + apply sends_more; [exact Se|apply no_send_wire].
    - exists (map (Wire c) (new_of s e)). split; [reflexivity|apply apis_wire].
  Qed.
  Lemma feed_whole N c e : whole N -> idle e -> whole (feed c e N).
  Proof.
    intros Wh I. destruct (feed_good N c e (proj1 Wh) I) as (G & P & L & S). apply (whole_same N); auto. intros i c0 f. rewrite S. reflexivity.
  Qed.
  Lemma feed_put_whole N c e i f x x0 : whole N -> idle e -> n_slot N i = ForReply c f x0 -> whole (put_slot i (ForReply c f x) (feed c e N)).
  Proof.
    intros Wh I E0. destruct (feed_good N c e (proj1 Wh) I) as (G & P & L & S). apply (whole_same N); auto.
    - destruct G. split; assumption.
    - intros j c0 f0. cbn [put_slot n_slot]. rewrite S. destruct (Nat.eqb_spec j i) as [->|NE]; [|reflexivity]. rewrite E0. split; intros (x1 & E); injection E as <- <- <-; eauto.
  Qed.
  (** bytes that arrive *)
  Lemma data_whole N c b s : whole N -> wf_bytes b -> nth_error (n_links N) c = Some s -> takes_bytes s = true -> whole (feed c (EvData b) (note (Came c b) N)).
  Proof.
    intros Wh Wb E T. pose proof (proj1 Wh) as [R L Le Wd Go Se]. unfold feed. cbn [note n_links n_pool n_slot n_log]. rewrite E.
    assert (A : apis ((n_log N ++ [Came c b]) ++ map (Wire c) (new_of s (EvData b))) = apis (n_log N)) by (rewrite !apis_app, apis_wire, !app_nil_r; reflexivity).
    apply (whole_same N); auto.
    - split; cbn [n_pool n_log n_links]; [exact R| |rewrite lset_size; exact Le| | |].
      + fold (new_of s (EvData b)). rewrite A. exact L.
      + apply wired_step; auto; try discriminate.
        * intros c' NE. split; [reflexivity|]. split; [cbn; destruct (Nat.eqb_spec c c'); [congruence|reflexivity]|]. split; [reflexivity|]. intros x [].
        * unfold takes_bytes in T. cbn. rewrite Nat.eqb_refl, app_nil_r. unfold P_Proto3.up. destruct (Protocol.p_transport s); try discriminate T; rewrite T; reflexivity.
        * intros x [].
      + apply gots_more; [apply gots_more; [exact Go|]|].
        * intros i r [J|[]]. discriminate J.
        * intros i r J. apply in_map_iff in J. destruct J as (o & J & _). discriminate J.
      + apply sends_more; [apply sends_more; [exact Se|]|apply no_send_wire]. intros i c' Y q [J|[]]. discriminate J.
    - eexists. cbn [n_log]. rewrite <- app_assoc. split; [reflexivity|]. change (apis (?x :: ?y)) with (apis y). rewrite apis_app, apis_wire. reflexivity.
    - reflexivity.
  Qed.
  (** a future that is done: the exchange *)
  Lemma done_exchange N i c f x m : whole N -> n_slot N i = ForReply c f x -> Protocol.fget f (Protocol.p_futs (link c N)) = Protocol.FDone m ->
    exists c k, exchange (n_log N) i (Protocol.msg_code m) (Protocol.msg_data m) c k.
  Proof.
    intros (G & S) E D. destruct (proj1 (S _) _ _ _ E) as (_ & (ga & X & p & id & gb & L & O & B & NC & Hg)). exists c.
    assert (Wd := G_wired _ _ G). destruct (nth_error (n_links N) c) as [s|] eqn:El.
    2:{ exfalso. apply nth_error_None in El. destruct (proj2 Wd c El) as (M1 & _). rewrite L, wires_app in M1. apply app_eq_nil in M1. destruct M1 as (_ & M1). cbn in M1. rewrite Nat.eqb_refl in M1. discriminate M1. }
    unfold link in D. rewrite (nth_error_nth _ _ _ El) in D. pose proof (proj1 Wd _ _ El) as K. pose proof (linked_reach _ _ _ (L_linked _ _ _ K)) as R.
    apply (P_Proto3.done_completed s f m R) in D. destruct (P_Proto3.completed_ids s f m R D) as (_ & J & _). destruct (L_linked _ _ _ K) as (pes & _ & _ & _ & Pl).
    assert (Id : Protocol.msg_id m = id).
    { rewrite Pl in J. assert (J2 : In (f, id) (P_Proto2.requests_of (wires c (n_log N)))).
      { rewrite L, wires_app. unfold P_Proto2.requests_of. rewrite flat_map_app. apply in_or_app. right. cbn. rewrite Nat.eqb_refl. left. reflexivity. }
      rewrite <- Pl in J, J2. apply In_nth_error in J, J2. destruct J as (k1 & J), J2 as (k2 & J2). apply (P_Proto3.ids_nth s _ _ _ R) in J, J2. destruct J as (F1 & ->), J2 as (F2 & ->). rewrite <- F1, <- F2. reflexivity. }
    assert (T : In (Some f, m) (taken c (n_log N))).
    { unfold taken. rewrite <- Pl. apply in_flat_map. exists (OutCompleted f m). split; [exact D|left; reflexivity]. }
    apply In_nth_error in T. destruct T as (k & T). exists k, ga, X, p, id, f, gb. split; [exact L|]. split; [exact O|]. split; [exact B|]. split; [exact Hg|]. split; [eapply lk_heard, K|]. split.
    - destruct (Nat.le_gt_cases (List.length (taken c ga)) k) as [|H]; [assumption|exfalso]. rewrite L, taken_app, nth_error_app1 in T by exact H. apply nth_error_In in T. unfold taken in T. apply in_flat_map in T.
      destruct T as (o & I & T). destruct o; cbn in T; try contradiction; destruct T as [T|[]]; try discriminate T. injection T as -> ->. exact (NC _ I).
    - rewrite T. destruct m as [[mi mc] md]. cbn in *. rewrite Id. reflexivity.
  Qed.

  Definition wf_nevent (e : nevent) : Prop := match e with NData _ b => wf_bytes b | _ => True end.
  Lemma tell_whole c m N : whole N -> whole (tell c m N).
  Proof.
    intros Wh. unfold tell. destruct (handler_of _ _ _) as [[|u]|]; try exact Wh. apply (whole_same N); auto; [|eexists; split; reflexivity|reflexivity].
    pose proof (proj1 Wh) as [R L Le Wd Go Se]. split; cbn [note n_pool n_log n_links]; [exact R| |exact Le| | |].
    - rewrite apis_app, app_nil_r in *. cbn. rewrite app_nil_r. exact L.
    - apply wired_other; [exact Wd|]. intros c0. split; [reflexivity|]. split; [reflexivity|]. split; [reflexivity|]. intros x [].
    - apply gots_more; [exact Go|]. intros i r [J|[]]. discriminate J.
    - apply sends_more; [exact Se|]. intros i c0 X p [J|[]]. discriminate J.
  Qed.
  Lemma pushes_whole c : forall os N, whole N -> whole (fold_left (shove n c) os N).
  Proof.
    induction os as [|o os IH]; intros N Wh; [exact Wh|]. cbn [fold_left]. apply IH. destruct o; auto. apply move_whole; [apply tell_whole, Wh|]. discriminate.
  Qed.
  Lemma step_whole N e : wf_nevent e -> whole N -> whole (nstep n N e).
  Proof.
    intros We Wh.
    assert (Quiet : forall e, (forall i k clk, e <> Resume i k clk) -> whole (move n e N)).
    { intros e0 NR. apply move_whole; [exact Wh|]. intros a k clk x f code b E. destruct (NR _ _ _ E). }
    assert (Plain : forall N i k clk, whole N -> (forall c b, k <> KReply c b) -> (forall c b, k <> KTimeoutReply c b) -> whole (move n (Resume i k clk) N)).
    { intros N1 i k clk Wh1 N2 N3. apply move_whole; [exact Wh1|]. intros a k' clk' x f code b E _ _ A. injection E as _ <- _. destruct k; try discriminate A; [destruct (N2 _ _ eq_refl)|destruct (N3 _ _ eq_refl)]. }
    destruct e; cbn [nstep wf_nevent] in *.
    - apply Quiet. discriminate.
    - apply Quiet. discriminate.
    - unfold awaits. destruct (nth_error (p_tasks (n_pool N)) i) as [[ | | |x f| ]|] eqn:T; auto.
      assert (K : (forall c ms, x <> AwaitReply c ms) -> whole (move n (Resume i k clk) N)).
      { intros NA. apply move_whole; [exact Wh|]. intros a k' clk' x' f' code b E T' Ft A. injection E as <- <- <-. rewrite T in T'. injection T' as <- <-.
        destruct k; try discriminate A; destruct x; try discriminate Ft; destruct (NA _ _ eq_refl). }
      destruct x; auto; apply K; discriminate.
    - destruct (nth_error (n_links N) c) as [s|] eqn:E; [|exact Wh]. destruct (takes_bytes s) eqn:T; [|exact Wh]. apply pushes_whole. eapply data_whole; eassumption.
    - apply Quiet. discriminate.
    - apply feed_whole; [exact Wh|exact Logic.I].
    - destruct (n_slot N i) as [|c f [| |]|] eqn:E; auto. eapply feed_put_whole; [exact Wh|exact Logic.I|exact E].
    - destruct (n_slot N i) as [|c f x|c j] eqn:E.
      + unfold awaits, queues. destruct (nth_error (p_tasks (n_pool N)) i) as [[ | | |x f| ]|] eqn:T; auto; [destruct x; auto|]; apply Plain; try exact Wh; discriminate.
      + eapply feed_put_whole; [exact Wh|exact Logic.I|exact E].
      + apply feed_whole; [exact Wh|exact Logic.I].
    - destruct (n_slot N i) as [|c f x|c j] eqn:E; destruct (awaits i N) as [[]|]; auto.
      + destruct (Protocol.p_closed (link _ N)); auto; apply Plain; auto; discriminate.
      + assert (Ans : forall k, (forall code b, answer_of (mkResp k [] None clk) = Some (code, b) -> exists c k', exchange (n_log N) i code b c k') -> whole (move n (Resume i k clk) N)).
        { intros k H. apply move_whole; [exact Wh|]. intros a k' clk' x' f' code b Er _ _ A. injection Er as <- <- <-. apply H, A. }
        destruct (Protocol.fget f (Protocol.p_futs (link c N))) eqn:F; [exact Wh| |];
          destruct x; apply Ans; intros code b A; try discriminate A; injection A as <- <-; eapply done_exchange; eassumption.
      + destruct (nth j (Protocol.p_closers (link c N)) Protocol.CDone); auto. destruct (Protocol.gather_done _ _); auto. apply Plain; [|discriminate|discriminate]. apply feed_whole; [exact Wh|exact Logic.I].
    - apply Quiet. discriminate.
  Qed.
  Lemma start_whole : whole (nstart w0).
  Proof.
    split; [|intros i; split; [intros c f x E; discriminate E|intros c ms k E; destruct i; discriminate E]]. split; cbn [nstart n_pool n_log n_links].
    - exists []. reflexivity.
    - reflexivity.
    - unfold new_gateway in W0. destruct (_ && _); [|discriminate W0]. injection W0 as <-. reflexivity.
    - split; [intros [|c] s E; discriminate E|]. intros c _. split; [reflexivity|]. split; [reflexivity|]. split; [reflexivity|]. intros x [].
    - intros [|] i r g2 code b E; discriminate E.
    - intros [|] i c X p g2 E; discriminate E.
  Qed.
  Theorem run_whole es : Forall wf_nevent es -> whole (nrun n (nstart w0) es).
  Proof.
    intros F. assert (K : forall N, whole N -> whole (nrun n N es)); [|apply K, start_whole].
    induction F as [|e es We _ IH]; intros N Wh; [exact Wh|]. cbn [nrun fold_left]. apply IH, step_whole; assumption.
  Qed.
End Run.
