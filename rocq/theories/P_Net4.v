(** The invariant of Net.v. *)
From Verif Require Import Py F64 Struct Utf Utility Const Spec Enum Decode Messages Calls World Request Gateway Traces Paths Api Tasks Pool SpecPool Net SpecNet P_Base P_Util.
From Verif Require Import P_Net1 P_Net2 P_Net3.
From Verif Require Protocol P_Proto1 P_Proto2 P_Proto3 P_Pool P_Pool2 Prop_Pool.
Import Protocol(pstate, pout, pevent, OutRequest, OutWrite, OutCompleted, EvData, EvRequest, EvClose, EvLost).

(** ** the links *)
Definition mute (c : nat) (g : list line) : Prop := wires c g = [] /\ came c g = [] /\ sent c g = [] /\ forall x, In x (apis g) -> ~ is_lost c x.
Definition wired (links : list pstate) (g : list line) : Prop :=
  (forall c s, nth_error links c = Some s -> lk c s g) /\ (forall c, (List.length links <= c)%nat -> mute c g).
Lemma mute_app c a b : mute c a -> mute c b -> mute c (a ++ b).
Proof.
  intros (A1 & A2 & A3 & A4) (B1 & B2 & B3 & B4). unfold mute. rewrite wires_app, came_app, sent_app, A1, A2, A3, B1, B2, B3. split; [reflexivity|]. split; [reflexivity|]. split; [reflexivity|].
  intros x J. rewrite apis_app in J. apply in_app_or in J. destruct J; auto.
Qed.
Lemma mute_wire c c' os : c' <> c -> mute c (map (Wire c') os).
Proof. intros N. split; [apply wires_other, N|]. split; [apply came_wire|]. split; [apply sent_wire|]. rewrite apis_wire. intros x []. Qed.
Lemma wired_other links g extra : wired links g -> (forall c, mute c extra) -> wired links (g ++ extra).
Proof.
  intros (A & B) M. split.
  - intros c s K. destruct (M c) as (? & ? & ? & ?). apply lk_other; auto.
  - intros c K. apply mute_app; auto.
Qed.
Lemma wired_new links g k : wired links g -> wired (links ++ repeat new_link k) g.
Proof.
  intros (A & B). split.
  - intros c s K. destruct (Nat.lt_ge_cases c (List.length links)) as [L|L].
    + rewrite nth_error_app1 in K by exact L. apply A, K.
    + rewrite nth_error_app2 in K by exact L. apply nth_error_In, repeat_spec in K. subst s. destruct (B c L) as (? & ? & ? & ?). apply lk_new; assumption.
  - intros c K. apply B. rewrite app_length in K. lia.
Qed.
Lemma nth_error_lset {X} (x : X) l : forall c c', nth_error (lset c x l) c' = if Nat.eqb c' c then match nth_error l c with Some _ => Some x | None => None end else nth_error l c'.
Proof.
  induction l as [|y l IH]; intros c c'; cbn [lset].
  - destruct c, c'; try reflexivity. cbn. destruct (Nat.eqb c' c); reflexivity.
  - destruct c, c'; try reflexivity. cbn [nth_error Nat.eqb]. apply IH.
Qed.
Lemma lset_size {X} (x : X) l : forall c, List.length (lset c x l) = List.length l.
Proof. induction l as [|y l IH]; intros [|c]; cbn; auto. Qed.
Lemma wired_put links g c s s' g' : wired links g -> nth_error links c = Some s -> lk c s' (g ++ g') -> (forall c', c' <> c -> mute c' g') ->
  wired (lset c s' links) (g ++ g').
Proof.
  intros (A & B) E L M. split.
  - intros c' s0 K. rewrite nth_error_lset in K. destruct (Nat.eqb_spec c' c) as [->|NE].
    + rewrite E in K. injection K as <-. exact L.
    + destruct (M c' NE) as (? & ? & ? & ?). apply lk_other; auto.
  - intros c' K. rewrite lset_size in K. apply mute_app; [apply B, K|]. apply M. intros ->. apply nth_error_None in K. congruence.
Qed.
Lemma wired_step links g c s e extra : wired links g -> nth_error links c = Some s ->
  P_Proto2.wf_event e -> tells e = true -> (forall X p, e <> EvRequest X p) ->
  (forall c', c' <> c -> mute c' extra) -> wires c extra = [] -> sent c extra = [] ->
  came c extra = (match e with EvData b => if P_Proto3.up s && negb (Protocol.p_closing s) then b else [] | _ => [] end) ->
  (forall f, e = EvClose f -> exists j f', In (By j (AwaitFutures c f')) (apis (g ++ extra))) ->
  (e = EvLost -> exists x, In x (apis (g ++ extra)) /\ is_lost c x) ->
  (forall x, In x (apis extra) -> is_lost c x -> e = EvLost) ->
  wired (lset c (Protocol.pstep s e) links) ((g ++ extra) ++ map (Wire c) (new_of s e)).
Proof.
  intros Wd E W T NR M X1 X2 X3 X4 X5 X6. rewrite <- app_assoc. apply (wired_put _ _ _ s); [exact Wd|exact E| |].
  - rewrite app_assoc. apply lk_step; auto. apply Wd, E.
  - intros c' NE. apply mute_app; [apply M, NE|apply mute_wire; congruence].
Qed.
Lemma wired_send links g c s i X p : wired links g -> nth_error links c = Some s -> Protocol.p_transport s = Protocol.TUp -> Protocol.p_closing s = false -> packed X p ->
  wired (lset c (Protocol.pstep s (EvRequest X p)) links) ((g ++ [Api (By i (Send c X p))]) ++ map (Wire c) (new_of s (EvRequest X p))).
Proof.
  intros Wd E T C (HX & Hp). destruct (lk_send c s g i X p (proj1 Wd _ _ E) T C HX Hp) as (_ & L & _). rewrite <- app_assoc in *. apply (wired_put _ _ _ s); auto.
  intros c' NE. apply mute_app; [|apply mute_wire; congruence]. split; [reflexivity|]. split; [reflexivity|]. split.
  - unfold sent. cbn [apis flat_map app]. destruct (Nat.eqb_spec c c'); [congruence|reflexivity].
  - intros x [<-|[]] [Lx|(j & Lx)]; discriminate Lx.
Qed.

(** ** what one step of Pool.v adds *)
Definition quiet (x : Pool.entry) : Prop := match x with By _ (Send _ _ _) | By _ (Got _) => False | _ => True end.
Inductive moved (e : Pool.event) (P P' : pool) : Pool.log -> Prop :=
| mv_same new : p_tasks P' = p_tasks P -> Forall quiet new -> (forall i, own i new = []) -> moved e P P' new
| mv_task a head t m : nth_error (p_tasks P') a = Some m -> (forall i, i <> a -> nth_error (p_tasks P') i = nth_error (p_tasks P) i) -> one_go t m -> (forall x k, m = Wait x k -> exists t', t = t' ++ [x]) ->
    (Forall quiet head /\ (forall i, own i head = []) /\ (forall x k, nth_error (p_tasks P) a <> Some (Wait x k))) \/
    (exists k clk x f, e = Resume a k clk /\ head = [By a (Got (mkResp k [] None clk))] /\ nth_error (p_tasks P) a = Some (Wait x f) /\ fits x k = true) \/
    (exists clk q x, e = Resume a KCancelTask clk /\ head = [By a (Got (mkResp KCancelTask [] None clk))] /\ nth_error (p_tasks P) a = Some (Lock q x)) ->
    moved e P P' (head ++ map (By a) t).
Lemma advance_wait (m : task unit) : forall w t w' x k, advance m w = (t, w', Wait x k) -> exists t', t = t' ++ [x].
Proof.
  induction m as [o|k IH|f k IH|e k IH|k IH xx IHx]; intros w t w' x k0 E; cbn [advance] in E.
  - discriminate E.
  - eapply IH, E.
  - destruct (f w) as [t1 w1]. destruct (advance k w1) as [[t2 w2] m2] eqn:E2. injection E as <- <- ->. destruct (IH _ _ _ _ _ E2) as (t' & ->). exists (t1 ++ t'). apply app_assoc.
  - injection E as <- <- <- <-. exists []. reflexivity.
  - destruct (m_locked (w_cm w)); [discriminate E|]. eapply IH, E.
Qed.
Lemma quiet_by a t : Forall plain t -> Forall quiet (map (By a) t).
Proof. intros F. apply Forall_map. eapply Forall_impl; [|exact F]. intros []; auto. Qed.
Lemma fine_lset P i m : all_fine P -> fine m -> forall m', In m' (lset i m (p_tasks P)) -> fine m'.
Proof.
  unfold all_fine. intros A F. generalize dependent (p_tasks P). intros l. revert i. induction l as [|y l IH]; intros i A m' J; [destruct i; destruct J|].
  destruct i as [|i]; cbn [lset] in J; destruct J as [<-|J]; auto. - apply A. right. exact J. - apply A. left. reflexivity. - eapply IH; [|exact J]. intros x K. apply A. right. exact K.
Qed.
Lemma lose_plain c w : Forall (fun x => quiet (Env x)) (fst (lose c w)). Proof. apply Forall_forall. intros x _. exact Logic.I. Qed.
Lemma pool_moved n P e : all_fine P -> let P' := Pool.pstep n P e in
  all_fine P' /\ exists new, p_log P' = p_log P ++ new /\ moved e P P' new.
Proof.
  intros A. cbn zeta. destruct e as [c|i k clk|i|c|c code b|]; [cbn [Pool.pstep]..|].
  - destruct (advance (tperform n c) (p_world P)) as [[t w'] m] eqn:E. destruct (advance_fine _ _ _ _ _ (fine_perform n c) E) as (G & F). split.
    + intros m' J. cbn [p_tasks] in J. apply in_app_or in J. destruct J as [J|[<-|[]]]; auto.
    + eexists. split; [reflexivity|]. apply (mv_task _ _ _ (List.length (p_tasks P)) [Started (List.length (p_tasks P)) c (w_data (p_world P))] t m); cbn [p_tasks].
      * rewrite nth_error_app2 by lia. rewrite Nat.sub_diag. reflexivity.
      * intros j NE. destruct (Nat.lt_ge_cases j (List.length (p_tasks P))) as [L|L]; [apply nth_error_app1, L|].
        rewrite nth_error_app2 by lia. destruct (j - List.length (p_tasks P))%nat eqn:K; [lia|]. cbn. rewrite (proj2 (nth_error_None _ _) L). destruct n0; reflexivity.
      * exact G.
      * intros x k0 ->. eapply advance_wait, E.
      * left. split; [repeat constructor|]. split; [intros; reflexivity|]. intros x k0 H. assert (J : (List.length (p_tasks P) < List.length (p_tasks P))%nat) by (apply nth_error_Some; congruence). lia.
  - assert (Nop : all_fine P /\ exists new, p_log P = p_log P ++ new /\ moved (Resume i k clk) P P new).
    { split; [exact A|]. exists []. rewrite app_nil_r. split; [reflexivity|]. apply mv_same; auto. }
    destruct (nth_error (p_tasks P) i) as [[ | | |x f|m0 x0]|] eqn:T; auto.
    2: { destruct k; auto. assert (Fx : fine x0) by exact (proj2 (A _ (nth_error_In _ _ T))).
      destruct (advance x0 _) as [[t w'] m] eqn:E. destruct (advance_fine _ _ _ _ _ Fx E) as (G & F). split; [intros m' J; eapply fine_lset; eauto|].
      eexists. split; [reflexivity|]. apply (mv_task _ _ _ i _ t m); cbn [p_tasks].
      + rewrite nth_error_lset, Nat.eqb_refl, T. reflexivity.
      + intros j NE. rewrite nth_error_lset. apply Nat.eqb_neq in NE. rewrite NE. reflexivity.
      + exact G.
      + intros x1 k0 ->. eapply advance_wait, E.
      + right. right. exists clk, m0, x0. auto. }
    destruct (fits x k) eqn:Ft; [|exact Nop].
    assert (Ff : fine (f k)). { assert (F : fine (Wait x f)) by (apply A; eapply nth_error_In, T). apply F. }
    destruct (advance (f k) _) as [[t w'] m] eqn:E. destruct (advance_fine _ _ _ _ _ Ff E) as (G & F). split; [intros m' J; eapply fine_lset; eauto|].
    eexists. split; [reflexivity|]. apply (mv_task _ _ _ i _ t m); cbn [p_tasks].
    + rewrite nth_error_lset, Nat.eqb_refl, T. reflexivity.
    + intros j NE. rewrite nth_error_lset. apply Nat.eqb_neq in NE. rewrite NE. reflexivity.
    + exact G.
    + intros x0 k0 ->. eapply advance_wait, E.
    + right. left. exists k, clk, x, f. auto.
  - assert (Nop : all_fine P /\ exists new, p_log P = p_log P ++ new /\ moved (Enter i) P P new).
    { split; [exact A|]. exists []. rewrite app_nil_r. split; [reflexivity|]. apply mv_same; auto. }
    destruct (nth_error (p_tasks P) i) as [[ | | | |m0 x0]|] eqn:T; auto.
    assert (Fm : fine (Lock m0 x0)) by (apply A; eapply nth_error_In, T).
    destruct (advance (Lock m0 x0) _) as [[t w'] m] eqn:E. destruct (advance_fine _ _ _ _ _ Fm E) as (G & F). split; [intros m' J; eapply fine_lset; eauto|].
    exists ([] ++ map (By i) t). split; [reflexivity|]. apply (mv_task _ _ _ i [] t m); cbn [p_tasks].
    + rewrite nth_error_lset, Nat.eqb_refl, T. reflexivity.
    + intros j NE. rewrite nth_error_lset. apply Nat.eqb_neq in NE. rewrite NE. reflexivity.
    + exact G.
    + intros x1 k0 ->. eapply advance_wait, E.
    + left. split; [constructor|]. split; [reflexivity|]. intros x k H. rewrite T in H. discriminate H.
  - pose proof (lose_plain c (p_world P)) as F. destruct (lose c (p_world P)) as [t w']. split; [exact A|]. eexists. split; [reflexivity|]. apply mv_same; [reflexivity|apply Forall_map, F|].
    intros i. cbn [fst] in F. clear F. induction t; auto.
  - assert (Nop : all_fine P /\ exists new, p_log P = p_log P ++ new /\ moved (Push c code b) P P new).
    { split; [exact A|]. exists []. rewrite app_nil_r. split; [reflexivity|]. apply mv_same; auto. }
    destruct (handler_of c code (p_world P)) as [[]|]; try exact Nop.
    split; [exact A|]. eexists. split; [reflexivity|]. apply mv_same; [reflexivity|repeat constructor|reflexivity].
  - destruct (pstep_handle_at n P) as [->|(c0 & code0 & b0 & l & cbs & _ & _ & ->)].
    + split; [exact A|]. exists []. rewrite app_nil_r. split; [reflexivity|]. apply mv_same; auto.
    + split; [exact A|]. eexists. split; [reflexivity|]. apply mv_same; [reflexivity|repeat constructor|reflexivity].
Qed.
