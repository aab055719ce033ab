(** The link of one connection, seen from the log of Net.v. *)
From Verif Require Import Py F64 Struct Utf Utility Const Spec World Api Pool SpecPool Net SpecNet P_Base P_Util.
From Verif Require Import Protocol P_Proto1 P_Proto2 P_Proto3 P_Net2.
From Verif Require P_Pool2.

Notation is_lost := P_Pool2.is_lost.
Record lk (c : nat) (s : pstate) (g : list line) : Prop := {
  L_linked : linked c s g;
  L_sound : sound_state s;
  L_closing : p_closing s = true -> exists j f, In (By j (AwaitFutures c f)) (apis g);
  L_gone : p_transport s = TGone -> exists x, In x (apis g) /\ is_lost c x;
  L_futs : List.length (p_futs s) = List.length (sent c g);
  L_written : written c g = numbered 0 (sent c g);
  L_rest : rest_state s;
  L_lost : forall x, In x (apis g) -> is_lost c x -> p_transport s = TGone }.

Lemma in_apis_app x a b : In x (apis a) -> In x (apis (a ++ b)). Proof. intros I. rewrite apis_app. apply in_or_app. auto. Qed.
Lemma written_none c g : wires c g = [] -> written c g = []. Proof. intros E. unfold written. rewrite E. reflexivity. Qed.
Lemma written_wire c os : Forall unwritten os -> written c (map (Wire c) os) = [].
Proof.
  intros F. unfold written. rewrite wires_wire. induction F as [|o os O _ IH]; [reflexivity|]. cbn [flat_map]. rewrite IH. destruct o; try reflexivity. destruct O.
Qed.
Lemma sent_wire c c' os : sent c (map (Wire c') os) = []. Proof. unfold sent. rewrite apis_wire. reflexivity. Qed.
Lemma numbered_snoc X p : forall l j, numbered j (l ++ [(X, p)]) = numbered j l ++ [frame (Z.of_nat (j + List.length l) mod 32767, X, p)].
Proof.
  induction l as [|[Y q] l IH]; intros j; cbn [app numbered List.length].
  - rewrite Nat.add_0_r. reflexivity.
  - rewrite IH. replace (S j + List.length l)%nat with (j + S (List.length l))%nat by lia. reflexivity.
Qed.

Lemma lk_other c s g extra : lk c s g -> wires c extra = [] -> came c extra = [] -> sent c extra = [] -> (forall x, In x (apis extra) -> ~ is_lost c x) -> lk c s (g ++ extra).
Proof.
  intros [A B C D E F Rs Lo] W K S NL. split; auto using linked_other.
  - intros H. destruct (C H) as (j & f & I). exists j, f. apply in_apis_app, I.
  - intros H. destruct (D H) as (x & I & J). exists x. split; [apply in_apis_app, I|exact J].
  - rewrite sent_app, S, app_nil_r. exact E.
  - rewrite sent_app, S, app_nil_r, written_app, (written_none _ _ W), app_nil_r. exact F.
  - intros x J. rewrite apis_app in J. apply in_app_or in J. destruct J as [J|J]; [apply Lo, J|]. intros X. destruct (NL x J X).
Qed.
Lemma lk_new c g : wires c g = [] -> came c g = [] -> sent c g = [] -> (forall x, In x (apis g) -> ~ is_lost c x) -> lk c new_link g.
Proof.
  intros W K S NL. split.
  - apply linked_new; assumption.
  - split; [discriminate|]. intros _. split; [reflexivity|discriminate].
  - discriminate.
  - discriminate.
  - rewrite S. reflexivity.
  - rewrite S. apply written_none, W.
  - split; [reflexivity|discriminate].
  - intros x J X. destruct (NL x J X).
Qed.
Lemma lk_step c s g e extra : lk c s g -> wf_event e -> tells e = true -> (forall X p, e <> EvRequest X p) ->
  wires c extra = [] -> sent c extra = [] ->
  came c extra = (match e with EvData b => if up s && negb (p_closing s) then b else [] | _ => [] end) ->
  (forall f, e = EvClose f -> exists j f', In (By j (AwaitFutures c f')) (apis (g ++ extra))) ->
  (e = EvLost -> exists x, In x (apis (g ++ extra)) /\ is_lost c x) ->
  (forall x, In x (apis extra) -> is_lost c x -> e = EvLost) ->
  lk c (pstep s e) ((g ++ extra) ++ map (Wire c) (new_of s e)).
Proof.
  intros [A B C D E F Rs Lo] W T NR X1 X2 X3 X4 X5 X6.
  destruct (new_unwritten s e (linked_reach _ _ _ A) W T NR) as (U & LF). destruct (step_state s e T B) as (S1 & S2 & S3). split.
  - apply linked_step; assumption.
  - exact S1.
  - intros H. destruct (S2 H) as [K|(f & K)]; [destruct (C K) as (j & f & I); exists j, f; do 2 apply in_apis_app; exact I|].
    destruct (X4 f K) as (j & f' & I). exists j, f'. apply in_apis_app, I.
  - intros H. destruct (S3 H) as [K|K]; [destruct (D K) as (x & I & J); exists x; split; [do 2 apply in_apis_app; exact I|exact J]|].
    destruct (X5 K) as (x & I & J). exists x. split; [apply in_apis_app, I|exact J].
  - rewrite LF, E, !sent_app, X2, sent_wire, !app_nil_r. reflexivity.
  - rewrite !sent_app, X2, sent_wire, !app_nil_r, !written_app, (written_none _ _ X1), (written_wire _ _ U), !app_nil_r. exact F.
  - apply step_rest; auto; [eapply linked_reach, A|]. intros X p K. destruct (NR X p K).
  - intros x J Lx. rewrite !apis_app, apis_wire, app_nil_r in J. apply in_app_or in J. destruct J as [J|J]; [apply gone_stays; [exact T|exact (Lo x J Lx)]|].
    rewrite (X6 x J Lx). apply lost_goes, B.
Qed.
(** the request number [f] of the connection is the first thing of that number *)
Lemma completed_bound c s g f m : lk c s g -> In (OutCompleted f m) (wires c g) -> (f < List.length (sent c g))%nat.
Proof.
  intros [A _ _ _ E _ _ _] I. pose proof (linked_reach _ _ _ A) as R. destruct A as (pes & _ & _ & _ & P). rewrite <- P in I. destruct (completed_ids s f m R I) as (_ & J & _).
  destruct (reach_inv s R) as ([Rq _ _ _ _ _ _ _] & _). rewrite Rq in J. apply in_map_iff in J. destruct J as (x & J & K). injection J as <- _. apply in_seq in K. lia.
Qed.
Lemma lk_send c s g i X p : lk c s g -> p_transport s = TUp -> p_closing s = false -> is_u16 X -> zlen p < 4294967296 ->
  let f := List.length (sent c g) in
  new_of s (EvRequest X p) = [OutRequest f (Z.of_nat f mod 32767) X p; OutWrite (frame (Z.of_nat f mod 32767, X, p))] /\
  lk c (pstep s (EvRequest X p)) ((g ++ [Api (By i (Send c X p))]) ++ map (Wire c) (new_of s (EvRequest X p))) /\
  fget f (p_futs (pstep s (EvRequest X p))) = FPending.
Proof.
  intros [A B C D E F Rs Lo] T Cl HX Hp f. pose proof (linked_reach _ _ _ A) as R. destruct (new_request s X p R T Cl HX Hp) as (N & L & P). cbn zeta in N. rewrite E in N, L, P. fold f in N, L, P.
  destruct (step_state s (EvRequest X p) eq_refl B) as (S1 & S2 & S3). split; [exact N|]. split; [|exact P]. split.
  - apply linked_step; [exact A|exact Logic.I|reflexivity|reflexivity].
  - exact S1.
  - intros H. destruct (S2 H) as [K|(f' & K)]; [|discriminate K]. destruct (C K) as (j & f' & I). exists j, f'. do 2 apply in_apis_app. exact I.
  - intros H. destruct (S3 H) as [K|K]; [|discriminate K]. destruct (D K) as (x & I & J). exists x. split; [do 2 apply in_apis_app; exact I|exact J].
  - rewrite L, !sent_app, sent_wire, app_nil_r, app_length. unfold sent at 2. cbn [apis flat_map app]. rewrite Nat.eqb_refl. cbn [app List.length]. unfold f. lia.
  - rewrite !sent_app, sent_wire, app_nil_r. assert (K : sent c [Api (By i (Send c X p))] = [(X, p)]) by (unfold sent; cbn [apis flat_map app]; rewrite Nat.eqb_refl; reflexivity). rewrite K, numbered_snoc.
    rewrite !written_app, F. unfold written at 1 2. rewrite wires_wire, N. cbn [wires flat_map app Nat.add]. rewrite app_nil_r. reflexivity.
  - apply step_rest; auto. exact Logic.I.
  - intros x J Lx. rewrite !apis_app, apis_wire, app_nil_r in J. apply in_app_or in J. destruct J as [J|[J|[]]]; [apply gone_stays; [reflexivity|exact (Lo x J Lx)]|].
    subst x. destruct Lx as [Lx|(j & Lx)]; discriminate Lx.
Qed.
