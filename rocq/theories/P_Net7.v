(** What is pushed is what came and answered nothing. *)
From Verif Require Import Py F64 Struct Utf Utility Const Spec Enum Decode Messages Calls World Request Gateway Traces Paths Api Tasks Pool SpecPool Net SpecNet P_Base P_Util.
From Verif Require Import P_Net2.
From Verif Require Protocol P_Proto2 P_Proto3.
Import Protocol(zget, pstate, pevent, OutRequest, OutWrite, OutCompleted, OutDropped, OutHandler).

Lemma unasked_app c a b : unasked c (a ++ b) = unasked c a ++ unasked c b. Proof. unfold unasked. rewrite taken_app. apply flat_map_app. Qed.
Lemma pushed_app c a b : pushed c (a ++ b) = pushed c a ++ pushed c b. Proof. unfold pushed. rewrite apis_app. apply flat_map_app. Qed.
Lemma some_of_app {X} (a b : list X) : some_of a b -> forall a' b', some_of a' b' -> some_of (a ++ a') (b ++ b').
Proof.
  induction 1; intros a' b' P; cbn [app].
  - induction l as [|y l IH]; [exact P|apply some_skip; exact IH].
  - apply some_skip. auto.
  - apply some_take. auto.
Qed.
Lemma some_of_more {X} (a b b' : list X) : some_of a b -> some_of a (b ++ b').
Proof. intros S. rewrite <- (app_nil_r a). apply some_of_app; [exact S|constructor]. Qed.

(** every prefix of the log is in order *)
Definition backed (c : nat) (g : list line) : Prop := forall g1 g2, g = g1 ++ g2 -> some_of (pushed c g1) (unasked c g1).
Lemma app_split {X} (a b c d : list X) : a ++ b = c ++ d -> (exists x, a = c ++ x /\ d = x ++ b) \/ (exists x, c = a ++ x /\ b = x ++ d).
Proof.
  revert c. induction a as [|y a IH]; intros c E; [right; exists c; auto|]. destruct c as [|z c]; [left; exists (y :: a); auto|].
  injection E as -> E. destruct (IH _ E) as [(x & -> & ->)|(x & -> & ->)]; [left|right]; exists x; auto.
Qed.
Lemma backed_quiet c g h : backed c g -> pushed c h = [] -> backed c (g ++ h).
Proof.
  intros B Q g1 g2 E. destruct (app_split _ _ _ _ E) as [(x & -> & _)|(x & -> & ->)]; [eapply B; reflexivity|].
  rewrite pushed_app in Q. apply app_eq_nil in Q. destruct Q as (Q & _). rewrite pushed_app, unasked_app, Q, app_nil_r. apply some_of_more. eapply B. symmetry. apply app_nil_r.
Qed.
Lemma backed_push c g code b : backed c g -> some_of (pushed c g ++ [(code, b)]) (unasked c g) -> backed c (g ++ [Api (Pushed c code b)]).
Proof.
  intros B Q g1 g2 E. destruct (app_split _ _ _ _ E) as [(x & -> & _)|(x & -> & D)]; [eapply B; reflexivity|].
  destruct x as [|y x]; [rewrite app_nil_r; eapply B; symmetry; apply app_nil_r|]. injection D as <- D. symmetry in D. apply app_eq_nil in D. destruct D as (-> & ->).
  rewrite pushed_app, unasked_app. cbn. rewrite Nat.eqb_refl. fold (unasked c g). rewrite ?app_nil_r. exact Q.
Qed.

Lemma pushed_wire c c' os : pushed c (map (Wire c') os) = []. Proof. unfold pushed. rewrite apis_wire. reflexivity. Qed.
Lemma feed_log c e N : exists os, n_log (feed c e N) = n_log N ++ map (Wire c) os.
Proof. unfold feed. destruct (nth_error (n_links N) c); cbn [n_log]; eauto. exists []. symmetry. apply app_nil_r. Qed.
Lemma hear_log N x : exists c os, n_log (hear N x) = n_log N ++ Api x :: map (Wire c) os.
Proof.
  assert (Z : forall k, k = note (Api x) N -> exists c os, n_log k = n_log N ++ Api x :: map (Wire c) os) by (intros k ->; exists O, []; reflexivity).
  assert (F : forall c e k, n_log k = n_log (feed c e (note (Api x) N)) -> exists c os, n_log k = n_log N ++ Api x :: map (Wire c) os).
  { intros c e k ->. destruct (feed_log c e (note (Api x) N)) as (os & ->). exists c, os. cbn [note n_log]. rewrite <- app_assoc. reflexivity. }
  unfold hear. destruct x as [|i []|[]| |]; try (apply Z; reflexivity); try (eapply F; reflexivity). exists O, []. reflexivity.
Qed.
Definition no_push (x : Pool.entry) : Prop := match x with Pushed _ _ _ => False | _ => True end.
Lemma hears_log xs : Forall no_push xs -> forall N, exists h, n_log (fold_left hear xs N) = n_log N ++ h /\ forall c, pushed c h = [].
Proof.
  induction 1 as [|x xs Q F IH]; intros N; [exists []; split; [symmetry; apply app_nil_r|reflexivity]|]. cbn [fold_left]. destruct (IH (hear N x)) as (h & E & K).
  destruct (hear_log N x) as (c & os & E'). rewrite E, E'. exists ((Api x :: map (Wire c) os) ++ h). split; [rewrite <- app_assoc; reflexivity|]. intros c'.
  change (Api x :: map (Wire c) os) with ([Api x] ++ map (Wire c) os). rewrite !pushed_app, pushed_wire, K. destruct x; try reflexivity. contradiction.
Qed.
Lemma pool_log n P e : exists new, p_log (Pool.pstep n P e) = p_log P ++ new /\ (Forall no_push new \/ exists c code b, e = Push c code b /\ new = [Pushed c code b]).
Proof.
  assert (Z : exists new, p_log P = p_log P ++ new /\ (Forall no_push new \/ exists c code b, e = Push c code b /\ new = [Pushed c code b])) by (exists []; split; [symmetry; apply app_nil_r|left; constructor]).
  assert (B : forall i t, Forall no_push (map (By i) t)) by (intros i t; apply Forall_map; induction t; constructor; auto; exact Logic.I).
  assert (V : forall t, Forall no_push (map Env t)) by (intros t; apply Forall_map; induction t; constructor; auto; exact Logic.I).
  destruct e; [cbn [Pool.pstep]..|].
  - destruct (advance _ _) as [[t w'] m]. eexists. split; [reflexivity|]. left. constructor; [exact Logic.I|apply B].
  - destruct (nth_error (p_tasks P) i) as [[ | | |x f|f y]|]; auto.
    + destruct (fits x k); auto. destruct (advance _ _) as [[t w'] m]. eexists. split; [reflexivity|]. left. constructor; [exact Logic.I|apply B].
    + destruct k; auto. destruct (advance _ _) as [[t w'] m]. eexists. split; [reflexivity|]. left. constructor; [exact Logic.I|apply B].
  - destruct (nth_error (p_tasks P) i) as [[ | | |x f|m y]|]; auto. destruct (advance _ _) as [[t w'] m']. eexists. split; [reflexivity|]. left. apply B.
  - destruct (lose c (p_world P)) as [t w']. eexists. split; [reflexivity|]. left. apply V.
  - destruct (handler_of c code (p_world P)) as [[]|]; auto. eexists. split; [reflexivity|]. right. eauto 6.
  - destruct (pstep_handle_at n P) as [->|(c & code & b & l & cbs & _ & _ & ->)]; auto. eexists. split; [reflexivity|]. left. constructor; [exact Logic.I|constructor].
Qed.
Lemma move_log n e N : (forall c code b, e <> Push c code b) -> exists h, n_log (move n e N) = n_log N ++ h /\ forall c, pushed c h = [].
Proof.
  intros NP. destruct (pool_log n (n_pool N) e) as (new & E & [F|(c & code & b & H & _)]); [|destruct (NP _ _ _ H)].
  unfold move. rewrite E, skipn_app, skipn_all, Nat.sub_diag. cbn [app skipn]. match goal with |- context [fold_left hear new ?N0] => destruct (hears_log new F N0) as (h & -> & K) end. exists h. split; [reflexivity|exact K].
Qed.
(** one unsolicited message *)
Definition dealt (c : nat) (w : world) (m : Z * bytes) : list line :=
  match handler_of c (fst m) w with
  | Some (HClient _) => [Api (Pushed c (fst m) (snd m))]
  | Some (HUser u) => [Own c u (fst m) (snd m)]
  | None => []
  end.
Lemma push_log n c m N :
  n_log (shove n c N (OutDropped m)) = n_log N ++ dealt c (p_world (n_pool N)) (Protocol.msg_code m, Protocol.msg_data m) /\
  p_world (n_pool (shove n c N (OutDropped m))) = p_world (n_pool N).
Proof.
  unfold dealt. cbn [fst snd shove]. unfold tell. destruct (handler_of c (Protocol.msg_code m) (p_world (n_pool N))) as [[k|u]|] eqn:H;
    unfold move; cbn [Pool.pstep note n_pool]; rewrite H; cbn [p_log p_world].
  - rewrite skipn_app, skipn_all, Nat.sub_diag. cbn [app skipn fold_left]. split; reflexivity.
  - rewrite skipn_all. cbn [fold_left n_log n_pool note]. split; reflexivity.
  - rewrite skipn_all. cbn [fold_left n_log n_pool note]. rewrite app_nil_r. split; reflexivity.
Qed.
Lemma dealt_pushed c w m : pushed c (dealt c w m) = if subscribed c w m then [m] else [].
Proof. unfold dealt, subscribed, pushed. destruct (handler_of c (fst m) w) as [[]|]; cbn; rewrite ?Nat.eqb_refl; destruct m; reflexivity. Qed.
Lemma dealt_others c w m c' : c' <> c -> pushed c' (dealt c w m) = [].
Proof. intros NE. unfold dealt, pushed. destruct (handler_of c (fst m) w) as [[]|]; cbn; try reflexivity. destruct (Nat.eqb_spec c c'); [congruence|reflexivity]. Qed.
Lemma dealt_unasked c w m c' : unasked c' (dealt c w m) = [].
Proof. unfold dealt. destruct (handler_of c (fst m) w) as [[]|]; reflexivity. Qed.

(** no protocol object has handlers of its own here: what answers nothing is dropped *)
Definition bare (s : pstate) : Prop := Protocol.p_cbs s = [] /\ forall h m, ~ In (OutHandler h m) (Protocol.p_log s).
Lemma bare_log s os : bare s -> (forall h m, ~ In (OutHandler h m) os) -> bare (Protocol.up_log os s).
Proof. intros (A & B) K. split; [exact A|]. intros h m J. cbn in J. apply in_app_or in J. destruct J as [J|J]; [exact (B _ _ J)|exact (K _ _ J)]. Qed.
Lemma bare_data b s : bare s -> bare (Protocol.data_received b s).
Proof.
  intros B. unfold Protocol.data_received. destruct (Protocol.p_closing s); [exact B|]. destruct (Protocol.complete_messages _ _) as [ms rest].
  assert (B0 : bare (Protocol.up_buff rest s)) by exact B. revert B0. generalize (Protocol.up_buff rest s) as s0.
  induction ms as [|m ms IH]; intros s0 B0; [exact B0|]. cbn [fold_left]. apply IH. destruct m as [m|]; [|exact B0]. cbn [Protocol.deliver_res]. unfold Protocol.deliver, Protocol.mark_done.
  assert (Dr : forall s1, bare s1 -> bare (match zget (Protocol.msg_code m) (Protocol.p_cbs s1) with Some h => Protocol.up_log [OutHandler h m] s1 | None => Protocol.up_log [OutDropped m] s1 end)).
  { intros s1 B1. rewrite (proj1 B1). cbn [zget]. apply bare_log; [exact B1|]. intros h m' [J|[]]. discriminate J. }
  destruct (zget (Protocol.msg_id m) (Protocol.p_coll s0)) as [f|]; [|apply Dr, B0]. cbn [Protocol.up_futs Protocol.p_futs Protocol.p_coll].
  destruct (Protocol.fget f (Protocol.p_futs s0)); [|exact B0|apply Dr, B0]. apply bare_log; [exact B0|]. intros h m' [J|[]]. discriminate J.
Qed.
Lemma bare_keepalive s : bare s -> bare (Protocol.set_keepalive s).
Proof. intros B. unfold Protocol.set_keepalive, Protocol.stop_keepalive. repeat match goal with |- context [match ?x with _ => _ end] => destruct x end; exact B. Qed.
Lemma bare_send id X p s : bare s -> bare (fst (Protocol.send_message id X p s)).
Proof.
  intros B. unfold Protocol.send_message. destruct (Protocol.p_transport s); [exact B| | |];
    try (destruct (makeMessage id X p) as [x|]; [|exact B]); cbn zeta; cbn [fst];
    match goal with |- bare match Protocol.p_ka ?s1 with _ => _ end => assert (B1 : bare s1) by (first [exact B|apply (bare_log s [OutWrite x]); [exact B|intros h m [J|[]]; discriminate J]]);
      destruct (Protocol.p_ka s1); [apply bare_keepalive|]; exact B1 end.
Qed.
Lemma bare_step s e : tells e = true -> bare s -> bare (Protocol.pstep s e).
Proof.
  intros T B. destruct e; try discriminate T; cbn [Protocol.pstep].
  - destruct (Protocol.p_transport s); try exact B; apply bare_data, B.
  - assert (K : bare (fst (Protocol.connection_lost s))).
    { unfold Protocol.connection_lost. assert (B0 : bare (Protocol.up_tasks (S (Protocol.p_lost_tasks (Protocol.stop_keepalive (Protocol.up_conn false Protocol.TGone s)))) (Protocol.stop_keepalive (Protocol.up_conn false Protocol.TGone s)))).
      { unfold Protocol.stop_keepalive. match goal with |- context [match ?x with _ => _ end] => destruct x end; exact B. }
      destruct (Protocol.p_closed _); try exact B0. cbn [fst]. match goal with |- bare (if ?x then _ else _) => destruct x end; [|exact B0]. apply bare_log; [exact B0|]. intros h m [J|[]]. discriminate J. }
    destruct (Protocol.p_transport s); try exact B; exact K.
  - destruct (Protocol.p_lost_tasks s); exact B.
  - unfold Protocol.await_send_message. cbn zeta. match goal with |- context [Protocol.up_log [OutRequest ?f ?i ?c ?d] ?x] => assert (B1 : bare (Protocol.up_log [OutRequest f i c d] x)) by (apply bare_log; [exact B|intros h m [J|[]]; discriminate J]);
      set (s1 := Protocol.up_log [OutRequest f i c d] x) in * end.
    destruct (Protocol.p_closing s1); [exact B1|]. pose proof (bare_send (Protocol.p_next s) code data s1 B1) as K. destruct (Protocol.send_message _ _ _ s1) as [s2 [|]]; exact K.
  - exact B.
  - unfold Protocol.close_start, Protocol.all_done_start. destruct (Protocol.p_transport s), force; exact B.
  - unfold Protocol.close_resume, Protocol.close_transport. destruct (nth i (Protocol.p_closers s) Protocol.CDone); try exact B; [|destruct (Protocol.p_closed s); exact B].
    destruct (Protocol.gather_done fs (Protocol.p_futs s)); [|exact B]. destruct (Protocol.p_transport s); try exact B. apply (bare_log s [Protocol.OutClosedTransport] B). intros h m [J|[]]. discriminate J.
  - unfold Protocol.close_cancel. destruct (nth i (Protocol.p_closers s) Protocol.CDone); try exact B. destruct (Protocol.p_closed s); exact B.
Qed.
Definition all_bare (N : net) : Prop := Forall bare (n_links N).
Lemma lset_all {X} (P : X -> Prop) i x l : Forall P l -> P x -> Forall P (lset i x l).
Proof. intros F K. revert i. induction F as [|y l Q F IH]; intros [|i]; cbn [lset]; constructor; auto. Qed.
Lemma bare_feed c e N : tells e = true -> all_bare N -> all_bare (feed c e N).
Proof.
  intros T B. unfold feed, all_bare. destruct (nth_error (n_links N) c) as [s|] eqn:E; [|exact B]. cbn [n_links]. apply lset_all; [exact B|]. apply bare_step; [exact T|].
  unfold all_bare in B. rewrite Forall_forall in B. apply B. eapply nth_error_In, E.
Qed.
Lemma bare_hear N x : all_bare N -> all_bare (hear N x).
Proof. intros B. assert (B1 : all_bare (note (Api x) N)) by exact B. unfold hear. destruct x as [|i []|[]| |]; try exact B1; try (apply bare_feed; [reflexivity|exact B1]). Qed.
Lemma bare_move n e N : all_bare N -> all_bare (move n e N).
Proof.
  intros B. unfold move. match goal with |- all_bare (fold_left hear ?l ?x) => generalize l as xs; assert (K1 : all_bare x); [|revert K1; generalize x as N0] end.
  - unfold all_bare. cbn [n_links]. apply Forall_app. split; [exact B|]. apply Forall_forall. intros s J. apply repeat_spec in J. subst s. split; [reflexivity|]. intros h m [].
  - intros N0 K1 xs. revert N0 K1. induction xs as [|x xs IH]; intros N0 K1; [exact K1|]. cbn [fold_left]. apply IH, bare_hear, K1.
Qed.

(** the messages of one delivery that answered nothing *)
Definition drops (os : list Protocol.pout) : list (Z * bytes) :=
  flat_map (fun o => match o with OutDropped m => [(Protocol.msg_code m, Protocol.msg_data m)] | _ => [] end) os.
Lemma unasked_wire c os : (forall h m, ~ In (OutHandler h m) os) -> unasked c (map (Wire c) os) = drops os.
Proof.
  intros K. unfold unasked, taken. rewrite wires_wire. unfold drops. induction os as [|o os IH]; [reflexivity|]. cbn [flat_map]. rewrite flat_map_app, IH by (intros h m J; apply (K h m); right; exact J).
  destruct o; try reflexivity. exfalso. apply (K h m). left. reflexivity.
Qed.
Lemma unasked_other c c' os : c' <> c -> unasked c (map (Wire c') os) = [].
Proof. intros NE. unfold unasked, taken. rewrite wires_other by exact NE. reflexivity. Qed.
Lemma filter_ext2 {X} (f g : X -> bool) l : (forall x, f x = g x) -> filter f l = filter g l.
Proof. intros E. induction l as [|x l IH]; [reflexivity|]. cbn. rewrite E, IH. reflexivity. Qed.
Lemma shoves_log n c : forall os N, exists h, n_log (fold_left (shove n c) os N) = n_log N ++ h /\
  h = flat_map (dealt c (p_world (n_pool N))) (drops os) /\
  (forall u, some_of (pushed c (n_log N)) u -> unasked c (n_log N) = u ++ drops os -> backed c (n_log N) -> backed c (n_log N ++ h)).
Proof.
  induction os as [|o os IH]; intros N.
  - exists []. rewrite app_nil_r. repeat split; auto.
  - cbn [fold_left]. assert (Skip : shove n c N o = N -> drops (o :: os) = drops os -> exists h, n_log (fold_left (shove n c) os (shove n c N o)) = n_log N ++ h /\
      h = flat_map (dealt c (p_world (n_pool N))) (drops (o :: os)) /\
      (forall u, some_of (pushed c (n_log N)) u -> unasked c (n_log N) = u ++ drops (o :: os) -> backed c (n_log N) -> backed c (n_log N ++ h))) by (intros -> ->; apply IH).
    destruct o; try (apply Skip; reflexivity). clear Skip. destruct (push_log n c m N) as (L & W).
    set (N' := shove n c N (OutDropped m)) in *. destruct (IH N') as (h & L' & Ph & Bh). rewrite W in Ph.
    set (k := dealt c (p_world (n_pool N)) (Protocol.msg_code m, Protocol.msg_data m)) in *.
    exists (k ++ h). rewrite L', L. split; [rewrite <- app_assoc; reflexivity|]. split; [rewrite Ph; reflexivity|].
    intros u0 Su Uu B. rewrite app_assoc, <- L. change (drops (OutDropped m :: os)) with ((Protocol.msg_code m, Protocol.msg_data m) :: drops os) in Uu.
    apply (Bh (u0 ++ [(Protocol.msg_code m, Protocol.msg_data m)])); rewrite L.
    + rewrite pushed_app. apply some_of_app; [exact Su|]. unfold k. rewrite dealt_pushed. destruct (subscribed _ _ _); [apply some_take, some_nil|apply some_nil].
    + rewrite unasked_app. unfold k. rewrite dealt_unasked, app_nil_r, Uu, <- app_assoc. reflexivity.
    + destruct (pushed c k) as [|y l] eqn:Pk.
      * apply backed_quiet; [exact B|exact Pk].
      * unfold k, dealt in *. cbn [fst snd] in *. destruct (handler_of _ _ _) as [[]|]; [|discriminate Pk..]. apply backed_push; [exact B|]. rewrite Uu. apply some_of_app; [exact Su|apply some_take, some_nil].
Qed.
Lemma dealts_pushed c w l : pushed c (flat_map (dealt c w) l) = filter (subscribed c w) l.
Proof. induction l as [|m l IH]; [reflexivity|]. cbn [flat_map filter]. rewrite pushed_app, IH, dealt_pushed. destruct (subscribed c w m); reflexivity. Qed.
Lemma dealts_others c w l c' : c' <> c -> pushed c' (flat_map (dealt c w) l) = [].
Proof. intros NE. induction l as [|m l IH]; [reflexivity|]. cbn [flat_map]. rewrite pushed_app, IH, dealt_others by exact NE. reflexivity. Qed.
Lemma dealts_unasked c w l c' : unasked c' (flat_map (dealt c w) l) = [].
Proof. induction l as [|m l IH]; [reflexivity|]. cbn [flat_map]. rewrite unasked_app, IH, dealt_unasked. reflexivity. Qed.
Definition sane (N : net) : Prop := all_bare N /\ forall c, backed c (n_log N).
Lemma data_log n N c b s : all_bare N -> nth_error (n_links N) c = Some s -> takes_bytes s = true ->
  exists os h, n_log (nstep n N (NData c b)) = ((n_log N ++ [Came c b]) ++ map (Wire c) os) ++ h /\ (forall h m, ~ In (OutHandler h m) os) /\
    h = flat_map (dealt c (p_world (n_pool N))) (drops os) /\
    ((forall c', backed c' (n_log N)) -> forall c', backed c' (n_log (nstep n N (NData c b)))).
Proof.
  intros B E T. cbn [nstep]. rewrite E, T. fold (new_of s (Protocol.EvData b)). set (os := new_of s (Protocol.EvData b)).
  assert (L : n_log (feed c (Protocol.EvData b) (note (Came c b) N)) = (n_log N ++ [Came c b]) ++ map (Wire c) os) by (unfold feed; cbn [note n_links]; rewrite E; reflexivity).
  assert (Pw : n_pool (feed c (Protocol.EvData b) (note (Came c b) N)) = n_pool N) by (unfold feed; cbn [note n_links]; rewrite E; reflexivity).
  assert (NH : forall h m, ~ In (OutHandler h m) os).
  { intros h m J. unfold all_bare in B. rewrite Forall_forall in B. pose proof (bare_step s (Protocol.EvData b) eq_refl (B s (nth_error_In _ _ E))) as (_ & K). apply (K h m).
    unfold os, new_of in J. rewrite <- (firstn_skipn (List.length (Protocol.p_log s)) (Protocol.p_log (Protocol.pstep s (Protocol.EvData b)))). apply in_or_app. right. exact J. }
  destruct (shoves_log n c os (feed c (Protocol.EvData b) (note (Came c b) N))) as (h & Lh & Ph & Bh). rewrite Pw in Ph. rewrite L in Lh, Bh.
  exists os, h. rewrite Lh. split; [reflexivity|]. split; [exact NH|]. split; [exact Ph|]. intros Bk c'.
  assert (B1 : backed c' ((n_log N ++ [Came c b]) ++ map (Wire c) os)) by (apply backed_quiet; [apply backed_quiet; [apply Bk|reflexivity]|apply pushed_wire]).
  destruct (Nat.eq_dec c' c) as [->|NE]; [|apply backed_quiet; [exact B1|rewrite Ph; apply dealts_others, NE]]. apply (Bh (unasked c (n_log N))); [| |exact B1].
  - rewrite !pushed_app, pushed_wire. cbn. rewrite !app_nil_r. apply (Bk c (n_log N) []). symmetry. apply app_nil_r.
  - rewrite !unasked_app, unasked_wire by exact NH. cbn. rewrite app_nil_r. reflexivity.
Qed.
Lemma sane_step n N e : sane N -> sane (nstep n N e).
Proof.
  intros (B & K).
  assert (Mv : forall x N0, all_bare N0 -> (forall c, backed c (n_log N0)) -> (forall c code b, x <> Push c code b) -> sane (move n x N0)).
  { intros x N0 B0 K0 NP. split; [apply bare_move, B0|]. intros c. destruct (move_log n x N0 NP) as (h & -> & Q). apply backed_quiet; auto. }
  assert (Fd : forall c x, tells x = true -> sane (feed c x N)).
  { intros c x T. split; [apply bare_feed; assumption|]. intros c'. destruct (feed_log c x N) as (os & ->). apply backed_quiet; [apply K|apply pushed_wire]. }
  assert (Id : sane N) by (split; assumption).
  destruct e; cbn [nstep].
  - apply Mv; auto; discriminate.
  - apply Mv; auto; discriminate.
  - destruct (awaits i N) as [[]|]; auto; apply Mv; auto; discriminate.
  - destruct (nth_error (n_links N) c) as [s|] eqn:E; [|exact Id]. destruct (takes_bytes s) eqn:T; [|exact Id]. split.
    + assert (B1 : all_bare (feed c (Protocol.EvData b) (note (Came c b) N))) by (apply bare_feed; [reflexivity|exact B]).
      revert B1. generalize (feed c (Protocol.EvData b) (note (Came c b) N)) as N0. match goal with |- context [fold_left _ ?l _] => generalize l as os end.
      induction os as [|o os IH]; intros N0 B1; [exact B1|]. cbn [fold_left]. apply IH. destruct o; auto. cbn [shove]. apply bare_move. unfold tell. destruct (handler_of _ _ _) as [[]|]; exact B1.
    + destruct (data_log n N c b s B E T) as (os & h & _ & _ & _ & Bk). specialize (Bk K). cbn [nstep] in Bk. rewrite E, T in Bk. exact Bk.
  - apply Mv; auto; discriminate.
  - apply Fd. reflexivity.
  - destruct (n_slot N i) as [|c f []|]; auto. apply (Fd c (Protocol.EvCancel f) eq_refl).
  - destruct (n_slot N i) as [|c f x|c j].
    + destruct (awaits i N) as [[]|], (queues i N); auto; apply Mv; auto; discriminate.
    + apply (Fd c (Protocol.EvCancel f) eq_refl).
    + apply Fd. reflexivity.
  - destruct (n_slot N i) as [|c f x|c j]; destruct (awaits i N) as [[]|]; auto.
    + destruct (Protocol.p_closed _); auto; apply Mv; auto; discriminate.
    + destruct (Protocol.fget _ _), x; auto; apply Mv; auto; discriminate.
    + destruct (nth j _ _); auto. destruct (Protocol.gather_done _ _); auto. destruct (Fd c (Protocol.EvCloseResume j) eq_refl) as (B1 & K1). apply Mv; auto; discriminate.
  - apply Mv; auto; discriminate.
Qed.
Lemma sane_run n w : forall es, sane (nrun n (nstart w) es).
Proof.
  assert (K : forall es N, sane N -> sane (nrun n N es)) by (induction es as [|e es IH]; intros N S; [exact S|]; cbn [nrun fold_left]; apply IH, sane_step, S).
  intros es. apply K. split; [constructor|]. intros c g1 g2 E. destruct g1; [constructor|discriminate E].
Qed.
