(** Proofs for Prop_SlowCli.v: the command line when answers come late. *)
From Verif Require Import Py F64 Struct Utf Utility Const Enum Decode World Request Gateway Traces Api P_Base P_Util P_Monad P_Request SpecSlow P_Slow P_Slow2 Discovery Cli.

Section Slow.
Variable lim : Z -> Z.
Hypothesis Once16 : lim 16 <= 0.
Hypothesis Once12524 : lim 12524 <= 0.
Variable n : nat.
Local Notation J := (J lim).

Definition tolp (p : prog) : Prop := forall w ls t w1 o, run n p w = (ls, (t, w1, o)) -> P_Slow.ends o -> J w ->
  J w1 /\ P_Slow.fin t /\ forall e t' tl, slower lim t e t' -> run n p (set_env (e ++ tl) w) = (ls, (t', set_env tl w1, o)).

Lemma tolp_return z : tolp (Return z).
Proof. intros w ls t w1 o E N K. injection E as <- <- <- <-. split; [exact K|]. split; [constructor|]. intros e t' tl S. apply slower_nil in S. destruct S as (-> & ->). reflexivity. Qed.
Lemma tolp_raise x : tolp (Raise x).
Proof. intros w ls t w1 o E N K. injection E as <- <- <- <-. split; [exact K|]. split; [constructor|]. intros e t' tl S. apply slower_nil in S. destruct S as (-> & ->). reflexivity. Qed.
Lemma tolp_print l p : tolp p -> tolp (Print l p).
Proof.
  intros H w ls t w1 o E N K. cbn [run] in E. destruct (run n p w) as [ls2 [[t2 w2] o2]] eqn:R. injection E as <- <- <- <-.
  destruct (H _ _ _ _ _ R N K) as (K1 & F & S). split; [exact K1|]. split; [exact F|]. intros e t' tl Sl. cbn [run]. rewrite (S _ _ _ Sl). reflexivity.
Qed.
Lemma tolp_then {A} (m : M A) (p : prog) (f : prog) :
  (forall w, run n f w = let '(t, w1, o) := m w in match o with
     | Val _ => let '(ls, (t2, w2, o2)) := run n p w1 in (ls, (t ++ t2, w2, o2))
     | Exc e => ([], (t, w1, Exc e)) | Stuck y => ([], (t, w1, Stuck y)) end) ->
  tol lim m -> tolp p -> tolp f.
Proof.
  intros Rf Hm Hp w ls t w1 o E N K. rewrite Rf in E. destruct (m w) as [[t1 w2] o1] eqn:Em. destruct o1 as [a|x|y].
  - destruct (run n p w2) as [ls2 [[t2 w3] o2]] eqn:R. injection E as <- <- <- <-.
    destruct (Hm _ _ _ _ Em ltac:(discriminate) K) as (K1 & F1 & S1). destruct (Hp _ _ _ _ _ R N K1) as (K2 & F2 & S2).
    split; [exact K2|]. split; [apply fin_app; assumption|]. intros e t' tl S.
    destruct (slower_split lim _ _ _ S t1 t2 eq_refl F1) as (e1 & e2 & s1 & s2 & -> & -> & Sa & Sb).
    rewrite Rf, <- app_assoc, (S1 _ _ _ Sa), (S2 _ _ _ Sb). reflexivity.
  - injection E as <- <- <- <-. destruct (Hm _ _ _ _ Em ltac:(discriminate) K) as (K1 & F1 & S1). split; [exact K1|]. split; [exact F1|].
    intros e t' tl S. rewrite Rf, (S1 _ _ _ S). reflexivity.
  - injection E as <- <- <- <-. destruct (N y eq_refl).
Qed.
Lemma tolp_call c p : (forall k, c <> SetMaxRetries k) -> tolp p -> tolp (Call c p).
Proof. intros Ns H. apply (tolp_then (perform n c) p); [reflexivity|apply tol_perform; assumption|exact H]. Qed.
Lemma tolp_pause ms p : tolp p -> tolp (Pause ms p).
Proof. intros H. apply (tolp_then (msleep ms) p); [reflexivity|apply tol_sleep|exact H]. Qed.
Lemma tolp_look k : (forall e w, k (set_env e w) = k w) -> (forall w, tolp (k w)) -> tolp (Look k).
Proof.
  intros C H w ls t w1 o E N K. cbn [run] in E. destruct (H w _ _ _ _ _ E N K) as (K1 & F & S). split; [exact K1|]. split; [exact F|].
  intros e t' tl Sl. cbn [run]. rewrite C. apply S, Sl.
Qed.
Lemma tolp_read {A} (f : dict -> res A) k : (forall a, tolp (k a)) -> tolp (read f k).
Proof. intros H. apply tolp_look; [reflexivity|]. intros w. destruct (f (w_data w)); [apply H|apply tolp_raise]. Qed.
Lemma tolp_lift {A} (r : res A) k : (forall a, tolp (k a)) -> tolp (lift r k).
Proof. intros H. destruct r; [apply H|apply tolp_raise]. Qed.

Ltac tp := repeat (cbv zeta; lazymatch goal with
  | |- tolp (Return _) => apply tolp_return
  | |- tolp (Raise _) => apply tolp_raise
  | |- tolp (Print _ _) => apply tolp_print
  | |- tolp (Call _ _) => apply tolp_call; [discriminate|]
  | |- tolp (Pause _ _) => apply tolp_pause
  | |- tolp (read _ _) => apply tolp_read; intros ?
  | |- tolp (lift _ _) => apply tolp_lift; intros ?
  | |- tolp (match ?x with _ => _ end) => destruct x
  end).

Lemma tolp_fin z : tolp (Cli.fin z). Proof. unfold Cli.fin. tp. Qed.
Lemma tolp_show v p cls k : tolp k -> tolp (show v p cls k).
Proof. intros H. unfold show. tp; exact H. Qed.
Lemma tolp_scg v a b c d : tolp (set_scg v a b c d Cli.fin).
Proof. unfold set_scg. tp; apply tolp_fin. Qed.
Lemma tolp_chem v a b c d e f : tolp (set_chem v a b c d e f Cli.fin).
Proof. unfold set_chem. tp; apply tolp_fin. Qed.
Lemma tolp_date now d s : tolp (set_date_time now d s Cli.fin).
Proof. unfold set_date_time. tp; apply tolp_fin. Qed.
Lemma tolp_export : tolp export_data.
Proof. unfold export_data. tp. apply tolp_look; [reflexivity|]. intros w. tp. Qed.
Lemma tolp_action v now c : tolp (action v now c Cli.fin).
Proof.
  unfold action. destruct c; tp;
    first [apply tolp_fin | apply tolp_show, tolp_fin | apply tolp_scg | apply tolp_chem | apply tolp_date | idtac].
Qed.
Lemma tolp_print_gateway v d k : tolp k -> tolp (print_gateway v d k).
Proof. intros H. unfold print_gateway. apply tolp_look; [reflexivity|]. intros w. tp; exact H. Qed.
Lemma tolp_circuits l k : tolp k -> tolp (print_circuits_loop l k).
Proof. intros H. induction l as [|[i c] l IH]; cbn [print_circuits_loop]; [exact H|]. tp; exact IH. Qed.
Lemma tolp_heat l k : tolp k -> tolp (print_heat_loop l k).
Proof. intros H. induction l as [|[i c] l IH]; cbn [print_heat_loop]; [exact H|]. tp; exact IH. Qed.
Lemma tolp_dashboard v d k : tolp k -> tolp (print_dashboard v d k).
Proof.
  intros H. unfold print_dashboard. apply tolp_print_gateway. tp. unfold print_heat. tp. apply tolp_heat. tp. unfold print_circuits. tp.
  apply tolp_circuits. tp. exact H.
Qed.
Lemma tolp_main v d now x c : tolp (main v d now x c).
Proof.
  unfold main. apply tolp_call; [discriminate|]. apply tolp_call; [discriminate|]. apply tolp_look; [reflexivity|]. intros w.
  destruct (negb _); [apply tolp_return|].
  assert (A : tolp ((if v then print_gateway v d else fun k => k) (action v now c Cli.fin))).
  { destruct v; [apply tolp_print_gateway|]; apply tolp_action. }
  destruct c; first [exact A|apply tolp_export|apply tolp_dashboard, tolp_fin].
Qed.
Lemma tolp_hosts v hs : tolp (list_hosts v hs).
Proof. induction hs as [|h hs IH]; cbn [list_hosts]; tp; exact IH. Qed.
Lemma tolp_program o now f c : tolp (program o now f c).
Proof.
  unfold program. destruct (no_ip o); [|apply tolp_main]. apply tolp_lift. intros hs. destruct hs as [|h hs]; [tp|].
  destruct c; try apply tolp_main. destruct (o_verbose o); tp; apply tolp_hosts.
Qed.
End Slow.
