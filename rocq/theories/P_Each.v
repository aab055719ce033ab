(** Every call ends by itself: no matter how many other calls are made, for ever. *)
From Verif Require Import Py F64 Struct Utf Utility Const Enum Decode World Request Gateway Api Tasks Pool SpecPool SpecTerm P_Pool P_Moves P_Path P_Term.

(** ** how many connections a call has opened *)
Lemma completed_le t : forall x, (completed t <= completed (t ++ x))%nat.
Proof.
  induction t as [|e t IH]; intros x; [cbn; lia|]. destruct e; cbn [app completed]; try apply IH. destruct t as [|e' t]; [cbn; lia|].
  specialize (IH x). cbn [app] in *. destruct e'; cbn [completed] in *; try exact IH. destruct (r_kind r); lia.
Qed.
Lemma completed_open t ip port ms r x : r_kind r = KDone -> (completed (t ++ [Open ip port ms]) + 1 <= completed ((t ++ [Open ip port ms]) ++ Got r :: x))%nat.
Proof.
  intros R. induction t as [|e t IH]; [cbn; rewrite R; lia|]. cbn [app] in *. destruct e; cbn [completed]; try exact IH.
  destruct t as [|e' t]; cbn [app] in *; [exact IH|]. destruct e'; cbn [completed] in *; try exact IH. destruct (r_kind r0); lia.
Qed.
Lemma advance_ends {A} (m : task A) : forall w t w' e k, advance m w = (t, w', Wait e k) -> exists t', t = t' ++ [e].
Proof.
  induction m as [o|f IH|f m IH|e0 f IH|m IH xx IHx]; intros w t w' e k E; cbn [advance] in E.
  - discriminate E.
  - eapply IH, E.
  - destruct (f w) as [t1 w1]. destruct (advance m w1) as [[t2 w2] m2] eqn:E2. injection E as <- _ ->. destruct (IH _ _ _ _ _ E2) as (t' & ->). exists (t1 ++ t'). rewrite app_assoc. reflexivity.
  - injection E as <- _ <- _. exists []. reflexivity.
  - destruct (m_locked (w_cm w)); [discriminate E|]. eapply IH, E.
Qed.
Lemma path_ends {A} U (m : task A) w0 t m' : path U m w0 t m' -> forall e k, m' = Wait e k -> exists t', t = t' ++ [e].
Proof.
  intros T. induction T as [t w' m' E|t e k kd clk w t' w' m' T IH F J E|t k x w t' w' m' T IH J E|t k x clk w t' w' m' T IH J E]; intros e1 k1 ->.
  - eapply advance_ends, E.
  - destruct (advance_ends _ _ _ _ _ _ E) as (x & ->). exists (t ++ Got (mkResp kd [] None clk) :: x). rewrite <- app_assoc. reflexivity.
  - destruct (advance_ends _ _ _ _ _ _ E) as (y & ->). exists (t ++ y). rewrite app_assoc. reflexivity.
  - destruct (advance_ends _ _ _ _ _ _ E) as (y & ->). exists (t ++ Got (mkResp KCancelTask [] None clk) :: y). rewrite <- app_assoc. reflexivity.
Qed.
Lemma open_calm w : calmw true w. Proof. intros H. discriminate H. Qed.
Lemma path_sturdy U n c w0 t m : path U (tperform (S n) c) w0 t m -> (completed t <= n)%nat -> sturdy true (n - completed t) m.
Proof.
  intros T. induction T as [t w' m' E|t e k kd clk w t' w' m' T IH F J E|t k x w t' w' m' T IH J E|t k x clk w t' w' m' T IH J E]; intros L.
  - eapply sturdy_less; [|exact (proj1 (advance_sturdy true _ n _ _ _ _ (st_perform true n c ltac:(discriminate)) (open_calm w0) E))]. lia.
  - pose proof (completed_le t (Got (mkResp kd [] None clk) :: t')) as L1. specialize (IH ltac:(lia)). cbn [sturdy] in IH. specialize (IH kd F).
    assert (D : sturdy true (n - completed (t ++ Got (mkResp kd [] None clk) :: t')) (k kd)).
    { assert (Same : sturdy true (n - completed t) (k kd) -> sturdy true (n - completed (t ++ Got (mkResp kd [] None clk) :: t')) (k kd)) by (apply sturdy_less; lia).
      destruct e; try (apply Same; destruct kd; exact IH). destruct kd; try (apply Same; exact IH).
      destruct (path_ends _ _ _ _ _ T _ _ eq_refl) as (x & ->). pose proof (completed_open x ip port ms (mkResp KDone [] None clk) t' eq_refl) as L2.
      destruct (n - completed (x ++ [Open ip port ms]))%nat as [|q] eqn:Q; [lia|]. eapply sturdy_less; [|exact IH]. lia. }
    exact (proj1 (advance_sturdy true _ _ _ _ _ _ D (open_calm _) E)).
  - pose proof (completed_le t t') as L1. specialize (IH ltac:(lia)).
    eapply sturdy_less; [|exact (proj1 (advance_sturdy true _ _ _ _ _ _ IH (open_calm _) E))]. lia.
  - pose proof (completed_le t (Got (mkResp KCancelTask [] None clk) :: t')) as L1. specialize (IH ltac:(lia)).
    eapply sturdy_less; [|exact (proj1 (advance_sturdy true _ _ _ _ _ _ (proj2 (proj2 IH)) (open_calm _) E))]. lia.
Qed.

(** ** every task is on a path *)
Definition on_path (n : nat) (P : pool) : Prop := forall i m, nth_error (p_tasks P) i = Some m -> exists c w0, path (fun _ => True) (tperform n c) w0 (own i (p_log P)) m.
Lemma on_path_step n P e : within P -> on_path n P -> on_path n (pstep n P e).
Proof.
  intros W H i m N. destruct (nth_error (p_tasks P) i) as [m0|] eqn:N0.
  - destruct (H _ _ N0) as (c & w0 & T). destruct (travels_step (fun _ => True) n c w0 i P e Logic.I) as (m1 & N1 & T1); [exists m0; auto|].
    exists c, w0. rewrite N in N1. injection N1 as <-. exact T1.
  - assert (L : (List.length (p_tasks P) <= i)%nat) by (apply nth_error_None; exact N0).
    destruct P as [w ts g]. destruct e as [c|j k clk|j|c|c code x|]; [cbn [pstep p_world p_tasks p_log] in *..|].
    + destruct (advance (tperform n c) w) as [[t w'] m'] eqn:A. cbn [p_tasks p_log] in *.
      assert (i = List.length ts). { assert (i < List.length (ts ++ [m']))%nat by (apply nth_error_Some; congruence). rewrite app_length in H0. cbn [List.length] in H0. lia. } subst i.
      rewrite nth_error_app2, Nat.sub_diag in N by lia. injection N as <-. exists c, w.
      change (Started (List.length ts) c (w_data w) :: map (By (List.length ts)) t) with ([Started (List.length ts) c (w_data w)] ++ map (By (List.length ts)) t).
      rewrite !own_app, own_by. pose proof (within_own _ (List.length ts) W (Nat.le_refl _)) as E. cbn [p_log] in E. rewrite E. cbn [own flat_map app].
      eapply path_start. exact A.
    + exfalso. assert (X : forall m2, nth_error (lset j m2 ts) i = Some m -> False).
      { intros m2 X. assert (i < List.length (lset j m2 ts))%nat by (apply nth_error_Some; congruence). rewrite lset_len in H0. lia. }
      destruct (nth_error ts j) as [[| | |e f|f y]|]; try (cbn [p_tasks] in N; congruence);
        [destruct (fits e k); [|cbn [p_tasks] in N; congruence]|destruct k; try (cbn [p_tasks] in N; congruence)];
      destruct (advance _ _) as [[t w'] t']; eapply X, N.
    + exfalso. assert (X : forall m2, nth_error (lset j m2 ts) i = Some m -> False).
      { intros m2 X. assert (i < List.length (lset j m2 ts))%nat by (apply nth_error_Some; congruence). rewrite lset_len in H0. lia. }
      destruct (nth_error ts j) as [[| | | |f y]|]; try (cbn [p_tasks] in N; congruence).
      destruct (advance _ _) as [[t w'] t']. eapply X, N.
    + destruct (lose c w). cbn [p_tasks] in N. congruence.
    + destruct (handler_of c code w) as [[h|h]|]; cbn [p_tasks] in N; congruence.
    + revert N. destruct (pstep_handle n w ts g) as [->|(c0 & code0 & b0 & l0 & cbs & _ & _ & ->)]; cbn [p_tasks] in *; congruence.
Qed.
Lemma on_path_run n es : forall P, within P -> on_path n P -> on_path n (prun n P es).
Proof. induction es as [|e es IH]; intros P W H; [exact H|]. apply IH; [apply within_step, W|apply on_path_step; assumption]. Qed.
Lemma on_path_later n P E : within P -> on_path n P -> forall k, within (later n P E k) /\ on_path n (later n P E k).
Proof. intros W H k. induction k as [|k (W1 & H1)]; [auto|]. cbn [later]. split; [apply within_step, W1|apply on_path_step; assumption]. Qed.

(** ** a call has not opened more connections than there are *)
Definition ungot (t : trace) : Prop := forall r, ~ In (Got r) t.
Lemma prim_ungot f w : prim f -> ungot (fst (f w)).
Proof.
  intros P. destruct P; cbn [fst]; try (intros x J; exact J).
  - intros x [J|[]]. exact (H x J).
  - unfold lose. destruct (connected c w); [destruct (w_cb w)|]; cbn [fst]; [| |intros x J; exact J]; intros x J; cbn in J; repeat (destruct J as [J|J]; [discriminate J|]); exact J.
  - intros y J. exact J.
Qed.
Lemma advance_ungot {A} (m : task A) : forall w t w' m', made m -> advance m w = (t, w', m') -> ungot t.
Proof.
  induction m as [o|f IH|f m IH|e0 f IH|m IH xx IHx]; intros w t w' m' M E; cbn [advance made] in *.
  - injection E as <- _ _. intros r J. exact J.
  - eapply IH; [apply M|exact E].
  - destruct M as (Pf & M). pose proof (prim_ungot f w Pf) as U. destruct (f w) as [t1 w1]. cbn [fst] in U. destruct (advance m w1) as [[t2 w2] m2] eqn:E2. injection E as <- _ _.
    specialize (IH _ _ _ _ M E2). intros r J; apply in_app_or in J; destruct J as [J|J]; [apply (U r J)|apply (IH r J)].
  - injection E as <- _ _. intros r [J|[]]. destruct M as (M & _). exact (M r J).
  - destruct (m_locked (w_cm w)); [injection E as <- _ _; intros r J; exact J|]. destruct M as (M & _). eapply IH; eassumption.
Qed.
Lemma completed_ungot t x : ungot x -> completed (t ++ x) = completed t.
Proof.
  intros U. induction t as [|e t IH].
  - cbn [app completed]. induction x as [|y x IH]; [reflexivity|]. assert (Ux : ungot x) by (intros r J; apply (U r); right; exact J). specialize (IH Ux).
    destruct y; cbn [completed]; try exact IH. destruct x as [|z x]; [reflexivity|]. destruct z; try exact IH. destruct (Ux r). left. reflexivity.
  - destruct e; cbn [app completed]; try exact IH. destruct t as [|e' t].
    + cbn [app] in *. destruct x as [|z x]; [reflexivity|]. destruct z; try exact IH. destruct (U r). left. reflexivity.
    + cbn [app] in *. destruct e'; try exact IH. destruct (r_kind r); lia.
Qed.
Lemma completed_got t r x : ungot x -> (completed (t ++ Got r :: x) <= completed t + 1)%nat /\
  ((r_kind r <> KDone \/ forall t' ip port ms, t <> t' ++ [Open ip port ms]) -> completed (t ++ Got r :: x) = completed t).
Proof.
  intros U. induction t as [|e t (IH1 & IH2)].
  - cbn [app completed]. pose proof (completed_ungot [] x U) as UX. cbn in UX. rewrite UX. split; [lia|reflexivity].
  - assert (IH3 : r_kind r <> KDone \/ (forall t' ip port ms, e :: t <> t' ++ [Open ip port ms]) -> completed (t ++ Got r :: x) = completed t).
    { intros [H|H]; apply IH2; [left; exact H|right]. intros t' ip port ms ->. apply (H (e :: t') ip port ms). reflexivity. }
    destruct e; cbn [app completed]; try (split; assumption). destruct t as [|e' t].
    + cbn [app] in *. cbn [completed] in *. split.
      * destruct (r_kind r); try exact IH1. rewrite IH2; [lia|]. right. intros t' i p m H. destruct t'; discriminate H.
      * intros [H|H]; [|destruct (H [] ip port ms); reflexivity]. destruct (r_kind r); try (destruct (H eq_refl)); apply IH2; left; discriminate.
    + cbn [app] in *. destruct e'; try (split; assumption). destruct (r_kind r0); try (split; assumption). split; [lia|]. intros H. rewrite (IH3 H). reflexivity.
Qed.
Definition counted (P : pool) : Prop := forall i, (completed (own i (p_log P)) <= opens P)%nat.
Lemma counted_step n P e : all_made P -> within P -> on_path n P -> counted P -> counted (pstep n P e).
Proof.
  intros AM W OP C i. pose proof (opens_mono n P e AM) as MO. specialize (C i).
  assert (Same : own i (p_log (pstep n P e)) = own i (p_log P) -> (completed (own i (p_log (pstep n P e))) <= opens (pstep n P e))%nat) by (intros ->; lia).
  destruct P as [w ts g]. destruct e as [c|j k clk|j|c|c code x|]; [cbn [pstep p_world p_tasks p_log] in *..|].
  - destruct (advance (tperform n c) w) as [[t w'] m'] eqn:A. cbn [p_log] in *.
    change (Started (List.length ts) c (w_data w) :: map (By (List.length ts)) t) with ([Started (List.length ts) c (w_data w)] ++ map (By (List.length ts)) t) in *.
    rewrite !own_app in *. cbn [own flat_map app] in *. destruct (Nat.eq_dec (List.length ts) i) as [<-|D]; [|rewrite own_other in * by congruence; apply Same, app_nil_r].
    rewrite own_by. rewrite completed_ungot; [lia|]. eapply advance_ungot; [apply made_perform|exact A].
  - destruct (nth_error ts j) as [[| | |e f|f y]|] eqn:N; try (apply Same; reflexivity).
    2: { destruct k; try (apply Same; reflexivity). pose proof (AM _ (nth_error_In _ _ N)) as (_ & M).
      destruct (advance _ _) as [[t w'] t'] eqn:A. cbn [p_log] in *. destruct (Nat.eq_dec j i) as [->|D].
      + rewrite !own_app, own_by in *. cbn [own flat_map app] in *. rewrite Nat.eqb_refl in *. cbn [app] in *.
        destruct (completed_got (own i g) (mkResp KCancelTask [] None clk) t (advance_ungot _ _ _ _ _ M A)) as (_ & C2).
        change (flat_map _ g) with (own i g) in *. rewrite C2; [lia|]. left. discriminate.
      + apply Same. rewrite !own_app, own_other by congruence. cbn [own flat_map app].
        replace (Nat.eqb j i) with false by (symmetry; apply Nat.eqb_neq; exact D). rewrite !app_nil_r. reflexivity. }
    destruct (fits e k) eqn:F; [|apply Same; reflexivity].
    pose proof (AM _ (nth_error_In _ _ N)) as (_ & M). specialize (M k).
    destruct (advance _ _) as [[t w'] t'] eqn:A. cbn [p_log] in *. destruct (Nat.eq_dec j i) as [->|D].
    + rewrite !own_app, own_by in *. cbn [own flat_map app] in *. rewrite Nat.eqb_refl in *. cbn [app] in *.
      destruct (completed_got (own i g) (mkResp k [] None clk) t (advance_ungot _ _ _ _ _ M A)) as (C1 & C2).
      destruct (OP _ _ N) as (c0 & w0 & T). cbn [p_log] in T. destruct (path_ends _ _ _ _ _ T _ _ eq_refl) as (x & EX).
      change (flat_map _ g) with (own i g) in *.
      assert (DO : (exists ip port ms, e = Open ip port ms) /\ k = KDone \/ ~ ((exists ip port ms, e = Open ip port ms) /\ k = KDone)).
      { destruct e; try (right; intros ((? & ? & ? & X) & _); discriminate X). destruct k; try (right; intros (_ & X); discriminate X). left. split; [eauto|reflexivity]. }
      destruct DO as [((ip & port & ms & ->) & ->)|DO].
      * destruct (advance_made _ goes_keeps _ _ _ _ _ M A) as ((L2 & _) & _). unfold opens. cbn [p_world]. cbn [set_clock opened_by set_conns w_conns] in L2.
        rewrite app_length in L2. cbn [List.length] in L2. unfold opens in C. cbn [p_world] in C. lia.
      * rewrite C2; [lia|]. destruct (match k with KDone => true | _ => false end) eqn:K; [|left; cbn; intros ->; discriminate K].
        right. intros y ip port ms Y. rewrite EX in Y. apply app_inj_tail in Y. destruct Y as (_ & Y). apply DO. split; [eauto|]. destruct k; try discriminate K. reflexivity.
    + apply Same. rewrite !own_app, own_other by congruence. cbn [own flat_map app].
      replace (Nat.eqb j i) with false by (symmetry; apply Nat.eqb_neq; exact D). rewrite !app_nil_r. reflexivity.
  - destruct (nth_error ts j) as [[| | | |f y]|] eqn:N; try (apply Same; reflexivity).
    pose proof (AM _ (nth_error_In _ _ N)) as M.
    destruct (advance _ _) as [[t w'] t'] eqn:A. cbn [p_log] in *. destruct (Nat.eq_dec j i) as [->|D].
    + cbn [app] in *. rewrite own_app, own_by in *. rewrite completed_ungot; [lia|]. eapply advance_ungot; [exact M|exact A].
    + apply Same. cbn [app]. rewrite !own_app, own_other by congruence. apply app_nil_r.
  - destruct (lose c w). cbn [p_log] in *. apply Same. rewrite own_app, own_env. apply app_nil_r.
  - destruct (handler_of c code w) as [[h|h]|]; try (apply Same; reflexivity).
    cbn [p_log] in *. apply Same. rewrite own_app. cbn. apply app_nil_r.
  - revert Same. destruct (pstep_handle n w ts g) as [->|(c0 & code0 & b0 & l0 & cbs & _ & _ & ->)]; intros Same; apply Same; cbn [p_log]; [reflexivity|]. rewrite own_app. cbn. apply app_nil_r.
Qed.
(** ** one task along a schedule *)
Lemma task_step n P e i m : nth_error (p_tasks P) i = Some m -> exists m', nth_error (p_tasks (pstep n P e)) i = Some m' /\ (m' = m \/ below m' m).
Proof.
  intros N. assert (L : (i < List.length (p_tasks P))%nat) by (apply nth_error_Some; congruence).
  destruct P as [w ts g]. destruct e as [c|j k clk|j|c|c code x|]; [cbn [pstep p_world p_tasks p_log] in *..|]; try (exists m; auto; fail).
  - destruct (advance (tperform n c) w) as [[t w'] m'] eqn:A. exists m. cbn [p_tasks]. rewrite nth_error_app1 by exact L. auto.
  - destruct (nth_error ts j) as [[| | |e f|f y]|] eqn:Nj; try (exists m; auto; fail).
    2: { destruct k; try (exists m; auto; fail). destruct (advance _ _) as [[t w'] t'] eqn:A. cbn [p_tasks]. destruct (Nat.eq_dec j i) as [->|D].
      + exists t'. split; [eapply nth_lset_eq, Nj|]. right. rewrite N in Nj. injection Nj as ->.
        destruct (advance_below _ _ _ _ _ A) as [->|B]; [apply Relation_Operators.t_step; apply ch_abort|eapply below_step; [exact B|apply ch_abort]].
      + exists m. rewrite nth_lset_ne by congruence. auto. }
    destruct (fits e k); [|exists m; auto]. destruct (advance _ _) as [[t w'] t'] eqn:A. cbn [p_tasks]. destruct (Nat.eq_dec j i) as [->|D].
    + exists t'. split; [eapply nth_lset_eq, Nj|]. right. rewrite N in Nj. injection Nj as ->.
      destruct (advance_below _ _ _ _ _ A) as [->|B]; [apply Relation_Operators.t_step; constructor|eapply below_step; [exact B|constructor]].
    + exists m. rewrite nth_lset_ne by congruence. auto.
  - destruct (nth_error ts j) as [[| | | |f y]|] eqn:Nj; try (exists m; auto; fail).
    destruct (advance _ _) as [[t w'] t'] eqn:A. cbn [p_tasks]. destruct (Nat.eq_dec j i) as [->|D].
    + exists t'. split; [eapply nth_lset_eq, Nj|]. rewrite N in Nj. injection Nj as ->. eapply advance_below, A.
    + exists m. rewrite nth_lset_ne by congruence. auto.
  - destruct (lose c w). exists m. auto.
  - destruct (handler_of c code w) as [[h|h]|]; exists m; auto.
  - destruct (pstep_handle n w ts g) as [->|(c0 & code0 & b0 & l0 & cbs & _ & _ & ->)]; exists m; auto.
Qed.
Lemma resume_below n P i r clk e f : nth_error (p_tasks P) i = Some (Wait e f) -> fits e r = true -> exists m', nth_error (p_tasks (pstep n P (Resume i r clk))) i = Some m' /\ below m' (Wait e f).
Proof.
  destruct P as [w ts g]. cbn [pstep p_world p_tasks p_log]. intros N F. rewrite N, F. destruct (advance _ _) as [[t w'] t'] eqn:A.
  exists t'. split; [eapply nth_lset_eq, N|].
  destruct (advance_below _ _ _ _ _ A) as [->|B]; [apply Relation_Operators.t_step; constructor|eapply below_step; [exact B|constructor]].
Qed.
Lemma abort_below n P i clk f x : nth_error (p_tasks P) i = Some (Lock f x) -> exists m', nth_error (p_tasks (pstep n P (Resume i KCancelTask clk))) i = Some m' /\ below m' (Lock f x).
Proof.
  destruct P as [w ts g]. cbn [pstep p_world p_tasks p_log]. intros N. rewrite N. destruct (advance _ _) as [[t w'] t'] eqn:A.
  exists t'. split; [eapply nth_lset_eq, N|].
  destruct (advance_below _ _ _ _ _ A) as [->|B]; [apply Relation_Operators.t_step; apply ch_abort|eapply below_step; [exact B|apply ch_abort]].
Qed.
Lemma enter_below n P i f x : nth_error (p_tasks P) i = Some (Lock f x) -> ~ held P -> exists m', nth_error (p_tasks (pstep n P (Enter i))) i = Some m' /\ below m' (Lock f x).
Proof.
  destruct P as [w ts g]. unfold held. cbn [pstep p_world p_tasks p_log]. intros N F. rewrite N. cbn [advance]. destruct (m_locked (w_cm w)); [destruct (F eq_refl)|].
  destruct (advance _ _) as [[t w'] t'] eqn:A. exists t'. split; [eapply nth_lset_eq, N|].
  destruct (advance_below _ _ _ _ _ A) as [->|B]; [apply Relation_Operators.t_step; constructor|eapply below_step; [exact B|constructor]].
Qed.
Lemma queued_stays n P e i f x : held P -> (forall clk, e <> Resume i KCancelTask clk) -> nth_error (p_tasks P) i = Some (Lock f x) -> nth_error (p_tasks (pstep n P e)) i = Some (Lock f x).
Proof.
  intros Hd NX N. assert (L : (i < List.length (p_tasks P))%nat) by (apply nth_error_Some; congruence). unfold held in Hd.
  destruct P as [w ts g]. destruct e as [c|j k clk|j|c|c code z|]; [cbn [pstep p_world p_tasks p_log] in *..|].
  - destruct (advance (tperform n c) w) as [[t w'] m'] eqn:A. cbn [p_tasks]. rewrite nth_error_app1 by exact L. exact N.
  - destruct (nth_error ts j) as [[| | |e f0|f0 y]|] eqn:Nj; try exact N.
    2: { destruct k; try exact N. destruct (advance _ _) as [[t w'] t'] eqn:A. cbn [p_tasks]. destruct (Nat.eq_dec j i) as [->|D]; [destruct (NX clk); reflexivity|]. rewrite nth_lset_ne by congruence. exact N. }
    destruct (fits e k); [|exact N].
    destruct (advance _ _) as [[t w'] t'] eqn:A. cbn [p_tasks]. destruct (Nat.eq_dec j i) as [->|D]; [congruence|]. rewrite nth_lset_ne by congruence. exact N.
  - destruct (nth_error ts j) as [[| | | |f0 y]|] eqn:Nj; try exact N. cbn [advance]. rewrite Hd. cbn [p_tasks]. destruct (Nat.eq_dec j i) as [->|D].
    + rewrite N in Nj. injection Nj as <- <-. eapply nth_lset_eq, N.
    + rewrite nth_lset_ne by congruence. exact N.
  - destruct (lose c w). exact N.
  - destruct (handler_of c code w) as [[h|h]|]; exact N.
  - destruct (pstep_handle n w ts g) as [->|(c0 & code0 & b0 & l0 & cbs & _ & _ & ->)]; exact N.
Qed.
Lemma done_stays n P e i o : nth_error (p_tasks P) i = Some (Done o) -> nth_error (p_tasks (pstep n P e)) i = Some (Done o).
Proof.
  intros N. assert (L : (i < List.length (p_tasks P))%nat) by (apply nth_error_Some; congruence).
  destruct P as [w ts g]. destruct e as [c|j k clk|j|c|c code z|]; [cbn [pstep p_world p_tasks p_log] in *..|].
  - destruct (advance (tperform n c) w) as [[t w'] m'] eqn:A. cbn [p_tasks]. rewrite nth_error_app1 by exact L. exact N.
  - destruct (nth_error ts j) as [[| | |e f0|f0 y]|] eqn:Nj; try exact N.
    2: { destruct k; try exact N. destruct (advance _ _) as [[t w'] t'] eqn:A. cbn [p_tasks]. destruct (Nat.eq_dec j i) as [->|D]; [congruence|]. rewrite nth_lset_ne by congruence. exact N. }
    destruct (fits e k); [|exact N].
    destruct (advance _ _) as [[t w'] t'] eqn:A. cbn [p_tasks]. destruct (Nat.eq_dec j i) as [->|D]; [congruence|]. rewrite nth_lset_ne by congruence. exact N.
  - destruct (nth_error ts j) as [[| | | |f0 y]|] eqn:Nj; try exact N. destruct (advance _ _) as [[t w'] t'] eqn:A. cbn [p_tasks].
    destruct (Nat.eq_dec j i) as [->|D]; [congruence|]. rewrite nth_lset_ne by congruence. exact N.
  - destruct (lose c w). exact N.
  - destruct (handler_of c code w) as [[h|h]|]; exact N.
  - destruct (pstep_handle n w ts g) as [->|(c0 & code0 & b0 & l0 & cbs & _ & _ & ->)]; exact N.
Qed.

Section Forever.
  Variables (n : nat) (P : pool) (E : nat -> event) (i : nat).
  Hypothesis WE : waits_end n P E.
  Hypothesis LF : lock_served n P E.
  Notation at_ k := (later n P E k).
  Hypothesis RE : forall k t, nth_error (p_tasks (at_ k)) i = Some t -> rest t.
  Lemma meanwhile m d : forall k, nth_error (p_tasks (at_ k)) i = Some m ->
    nth_error (p_tasks (at_ (d + k))) i = Some m \/ exists d' m', (d' <= d)%nat /\ nth_error (p_tasks (at_ (d' + k))) i = Some m' /\ below m' m.
  Proof.
    induction d as [|d IH]; intros k N; [left; exact N|]. destruct (IH k N) as [N1|(d' & m' & L & N1 & B)]; [|right; exists d', m'; split; [lia|auto]].
    cbn [Nat.add later]. destruct (task_step n (at_ (d + k)) (E (d + k)%nat) i m N1) as (m' & N2 & [->|B]); [left; exact N2|].
    right. exists (S d), m'. split; [lia|]. auto.
  Qed.
  Definition at_rest (K : nat) : Prop :=
    (exists o, forall k, (K <= k)%nat -> nth_error (p_tasks (at_ k)) i = Some (Done o)) \/
    (exists f x, forall k, (K <= k)%nat -> nth_error (p_tasks (at_ k)) i = Some (Lock f x) /\ held (at_ k)).
  Lemma rests m : forall k, nth_error (p_tasks (at_ k)) i = Some m -> exists K, at_rest K.
  Proof.
    induction (below_wf m) as [m _ IH]. intros k N. destruct m as [o|f|f m|e f|f x].
    - exists k. left. exists o. intros k' L. replace k' with ((k' - k) + k)%nat by lia. generalize (k' - k)%nat as d. clear k' L. intros d.
      induction d as [|d IHd]; [exact N|]. cbn [Nat.add later]. apply done_stays, IHd.
    - destruct (RE k _ N).
    - destruct (RE k _ N).
    - destruct (WE k i e f N) as (j & r & clk & L & EJ & F). replace j with ((j - k) + k)%nat in EJ by lia. set (d := (j - k)%nat) in *.
      destruct (meanwhile _ d k N) as [N1|(d' & m' & _ & N1 & B)]; [|eapply IH; [exact B|exact N1]].
      destruct (resume_below n (at_ (d + k)) i r clk e f N1 F) as (m' & N2 & B). rewrite <- EJ in N2. eapply (IH m' B (S (d + k))). exact N2.
    - destruct (LF k i f x N) as [(j & L & [(EJ & NH)|(clk & EJ)])|(K & HK)].
      + replace j with ((j - k) + k)%nat in EJ, NH by lia. set (d := (j - k)%nat) in *.
        destruct (meanwhile _ d k N) as [N1|(d' & m' & _ & N1 & B)]; [|eapply IH; [exact B|exact N1]].
        destruct (enter_below n (at_ (d + k)) i f x N1 NH) as (m' & N2 & B). rewrite <- EJ in N2. eapply (IH m' B (S (d + k))). exact N2.
      + replace j with ((j - k) + k)%nat in EJ by lia. set (d := (j - k)%nat) in *.
        destruct (meanwhile _ d k N) as [N1|(d' & m' & _ & N1 & B)]; [|eapply IH; [exact B|exact N1]].
        destruct (abort_below n (at_ (d + k)) i clk f x N1) as (m' & N2 & B). rewrite <- EJ in N2. eapply (IH m' B (S (d + k))). exact N2.
      + destruct (meanwhile _ K k N) as [N1|(d' & m' & _ & N1 & B)]; [|eapply IH; [exact B|exact N1]].
        exists (K + k)%nat. right. exists f, x. intros k' L. replace k' with ((k' - (K + k)) + (K + k))%nat by lia. generalize (k' - (K + k))%nat as d. clear k' L. intros d. split; [|apply HK; lia].
        induction d as [|d IHd]; [exact N1|]. cbn [Nat.add later]. apply queued_stays; [apply HK; lia|apply HK; lia|exact IHd].
  Qed.
End Forever.
