(** A logic for tasks that run between each other: what a task does is allowed and keeps an
    invariant of log and world, if all the others keep it while it waits. *)
From Verif Require Import Py F64 Struct Utf Utility Const Spec Enum Decode Messages Calls World Request Gateway Traces Paths Api Tasks Pool SpecPool.

Lemma own_app i a b : own i (a ++ b) = own i a ++ own i b. Proof. apply flat_map_app. Qed.
Lemma own_by i t : own i (map (By i) t) = t.
Proof. unfold own. induction t as [|e t IH]; cbn [map flat_map]; [reflexivity|]. rewrite Nat.eqb_refl. cbn [app]. f_equal. exact IH. Qed.
Lemma own_other i j t : i <> j -> own i (map (By j) t) = [].
Proof. intros N. unfold own. induction t as [|e t IH]; cbn [map flat_map]; [reflexivity|]. replace (Nat.eqb j i) with false by (symmetry; apply Nat.eqb_neq; congruence). exact IH. Qed.

Lemma begun_app i a b : begun i (a ++ b) = begun i a ++ begun i b. Proof. apply flat_map_app. Qed.
Lemma begun_by i j t : begun i (map (By j) t) = [].
Proof. induction t as [|e t IH]; [reflexivity|exact IH]. Qed.
Lemma begun_env i t : begun i (map Env t) = [].
Proof. induction t as [|e t IH]; [reflexivity|exact IH]. Qed.

(** [g'] is [g] after others did something *)
Definition ext (i : nat) (g g' : log) : Prop := exists x, g' = g ++ x /\ own i x = [] /\ begun i x = [].
Lemma ext_refl i g : ext i g g. Proof. exists []. rewrite app_nil_r. auto. Qed.
Lemma ext_trans i a b c : ext i a b -> ext i b c -> ext i a c.
Proof. intros (x & -> & X & X') (y & -> & Y & Y'). exists (x ++ y). rewrite app_assoc, own_app, begun_app, X, Y, X', Y'. auto. Qed.

Section RG.
  (** [Inv]: what all tasks keep; [ok]: what they may do; [Rel]: what is known otherwise *)
  Variables (Inv : log -> world -> Prop) (ok : nat -> log -> ev -> Prop) (Rel : log -> world -> Prop).

  Fixpoint oks (i : nat) (g : log) (t : trace) : Prop :=
    match t with [] => True | e :: t' => ok i g e /\ oks i (g ++ [By i e]) t' end.
  Lemma oks_app i t1 : forall g t2, oks i g (t1 ++ t2) <-> oks i g t1 /\ oks i (g ++ map (By i) t1) t2.
  Proof.
    induction t1 as [|e t1 IH]; intros g t2; cbn [app oks map].
    - rewrite app_nil_r. tauto.
    - rewrite IH, <- app_assoc. cbn [app]. tauto.
  Qed.

  Definition post (A : Type) := log -> world -> out A -> Prop.
  Fixpoint safe {A} (i : nat) (m : task A) (g : log) (w : world) (Q : post A) : Prop :=
    match m with
    | Done o => Q g w o
    | Look k => safe i (k w) g w Q
    | Do f k => oks i g (fst (f w)) /\ safe i k (g ++ map (By i) (fst (f w))) (snd (f w)) Q
    | Wait e k =>
        ok i g e /\ Inv (g ++ [By i e]) w /\
        forall g' w' kd clk, ext i (g ++ [By i e]) g' -> Inv g' w' -> Rel g' w' -> fits e kd = true ->
          safe i (k kd) (g' ++ [By i (Got (mkResp kd [] None clk))]) (set_clock clk (opened_by e kd w')) Q
    | Lock k x =>
        Inv g w /\
        (forall g' w', ext i g g' -> Inv g' w' -> m_locked (w_cm w') = false -> safe i k g' (put_cm (cmset_locked true) w') Q) /\
        forall g' w' clk, ext i g g' -> Inv g' w' -> Rel g' w' -> safe i x (g' ++ [By i (Got (mkResp KCancelTask [] None clk))]) (set_clock clk w') Q
    end.

  Lemma safe_mono {A} i (m : task A) : forall g w (Q Q' : post A), safe i m g w Q -> (forall g' w' o, Q g' w' o -> Q' g' w' o) -> safe i m g w Q'.
  Proof.
    induction m as [o|k IH|f k IH|e k IH|k IH xx IHx]; intros g w Q Q' S H; cbn [safe] in *.
    - auto.
    - eapply IH; eauto.
    - destruct S as (S1 & S2). split; [exact S1|]. eapply IH; eauto.
    - destruct S as (S1 & S2 & S3). split; [exact S1|]. split; [exact S2|]. intros. eapply IH; [apply S3; assumption|exact H].
    - destruct S as (S1 & S2 & S3). split; [exact S1|]. split; intros; [eapply IH; [apply S2; assumption|exact H]|eapply IHx; [apply S3; assumption|exact H]].
  Qed.
  Lemma safe_bind {A B} i (m : task A) (f : A -> task B) : forall g w (Q : post B),
    safe i m g w (fun g' w' o => match o with Val a => safe i (f a) g' w' Q | Exc e => Q g' w' (Exc e) | Stuck y => Q g' w' (Stuck y) end) ->
    safe i (tbind m f) g w Q.
  Proof.
    induction m as [[a|e|y]|k IH|h k IH|e k IH|k IH xx IHx]; intros g w Q S; cbn [safe tbind] in *; auto.
    - destruct S as (S1 & S2). split; auto.
    - destruct S as (S1 & S2 & S3). split; [exact S1|]. split; [exact S2|]. intros. apply IH. auto.
    - destruct S as (S1 & S2 & S3). split; [exact S1|]. split; intros; [apply IH; auto|apply IHx; auto].
  Qed.
  Lemma safe_catch {A} i (m : task A) (p : exn -> bool) (h : exn -> task A) : forall g w (Q : post A),
    safe i m g w (fun g' w' o => match o with Exc e => if p e then safe i (h e) g' w' Q else Q g' w' (Exc e) | _ => Q g' w' o end) ->
    safe i (tcatch m p h) g w Q.
  Proof.
    induction m as [[a|e|y]|k IH|q k IH|e k IH|k IH xx IHx]; intros g w Q S; cbn [safe tcatch] in *; auto.
    - destruct (p e); auto.
    - destruct S as (S1 & S2). split; auto.
    - destruct S as (S1 & S2 & S3). split; [exact S1|]. split; [exact S2|]. intros. apply IH. auto.
    - destruct S as (S1 & S2 & S3). split; [exact S1|]. split; intros; [apply IH; auto|apply IHx; auto].
  Qed.
  Lemma safe_finally {A} i (m : task A) (f : world -> world) : forall g w (Q : post A),
    safe i m g w (fun g' w' o => match o with Stuck y => Q g' w' (Stuck y) | _ => Q g' (f w') o end) ->
    safe i (tfinally m f) g w Q.
  Proof.
    induction m as [[a|e|y]|k IH|q k IH|e k IH|k IH xx IHx]; intros g w Q S; cbn [safe tfinally] in *; auto.
    - cbn [fst snd map oks]. rewrite app_nil_r. auto.
    - cbn [fst snd map oks]. rewrite app_nil_r. auto.
    - destruct S as (S1 & S2). split; auto.
    - destruct S as (S1 & S2 & S3). split; [exact S1|]. split; [exact S2|]. intros. apply IH. auto.
    - destruct S as (S1 & S2 & S3). split; [exact S1|]. split; intros; [apply IH; auto|apply IHx; auto].
  Qed.
  Lemma safe_do {B} i f (k : unit -> task B) g w Q : safe i (k tt) g (f w) Q -> safe i (tbind (tdo f) k) g w Q.
  Proof. intros S. cbn [tdo tbind tret safe fst snd map oks]. rewrite app_nil_r. auto. Qed.
  Lemma safe_emit {B} i e (k : unit -> task B) g w Q : ok i g e -> safe i (k tt) (g ++ [By i e]) w Q -> safe i (tbind (temit e) k) g w Q.
  Proof. intros O S. cbn [temit tbind tret safe fst snd map oks]. auto. Qed.
  Lemma safe_get {A B} i (f : world -> A) (k : A -> task B) g w Q : safe i (k (f w)) g w Q -> safe i (tbind (tget f) k) g w Q.
  Proof. intros S. exact S. Qed.
  Lemma safe_wait {B} i e (k : kind -> task B) g w Q : ok i g e -> Inv (g ++ [By i e]) w ->
    (forall g' w' kd clk, ext i (g ++ [By i e]) g' -> Inv g' w' -> Rel g' w' -> fits e kd = true ->
       safe i (k kd) (g' ++ [By i (Got (mkResp kd [] None clk))]) (set_clock clk (opened_by e kd w')) Q) ->
    safe i (tbind (twait e) k) g w Q.
  Proof. intros O I S. cbn [twait tbind tret safe]. auto. Qed.

  (** [fin]: what is known of a task that ended *)
  Variable fin : trace -> list (api_call * dict) -> out unit -> Prop.
  Definition ended (i : nat) : post unit := fun g w o => Inv g w /\ fin (own i g) (begun i g) o.

  (** a task that waits: whatever the others do, it may resume *)
  Definition parked (i : nat) (m : task unit) (g : log) : Prop :=
    match m with
    | Done o => fin (own i g) (begun i g) o
    | Wait e k => forall g' w' kd clk, ext i g g' -> Inv g' w' -> Rel g' w' -> fits e kd = true ->
        safe i (k kd) (g' ++ [By i (Got (mkResp kd [] None clk))]) (set_clock clk (opened_by e kd w')) (ended i)
    | Lock k x => (forall g' w', ext i g g' -> Inv g' w' -> m_locked (w_cm w') = false ->
        safe i k g' (put_cm (cmset_locked true) w') (ended i)) /\
        forall g' w' clk, ext i g g' -> Inv g' w' -> Rel g' w' -> safe i x (g' ++ [By i (Got (mkResp KCancelTask [] None clk))]) (set_clock clk w') (ended i)
    | _ => False
    end.
  Lemma parked_ext i m g g' : ext i g g' -> parked i m g -> parked i m g'.
  Proof.
    intros E P. destruct m; cbn [parked] in *; auto; try (intros; apply P; auto; eapply ext_trans; eassumption).
    - destruct E as (x & -> & X & X'). rewrite own_app, begun_app, X, X', !app_nil_r. exact P.
    - destruct P as (P1 & P2). split; intros; [apply P1|apply P2]; auto; eapply ext_trans; eassumption.
  Qed.
  Lemma advance_safe i (m : task unit) : forall g w t w' m', safe i m g w (ended i) -> advance m w = (t, w', m') ->
    oks i g t /\ Inv (g ++ map (By i) t) w' /\ parked i m' (g ++ map (By i) t).
  Proof.
    induction m as [o|k IH|f k IH|e k IH|k IH xx IHx]; intros g w t w' m' S A; cbn [safe advance] in *.
    - injection A as <- <- <-. cbn [map oks parked]. rewrite app_nil_r. destruct S. auto.
    - eapply IH; eassumption.
    - destruct S as (S1 & S2). destruct (f w) as [t1 w1]. destruct (advance k w1) as [[t2 w2] m2] eqn:A2. injection A as <- <- <-. cbn [fst snd] in *.
      destruct (IH _ _ _ _ _ S2 A2) as (I1 & I2 & I3). rewrite map_app, app_assoc. split; [apply oks_app; auto|auto].
    - injection A as <- <- <-. destruct S as (S1 & S2 & S3). cbn [map oks parked]. auto.
    - destruct S as (S1 & S2 & S3). destruct (m_locked (w_cm w)) eqn:L.
      + injection A as <- <- <-. cbn [map oks parked]. rewrite app_nil_r. auto.
      + eapply IH; [|eassumption]. apply S2; [apply ext_refl|exact S1|exact L].
  Qed.

  (** the invariant of a pool *)
  Definition log_ok (g : log) : Prop := forall g1 i e g2, g = g1 ++ By i e :: g2 -> (forall r, e <> Got r) -> ok i g1 e.
  Definition pinv (p : pool) : Prop :=
    Inv (p_log p) (p_world p) /\ log_ok (p_log p) /\
    (forall i m, nth_error (p_tasks p) i = Some m -> parked i m (p_log p)) /\
    (forall i, (List.length (p_tasks p) <= i)%nat -> own i (p_log p) = [] /\ begun i (p_log p) = []) /\
    (forall i, (List.length (begun i (p_log p)) <= 1)%nat).

  Lemma log_ok_nil : log_ok []. Proof. intros [|y l] i e g2 E; discriminate E. Qed.
  Lemma split_app {X} (a b : list X) : forall g1 x g2, a ++ b = g1 ++ x :: g2 ->
    (exists g3, a = g1 ++ x :: g3) \/ (exists g3, g1 = a ++ g3 /\ b = g3 ++ x :: g2).
  Proof.
    induction a as [|y a IH]; intros g1 x g2 E; cbn [app] in E; [right; exists g1; auto|].
    destruct g1 as [|z g1]; cbn [app] in E; injection E as -> E; [left; exists a; reflexivity|].
    destruct (IH _ _ _ E) as [(g3 & ->)|(g3 & -> & ->)]; [left; exists g3; reflexivity|right; exists g3; auto].
  Qed.
  Lemma log_ok_other g x : log_ok g -> (forall i e, In (By i e) x -> exists r, e = Got r) -> log_ok (g ++ x).
  Proof.
    intros L N g1 i e g2 E NG. apply split_app in E. destruct E as [(g3 & E)|(g3 & -> & E)]; [eapply L; eassumption|].
    destruct (N i e) as (r & ->); [rewrite E; apply in_or_app; right; left; reflexivity|]. destruct (NG r eq_refl).
  Qed.
  Lemma log_ok_oks i t : forall g, log_ok g -> oks i g t -> log_ok (g ++ map (By i) t).
  Proof.
    induction t as [|e t IH]; intros g L O; cbn [map oks] in *; [rewrite app_nil_r; exact L|].
    destruct O as (O1 & O2). change (By i e :: map (By i) t) with ([By i e] ++ map (By i) t). rewrite app_assoc. apply IH; [|exact O2].
    intros g1 j e' g2 E NG. apply split_app in E. destruct E as [(g3 & E)|(g3 & -> & E)]; [eapply L; eassumption|].
    destruct g3 as [|y g3]; cbn [app] in E; [|injection E as _ E; destruct g3; discriminate E]. injection E as -> ->. rewrite app_nil_r. assumption.
  Qed.
  Lemma nth_lset {X} i (x : X) l : forall j y, nth_error (lset i x l) j = Some y -> (j = i /\ y = x) \/ (j <> i /\ nth_error l j = Some y).
  Proof.
    revert i. induction l as [|z l IH]; intros [|i] [|j] y E; cbn [lset nth_error] in *; try discriminate E.
    - left. injection E as <-. auto.
    - right. split; [lia|exact E].
    - right. split; [lia|exact E].
    - destruct (IH _ _ _ E) as [(-> & ->)|(N & F)]; [left; auto|right; split; [lia|exact F]].
  Qed.
  Lemma lset_len {X} i (x : X) l : List.length (lset i x l) = List.length l.
  Proof. revert i. induction l as [|z l IH]; intros [|i]; cbn [lset List.length]; auto. Qed.

  Hypothesis init_call : forall n g w i c, Inv g w -> Rel g w -> own i g = [] -> begun i g = [] -> safe i (tperform n c) (g ++ [Started i c (w_data w)]) w (ended i).
  Hypothesis lose_inv : forall g w c t w', Inv g w -> lose c w = (t, w') -> Inv (g ++ map Env t) w'.
  Hypothesis push_inv : forall g w c code b, Inv g w -> Inv (g ++ [Pushed c code b]) w.
  Hypothesis apply_inv : forall g w c code b cbs, Inv g w -> Inv (g ++ [Applied c code b cbs]) (set_data (fst (handled code b (w_data w))) w).

  Lemma pstep_inv n p e : Rel (p_log p) (p_world p) -> pinv p -> pinv (pstep n p e).
  Proof.
    destruct p as [w ts g]. intros RE (I & L & P & O & U). cbn [p_world p_tasks p_log] in *. destruct e as [c|i k clk|i|c|c code b|]; [cbn [pstep p_world p_tasks p_log]..|].
    - set (i := List.length ts) in *. destruct (advance (tperform n c) w) as [[t w'] m] eqn:A.
      assert (OI : own i g = [] /\ begun i g = []) by (apply O; reflexivity). destruct OI as (OI & BI).
      pose proof (init_call n g w i c I RE OI BI) as S. destruct (advance_safe _ _ _ _ _ _ _ S A) as (S1 & S2 & S3).
      replace (g ++ Started i c (w_data w) :: map (By i) t) with ((g ++ [Started i c (w_data w)]) ++ map (By i) t) by (rewrite <- app_assoc; reflexivity).
      split; cbn [p_world p_tasks p_log]; [exact S2|]. split; [apply log_ok_oks; [apply log_ok_other; [exact L|intros j e [X|[]]; discriminate X]|exact S1]|].
      assert (E : forall j, j <> i -> ext j g ((g ++ [Started i c (w_data w)]) ++ map (By i) t)).
      { intros j N. exists ([Started i c (w_data w)] ++ map (By i) t). rewrite <- app_assoc. split; [reflexivity|]. rewrite own_app, begun_app, begun_by. cbn [own begun flat_map app].
        replace (Nat.eqb i j) with false by (symmetry; apply Nat.eqb_neq; congruence). split; [apply own_other; exact N|reflexivity]. }
      split; [|split].
      + intros j m' N. destruct (Nat.eq_dec j i) as [->|D].
        * subst i. rewrite nth_error_app2, Nat.sub_diag in N by lia. injection N as <-. exact S3.
        * assert (J : (j < List.length ts)%nat). { assert (X : nth_error (ts ++ [m]) j <> None) by congruence. apply nth_error_Some in X. rewrite app_length in X. cbn [List.length] in X. subst i. lia. }
          rewrite nth_error_app1 in N by exact J. eapply parked_ext; [apply E; exact D|apply P; exact N].
      + intros j J. rewrite app_length in J. cbn [List.length] in J. assert (D : j <> i) by (subst i; lia).
        destruct (E j D) as (x & -> & X & X'). rewrite own_app, begun_app, X, X', !app_nil_r. apply O. subst i. lia.
      + intros j. destruct (Nat.eq_dec j i) as [->|D].
        * rewrite !begun_app, begun_by, BI. cbn [begun flat_map]. rewrite Nat.eqb_refl. cbn. lia.
        * destruct (E j D) as (x & -> & X & X'). rewrite begun_app, X', app_nil_r. apply U.
    - set (gt := By i (Got (mkResp k [] None clk))) in *.
      assert (K : forall m0 M W, nth_error ts i = Some m0 -> safe i M (g ++ [gt]) W (ended i) ->
        pinv (let '(t, w', m) := advance M W in mkPool w' (lset i m ts) (g ++ [gt] ++ map (By i) t))).
      { intros m0 M W N PK. destruct (advance M W) as [[t w'] m] eqn:A. destruct (advance_safe _ _ _ _ _ _ _ PK A) as (S1 & S2 & S3).
      replace (g ++ [gt] ++ map (By i) t) with ((g ++ [gt]) ++ map (By i) t) by (rewrite <- app_assoc; reflexivity).
      split; cbn [p_world p_tasks p_log]; [exact S2|]. split; [apply log_ok_oks; [apply log_ok_other; [exact L|intros j e' [X|[]]; injection X as _ <-; eauto]|exact S1]|].
      assert (E : forall j, j <> i -> ext j g ((g ++ [gt]) ++ map (By i) t)).
      { intros j D. exists ([gt] ++ map (By i) t). rewrite <- app_assoc. split; [reflexivity|]. change ([gt] ++ map (By i) t) with (map (By i) (Got (mkResp k [] None clk) :: t)). split; [apply own_other; exact D|apply begun_by]. }
      split; [|split].
      + intros j m' NJ. apply nth_lset in NJ. destruct NJ as [(-> & ->)|(D & NJ)]; [exact S3|]. eapply parked_ext; [apply E; exact D|apply P; exact NJ].
      + intros j J. rewrite lset_len in J. assert (D : j <> i). { assert (X : nth_error ts i <> None) by congruence. apply nth_error_Some in X. lia. }
        destruct (E j D) as (x & -> & X & X'). rewrite own_app, begun_app, X, X', !app_nil_r. apply O. exact J.
      + intros j. replace ((g ++ [gt]) ++ map (By i) t) with (g ++ map (By i) (Got (mkResp k [] None clk) :: t)) by (rewrite <- app_assoc; reflexivity). rewrite begun_app, begun_by, app_nil_r. apply U. }
      destruct (nth_error ts i) as [m|] eqn:N; [|exact (conj I (conj L (conj P (conj O U))))]. destruct m as [| | |e k0|k0 x0]; try (exact (conj I (conj L (conj P (conj O U))))).
      + destruct (fits e k) eqn:F; [|exact (conj I (conj L (conj P (conj O U))))].
        pose proof (P _ _ N) as PK. cbn [parked] in PK. specialize (PK g w k clk (ext_refl _ _) I RE F). exact (K _ _ _ eq_refl PK).
      + destruct k; try (exact (conj I (conj L (conj P (conj O U))))).
        pose proof (P _ _ N) as PK. cbn [parked] in PK. destruct PK as (_ & PK). specialize (PK g w clk (ext_refl _ _) I RE). exact (K _ _ _ eq_refl PK).
    - destruct (nth_error ts i) as [m|] eqn:N; [|exact (conj I (conj L (conj P (conj O U))))]. destruct m as [| | | |k0 x0]; try (exact (conj I (conj L (conj P (conj O U))))).
      pose proof (P _ _ N) as PK. assert (S : safe i (Lock k0 x0) g w (ended i)) by (split; [exact I|exact PK]).
      destruct (advance (Lock k0 x0) w) as [[t w'] m] eqn:A. destruct (advance_safe _ _ _ _ _ _ _ S A) as (S1 & S2 & S3).
      cbn [app]. split; cbn [p_world p_tasks p_log]; [exact S2|]. split; [apply log_ok_oks; assumption|].
      assert (E : forall j, j <> i -> ext j g (g ++ map (By i) t)). { intros j D. exists (map (By i) t). split; [reflexivity|]. split; [apply own_other; exact D|apply begun_by]. }
      split; [|split].
      + intros j m' NJ. apply nth_lset in NJ. destruct NJ as [(-> & ->)|(D & NJ)]; [exact S3|]. eapply parked_ext; [apply E; exact D|apply P; exact NJ].
      + intros j J. rewrite lset_len in J. assert (D : j <> i). { assert (X : nth_error ts i <> None) by congruence. apply nth_error_Some in X. lia. }
        destruct (E j D) as (x & -> & X & X'). rewrite own_app, begun_app, X, X', !app_nil_r. apply O. exact J.
      + intros j. rewrite begun_app, begun_by, app_nil_r. apply U.
    - destruct (lose c w) as [t w'] eqn:E. assert (OE : forall j, own j (map Env t) = []) by (intros j; clear; induction t; [reflexivity|assumption]).
      split; cbn [p_world p_tasks p_log]; [eapply lose_inv; eassumption|]. split; [|split; [|split]].
      + apply log_ok_other; [exact L|]. intros j e X. apply in_map_iff in X. destruct X as (y & X & _). discriminate X.
      + intros j m N. eapply parked_ext; [|apply P; exact N]. exists (map Env t). auto using begun_env.
      + intros j J. rewrite own_app, begun_app, OE, begun_env, !app_nil_r. auto.
      + intros j. rewrite begun_app, begun_env, app_nil_r. apply U.
    - destruct (handler_of c code w) as [[h|h]|]; [|exact (conj I (conj L (conj P (conj O U))))..].
      split; cbn [p_world p_tasks p_log]; [eapply push_inv; eassumption|]. split; [|split; [|split]].
      + apply log_ok_other; [exact L|]. intros j e [X|[]]. discriminate X.
      + intros j m N. eapply parked_ext; [|apply P; exact N]. exists [Pushed c code b]. auto.
      + intros j J. rewrite own_app, begun_app. cbn [own begun flat_map]. rewrite !app_nil_r. auto.
      + intros j. rewrite begun_app. cbn [begun flat_map]. rewrite app_nil_r. apply U.
    - destruct (pstep_handle n w ts g) as [->|(c & code & b & l & cbs & _ & _ & ->)]; [exact (conj I (conj L (conj P (conj O U))))|].
      split; cbn [p_world p_tasks p_log]; [eapply apply_inv; eassumption|]. split; [|split; [|split]].
      + apply log_ok_other; [exact L|]. intros j e [X|[]]. discriminate X.
      + intros j m N. eapply parked_ext; [|apply P; exact N]. exists [Applied c code b cbs]. auto.
      + intros j J. rewrite own_app, begun_app. cbn [own begun flat_map]. rewrite !app_nil_r. auto.
      + intros j. rewrite begun_app. cbn [begun flat_map]. rewrite app_nil_r. apply U.
  Qed.
  Lemma start_inv w : Inv [] w -> pinv (start w).
  Proof. intros I. split; [exact I|]. split; [apply log_ok_nil|]. split; [intros [|i] m N; discriminate N|]. split; [auto|]. cbn. lia. Qed.
  Theorem schedule_inv n w es : (forall es, Rel (p_log (prun n (start w) es)) (p_world (prun n (start w) es))) -> Inv [] w -> pinv (prun n (start w) es).
  Proof.
    intros RE I. induction es as [|e es IH] using rev_ind; [apply start_inv; exact I|].
    unfold prun. rewrite fold_left_app. cbn [fold_left]. apply pstep_inv; [apply RE|exact IH].
  Qed.
End RG.

(** allowing more, or knowing more *)
Section Weaken.
  Variables (Inv : log -> world -> Prop) (ok ok' : nat -> log -> ev -> Prop) (Rel Rel' : log -> world -> Prop) (fin : trace -> list (api_call * dict) -> out unit -> Prop).
  Hypothesis knows : forall g w, Rel' g w -> Rel g w.
  Lemma oks_weaken i t : (forall g e, ok i g e -> ok' i g e) -> forall g, oks ok i g t -> oks ok' i g t.
  Proof. intros A. induction t as [|e t IH]; intros g O; cbn [oks] in *; [exact Logic.I|]. destruct O as (O1 & O2). auto. Qed.
  Lemma safe_weaken {A} i (m : task A) (Q : post A) : (forall g e, ok i g e -> ok' i g e) -> forall g w, safe Inv ok Rel i m g w Q -> safe Inv ok' Rel' i m g w Q.
  Proof.
    intros W. induction m as [o|k IH|f k IH|e k IH|k IH x IHx]; intros g w H; cbn [safe] in *; auto.
    - destruct H as (H1 & H2). split; [eapply oks_weaken; eassumption|auto].
    - destruct H as (H1 & H2 & H3). split; [auto|]. split; [exact H2|]. intros g' w' kd clk E I R F. apply IH, H3; auto.
    - destruct H as (H1 & H2 & H3). split; [exact H1|]. split; [intros; apply IH; auto|intros; apply IHx; auto].
  Qed.
  Lemma parked_weaken i m g : (forall g e, ok i g e -> ok' i g e) -> parked Inv ok Rel fin i m g -> parked Inv ok' Rel' fin i m g.
  Proof.
    intros W. destruct m as [o|k|f k|e k|k x]; cbn [parked]; auto.
    - intros H g' w' kd clk E I R F. eapply safe_weaken; [exact W|]. apply H; auto.
    - intros (H1 & H2). split; intros; (eapply safe_weaken; [exact W|]); auto.
  Qed.
End Weaken.
