(** Proofs for Prop_Slow.v: a call whose answers come late. *)
From Verif Require Import Py F64 Struct Utf Utility Const Enum Decode World Request Gateway Traces Api P_Base P_Util P_Monad P_Request SpecSlow.
Open Scope m_scope.

(** what the adapter will do does not matter to what happens between two waits *)
Lemma conn_env e c w : get_conn c (set_env e w) = get_conn c w. Proof. reflexivity. Qed.
Lemma lose_env_comm e c w : lose c (set_env e w) = (fst (lose c w), set_env e (snd (lose c w))).
Proof. unfold lose, connected, get_conn. cbn [set_env w_conns w_cb]. destruct (c_connected _); reflexivity. Qed.
Lemma lose_all_comm e cs : forall w, lose_all cs (set_env e w) = (fst (lose_all cs w), set_env e (snd (lose_all cs w))).
Proof.
  induction cs as [|c cs IH]; intros w; cbn [lose_all]; [reflexivity|]. rewrite lose_env_comm. destruct (lose c w) as [t1 w1]. cbn [fst snd].
  rewrite IH. destruct (lose_all cs w1) as [t2 w2]. reflexivity.
Qed.
Lemma interfere_comm e r w l w1 : interfere r w = (l, w1) -> interfere r (set_env e w) = (l, set_env e w1).
Proof.
  unfold interfere. intros E.
  replace (set_clock (r_clock r) match r_data r with Some d => set_data d (set_env e w) | None => set_env e w end)
    with (set_env e (set_clock (r_clock r) match r_data r with Some d => set_data d w | None => w end)) by (destruct (r_data r); reflexivity).
  rewrite lose_all_comm, E. reflexivity.
Qed.
Lemma interfere_clock x r w : interfere r (set_clock x w) = interfere r w.
Proof. unfold interfere. destruct (r_data r); reflexivity. Qed.
Lemma interfere_quiet q w : quiet q -> interfere q w = ([], set_clock (r_clock q) w).
Proof. intros (A & B). unfold interfere. rewrite A, B. reflexivity. Qed.

(** ** whole pieces of what was done *)
Definition open_end (x : ev) : Prop :=
  match x with Send _ _ _ | AwaitReply _ _ | Open _ _ _ | AwaitFutures _ _ | AwaitClosed _ | Sleep _ => True | _ => False end.
Inductive fin : trace -> Prop :=
| fin_nil : fin []
| fin_last t x : ~ open_end x -> fin (t ++ [x]).
Lemma fin_cons x y t : fin (x :: y :: t) -> fin (y :: t).
Proof.
  intros F. inversion F as [|s z N E]. destruct s as [|a s]; [discriminate|]. injection E as _ E. rewrite <- E. constructor. exact N.
Qed.
Lemma fin_one x : fin [x] -> ~ open_end x.
Proof. intros F. inversion F as [|s z N E]. destruct s as [|a s]; [injection E as <-; exact N|]. destruct s; discriminate. Qed.
Lemma fin_app t1 t2 : fin t1 -> fin t2 -> fin (t1 ++ t2).
Proof. intros F G. inversion G as [|s z N E]; subst; [rewrite app_nil_r; exact F|]. rewrite app_assoc. constructor. exact N. Qed.
Lemma fin_more t x : ~ open_end x -> fin (t ++ [x]). Proof. apply fin_last. Qed.
Lemma fin_losses l : only_losses l -> fin l.
Proof.
  intros O. destruct l as [|a l] using rev_ind; [constructor|]. apply fin_last. apply Forall_app in O. destruct O as (_ & O).
  inversion O; subst. destruct a; cbn in *; tauto.
Qed.
Lemma fin_got e r l : only_losses l -> fin (e :: Got r :: l).
Proof. intros O. change (e :: Got r :: l) with (([e] ++ [Got r]) ++ l). apply fin_app; [apply fin_last; cbn; tauto|apply fin_losses; exact O]. Qed.

Section Slow.
Variable lim : Z -> Z.

Lemma slower_split t e t' : slower lim t e t' -> forall t1 t2, t = t1 ++ t2 -> fin t1 ->
  exists e1 e2 s1 s2, e = e1 ++ e2 /\ t' = s1 ++ s2 /\ slower lim t1 e1 s1 /\ slower lim t2 e2 s2.
Proof.
  induction 1 as [|c X b r a t e t' l s A L S IH|x r t e t' W S IH|x t e t' W S IH]; intros t1 t2 E F.
  - destruct t1; [|discriminate]. cbn in E. subst t2. exists [], [], [], []. repeat split; constructor.
  - destruct t1 as [|x1 t1]; [cbn in E; subst t2; exists [], (l ++ e), [], (s ++ t'); repeat split; [constructor|econstructor; eassumption]|].
    injection E as <- E. destruct t1 as [|x2 t1]; [destruct (fin_one _ F Logic.I)|]. injection E as <- E.
    apply fin_cons in F. destruct t1 as [|x3 t1]; [destruct (fin_one _ F Logic.I)|]. injection E as <- E. apply fin_cons in F.
    destruct (IH t1 t2 E) as (e1 & e2 & s1 & s2 & -> & -> & S1 & S2).
    { destruct t1; [constructor|]. eapply fin_cons, F. }
    exists (l ++ e1), e2, (s ++ s1), s2. rewrite <- !app_assoc. repeat split; try assumption. econstructor; eassumption.
  - destruct t1 as [|x1 t1]; [cbn in E; subst t2; exists [], (r :: e), [], (x :: Got r :: t'); repeat split; [constructor|constructor; assumption]|].
    injection E as <- E. destruct t1 as [|x2 t1]; [exfalso; apply (fin_one _ F); destruct x; cbn in *; tauto|]. injection E as <- E. apply fin_cons in F.
    destruct (IH t1 t2 E) as (e1 & e2 & s1 & s2 & -> & -> & S1 & S2).
    { destruct t1; [constructor|]. eapply fin_cons, F. }
    exists (r :: e1), e2, (x :: Got r :: s1), s2. repeat split; try assumption. constructor; assumption.
  - destruct t1 as [|x1 t1]; [cbn in E; subst t2; exists [], e, [], (x :: t'); repeat split; [constructor|constructor; assumption]|].
    injection E as <- E. destruct (IH t1 t2 E) as (e1 & e2 & s1 & s2 & -> & -> & S1 & S2).
    { destruct t1; [constructor|]. eapply fin_cons, F. }
    exists e1, e2, (x :: s1), s2. repeat split; try assumption. constructor; assumption.
Qed.
Lemma slower_losses t e t' : slower lim t e t' -> only_losses t -> e = [] /\ t' = t.
Proof.
  induction 1 as [|c X b r a t e t' l s A L S IH|x r t e t' W S IH|x t e t' W S IH]; intros O.
  - auto.
  - inversion O as [|? ? N]; cbn in N; tauto.
  - inversion O as [|? ? N]; subst. destruct x; cbn in W, N; tauto.
  - inversion O as [|? ? N O']; subst. destruct (IH O') as (-> & ->). auto.
Qed.

(** ** calls that do not mind *)
Definition J (w : world) : Prop := forall X, lim X <= w_retries w.
Definition ends {A} (o : out A) : Prop := forall y, o <> Stuck y.
Definition tol {A} (m : M A) : Prop := forall w t w1 o, m w = (t, w1, o) -> ends o -> J w ->
  J w1 /\ fin t /\ forall e t' tl, slower lim t e t' -> m (set_env (e ++ tl) w) = (t', set_env tl w1, o).

Lemma slower_nil e t' : slower lim [] e t' -> e = [] /\ t' = [].
Proof. intros S. inversion S. auto. Qed.
Lemma tol_ret {A} (a : A) : tol (mret a).
Proof. intros w t w1 o E N K. injection E as <- <- <-. split; [exact K|]. split; [constructor|]. intros e t' tl S. apply slower_nil in S. destruct S as (-> & ->). reflexivity. Qed.
Lemma tol_raise {A} e : tol (@mraise A e).
Proof. intros w t w1 o E N K. injection E as <- <- <-. split; [exact K|]. split; [constructor|]. intros e' t' tl S. apply slower_nil in S. destruct S as (-> & ->). reflexivity. Qed.
Lemma tol_stuck {A} y : tol (@mstuck A y).
Proof. intros w t w1 o E N K. injection E as <- <- <-. destruct (N y eq_refl). Qed.
Lemma tol_lift {A} (r : res A) : tol (mlift r). Proof. destruct r; [apply tol_ret|apply tol_raise]. Qed.
Lemma tol_put (f : world -> world) : (forall e w, f (set_env e w) = set_env e (f w)) -> (forall w, w_retries (f w) = w_retries w) -> tol (mput f).
Proof.
  intros C Rt w t w1 o E N K. injection E as <- <- <-. split; [unfold J in *; rewrite Rt; exact K|]. split; [constructor|].
  intros e t' tl S. apply slower_nil in S. destruct S as (-> & ->). unfold mput. cbn [app]. rewrite C. reflexivity.
Qed.
Lemma tol_emit x : at_once x -> tol (memit x).
Proof.
  intros W w t w1 o E N K. injection E as <- <- <-. split; [exact K|]. split; [apply (fin_last []); destruct x; cbn in *; tauto|].
  intros e t' tl S. inversion S as [| | |? ? ? ? W' S']; subst; try (destruct W). inversion S'; subst. reflexivity.
Qed.
Lemma tol_bind {A B} (m : M A) (k : A -> M B) : tol m -> (forall a, tol (k a)) -> tol (mbind m k).
Proof.
  intros Hm Hk w t w1 o E N K. apply bind_inv in E. destruct E as [(t1 & w2 & a & t2 & E1 & E2 & ->)|[(x & E1 & ->)|(y & E1 & ->)]].
  - destruct (Hm _ _ _ _ E1 ltac:(discriminate) K) as (K1 & F1 & S1). destruct (Hk a _ _ _ _ E2 N K1) as (K2 & F2 & S2).
    split; [exact K2|]. split; [apply fin_app; assumption|]. intros e t' tl S.
    destruct (slower_split _ _ _ S t1 t2 eq_refl F1) as (e1 & e2 & s1 & s2 & -> & -> & Sa & Sb).
    rewrite <- app_assoc, (bind_val _ _ _ _ _ _ (S1 _ _ _ Sa)). rewrite (S2 _ _ _ Sb). reflexivity.
  - destruct (Hm _ _ _ _ E1 ltac:(discriminate) K) as (K1 & F1 & S1). split; [exact K1|]. split; [exact F1|].
    intros e t' tl S. apply bind_exc, S1, S.
  - destruct (N y eq_refl).
Qed.
(** reading the state *)
Lemma tol_get {A B} (f : world -> A) (k : A -> M B) : (forall e w, f (set_env e w) = f w) -> (forall w, J w -> tol (k (f w))) -> tol (mbind (mget f) k).
Proof.
  intros C Hk w t w1 o E N K. rewrite bind_get in E. destruct (Hk w K _ _ _ _ E N K) as (K1 & F & S). split; [exact K1|]. split; [exact F|].
  intros e t' tl P. rewrite bind_get, C. apply S, P.
Qed.
Lemma tol_catch {A} (m : M A) p h : tol m -> (forall e, tol (h e)) -> tol (mcatch m p h).
Proof.
  intros Hm Hh w t w1 o E N K. unfold mcatch in E. destruct (m w) as [[t1 w2] o1] eqn:E1. destruct o1 as [a|x|y].
  - injection E as <- <- <-. destruct (Hm _ _ _ _ E1 N K) as (K1 & F1 & S1). split; [exact K1|]. split; [exact F1|].
    intros e t' tl S. unfold mcatch. rewrite (S1 _ _ _ S). reflexivity.
  - destruct (Hm _ _ _ _ E1 ltac:(discriminate) K) as (K1 & F1 & S1). destruct (p x) eqn:P.
    + destruct (h x w2) as [[t2 w3] o2] eqn:E2. injection E as <- <- <-. destruct (Hh x _ _ _ _ E2 N K1) as (K2 & F2 & S2).
      split; [exact K2|]. split; [apply fin_app; assumption|]. intros e t' tl S.
      destruct (slower_split _ _ _ S t1 t2 eq_refl F1) as (e1 & e2 & s1 & s2 & -> & -> & Sa & Sb).
      unfold mcatch. rewrite <- app_assoc, (S1 _ _ _ Sa), P, (S2 _ _ _ Sb). reflexivity.
    + injection E as <- <- <-. split; [exact K1|]. split; [exact F1|]. intros e t' tl S. unfold mcatch. rewrite (S1 _ _ _ S), P. reflexivity.
  - injection E as <- <- <-. destruct (N y eq_refl).
Qed.
Lemma tol_finally {A} (m : M A) f : tol m -> (forall e w, f (set_env e w) = set_env e (f w)) -> (forall w, w_retries (f w) = w_retries w) -> tol (mfinally m f).
Proof.
  intros Hm C Rt w t w1 o E N K. unfold mfinally in E. destruct (m w) as [[t1 w2] o1] eqn:E1.
  assert (N1 : ends o1 /\ t = t1 /\ w1 = f w2 /\ o = o1).
  { destruct o1; injection E as <- <- <-; [auto|auto|destruct (N y eq_refl)]. }
  clear E. destruct N1 as (_ & -> & -> & ->).
  destruct (Hm _ _ _ _ E1 N K) as (K1 & F1 & S1). split; [unfold J in *; rewrite Rt; exact K1|]. split; [exact F1|].
  intros e t' tl S. unfold mfinally. rewrite (S1 _ _ _ S). destruct o1; [rewrite C; reflexivity|rewrite C; reflexivity|destruct (N y eq_refl)].
Qed.
Lemma interfere_J r w l w1 : interfere r w = (l, w1) -> w_retries w1 = w_retries w.
Proof.
  unfold interfere. set (w0 := set_clock _ _). assert (E0 : w_retries w0 = w_retries w) by (subst w0; destruct (r_data r); reflexivity).
  rewrite <- E0. clearbody w0. clear E0. revert w0 l w1. induction (r_lost r) as [|c cs IH]; intros w0 l w1 E; cbn [lose_all] in E; [injection E as _ <-; reflexivity|].
  unfold lose in E. destruct (connected c w0).
  - destruct (lose_all cs _) as [t2 w2] eqn:E2. injection E as _ <-. apply IH in E2. exact E2.
  - destruct (lose_all cs w0) as [t2 w2] eqn:E2. injection E as _ <-. apply IH in E2. exact E2.
Qed.
Lemma tol_ask x pre : waits_else x -> (forall r e w, pre r (set_env e w) = set_env e (pre r w)) -> (forall r w, w_retries (pre r w) = w_retries w) -> tol (ask x pre).
Proof.
  intros W C Rt w t w1 o E N K. unfold ask in E. destruct (w_env w) as [|r rest] eqn:Ew; [injection E as <- <- <-; destruct (N _ eq_refl)|].
  destruct (interfere r (pre r (set_env rest w))) as [l w2] eqn:I. injection E as <- <- <-. pose proof (interfere_l _ _ _ _ I) as O.
  split; [unfold J in *; rewrite (interfere_J _ _ _ _ I), Rt; exact K|]. split; [apply fin_got, O|].
  intros e t' tl S. inversion S as [| |? ? ? e' t'' W' S'|? ? ? ? W' S']; subst; try (destruct W); [|destruct x; destruct W; destruct W'].
  destruct (slower_losses _ _ _ S' O) as (-> & ->). unfold ask. cbn [app set_env w_env]. rewrite C in I.
  replace (set_env tl (set_env (r :: tl) w)) with (set_env tl w) by reflexivity.
  pose proof (interfere_comm tl _ _ _ _ I) as I2. change (set_env tl (set_env rest (pre r w))) with (set_env tl (pre r w)) in I2. 
  change (set_env tl {| w_addr := w_addr w; w_cb := w_cb w; w_proto := w_proto w; w_data := w_data w; w_last := w_last w; w_retries := w_retries w; w_cm := w_cm w; w_conns := w_conns w; w_env := r :: tl; w_clock := w_clock w; w_host := w_host w |}) with (set_env tl w).
  rewrite C, I2. reflexivity.
Qed.
Lemma tol_lose c : tol (fun w => let '(t, w') := lose c w in (t, w', Val tt)).
Proof.
  intros w t w1 o E N K. destruct (lose c w) as [l w2] eqn:L. injection E as <- <- <-.
  assert (O : only_losses l) by (pose proof (lose_losses c w) as O; rewrite L in O; exact O).
  split; [unfold lose in L; destruct (connected c w); injection L as _ <-; exact K|]. split; [apply fin_losses, O|].
  intros e t' tl S. destruct (slower_losses _ _ _ S O) as (-> & ->). cbn [app]. rewrite lose_env_comm, L. reflexivity.
Qed.

(** ** one message *)
Lemma loop_env n : forall c X b mr a w w' o e, request_loop n a mr c X b w = ([], w', o) -> ends o ->
  request_loop n a mr c X b (set_env e w) = ([], set_env e w', o).
Proof.
  destruct n as [|n]; intros c X b mr a w w' o e E N; cbn [request_loop] in *; [injection E as <- <-; reflexivity|].
  rewrite bind_get in *. change (connected c (set_env e w)) with (connected c w). destruct (connected c w) eqn:C; cbn [negb] in *;
    [|injection E as <- <-; reflexivity].
  rewrite bind_get in *. rewrite conn_env. destruct (c_closing (get_conn c w)).
  - rewrite bind_get in *. change (connected c (set_env e w)) with (connected c w). rewrite C in *. injection E as <- <-. reflexivity.
  - unfold send in *. apply bind_inv in E. destruct E as [(t1 & w1 & x & t2 & E1 & E2 & E3)|[(x & E1 & ->)|(y & E1 & ->)]].
    + exfalso. symmetry in E3. apply app_eq_nil in E3. destruct E3 as (-> & ->). assert (Ne : forall t0 w0 o0, ask (AwaitReply c (1000 * COM_TIMEOUT)) nopre w1 = (t0, w0, o0) -> t0 <> []).
      { intros t0 w0 o0 Q. unfold ask in Q. destruct (w_env w1); [injection Q as <- _ _; discriminate|].
        destruct (interfere _ _). injection Q as <- _ _. discriminate. }
      apply bind_inv in E2. destruct E2 as [(t1 & w2 & r & t2 & E2 & _ & E3)|[(z & E2 & _)|(z & E2 & _)]]; apply Ne in E2; [|congruence|congruence].
      symmetry in E3. apply app_eq_nil in E3. tauto.
    + rewrite bind_get in E1. destruct (c_open (get_conn c w)) eqn:Op; [|discriminate E1].
      assert (Sd : mbind (mget (get_conn c)) (fun k => if c_open k then mbind (mlift (makeMessage 0 X b)) (fun _ => memit (Send c X b)) else mret tt) (set_env e w)
               = ([], set_env e w', Exc x)).
      { rewrite bind_get, conn_env, Op. destruct (makeMessage 0 X b) as [m|er]; cbn [mlift] in *; [rewrite bind_ret in E1; discriminate E1|].
        rewrite bind_raise in *. injection E1 as <- <-. reflexivity. }
      rewrite (bind_exc _ _ _ _ _ _ Sd). reflexivity.
    + destruct (N y eq_refl).
Qed.

Lemma judge_late X r a : answer_of r = Some (X + 1, a) -> judge X r = RAnswer a.
Proof. intros A. apply judge_answer, A. Qed.

Lemma late_run c X b mr r a j l s : answer_of r = Some (X + 1, a) -> late (lim X) c X b r j l s -> lim X <= mr ->
  (exists m, makeMessage 0 X b = Ok m) ->
  forall n w tl w1 ls, connected c w = true -> c_closing (get_conn c w) = false -> c_open (get_conn c w) = true ->
  (0 < n)%nat -> Z.of_nat n = mr - j + 2 ->
  interfere r (set_env tl w) = (ls, w1) ->
  request_loop n (j - 1) mr c X b (set_env (l ++ tl) w) = (s ++ ls, w1, Val (Some a)).
Proof.
  intros A L M (msg & P). assert (Mm : mlift (makeMessage 0 X b) = mret msg) by (rewrite P; reflexivity).
  induction L as [j|j q p l t Lj F Ps L IH]; intros n w tl w1 ls C G O Np Nn I.
  - destruct n as [|n]; [lia|]. cbn [request_loop]. rewrite bind_get. change (connected c (set_env ?e w)) with (connected c w). rewrite C. cbn [negb].
    rewrite bind_get, conn_env, G. unfold send. rewrite bind_assoc, bind_get, conn_env, O. rewrite bind_assoc. rewrite Mm, bind_ret.
    rewrite bind_emit. assert (Sk : ask (AwaitReply c (1000 * COM_TIMEOUT)) nopre (set_env ([r] ++ tl) w) = (AwaitReply c 2000 :: Got r :: ls, w1, Val r)).
    { unfold ask. cbn [app set_env w_env nopre]. change (set_env tl (set_env (r :: tl) w)) with (set_env tl w).
      match goal with |- context[interfere r ?v] => change (interfere r v) with (interfere r (set_env tl w)) end. rewrite I. reflexivity. }
    rewrite (bind_val _ _ _ _ _ _ Sk). unfold answer_of in A. destruct (r_kind r); try discriminate A; injection A as -> ->;
      (rewrite Z.eqb_refl; cbn [mret]; rewrite app_nil_r; reflexivity).
  - destruct n as [|n]; [lia|]. cbn [request_loop]. rewrite bind_get. change (connected c (set_env ?e w)) with (connected c w). rewrite C. cbn [negb].
    rewrite bind_get, conn_env, G. unfold send. rewrite bind_assoc, bind_get, conn_env, O. rewrite bind_assoc. rewrite Mm, bind_ret.
    rewrite bind_emit.
    set (w2 := set_env (p :: l ++ tl) (set_clock (r_clock q) w)).
    assert (Sk : ask (AwaitReply c (1000 * COM_TIMEOUT)) nopre (set_env ((q :: p :: l) ++ tl) w) = ([AwaitReply c 2000; Got q], w2, Val q)).
    { unfold ask. cbn [app set_env w_env nopre]. 
      match goal with |- context[interfere q ?v] => change (interfere q v) with (interfere q (set_env (p :: l ++ tl) w)) end.
      rewrite (interfere_quiet q) by apply F. reflexivity. }
    rewrite (bind_val _ _ _ _ _ _ Sk).
    set (fl := fun e : exn => if j - 1 =? mr then mraise e else mbind (msleep (1000 * (COM_RETRY_WAIT * (j - 1 + 1)))) (fun _ => request_loop n (j - 1 + 1) mr c X b)).
    assert (Fl : forall e, fl e w2 = (Sleep (1000 * j) :: Got p :: t ++ ls, w1, Val (Some a))).
    { intros e. unfold fl. replace (j - 1 =? mr) with false by lia.
      assert (Sl : msleep (1000 * (COM_RETRY_WAIT * (j - 1 + 1))) w2 = ([Sleep (1000 * j); Got p], set_env (l ++ tl) (set_clock (r_clock p) (set_clock (r_clock q) w)), Val tt)).
      { unfold msleep, mbind, ask. unfold w2. cbn [set_env w_env nopre].
        match goal with |- context[interfere p ?v] => change (interfere p v) with (interfere p (set_env (l ++ tl) (set_clock (r_clock q) w))) end.
        rewrite (interfere_quiet p) by apply Ps. destruct Ps as (_ & ->). cbn [mret]. unfold COM_RETRY_WAIT. replace (1000 * (1 * (j - 1 + 1))) with (1000 * j) by lia. reflexivity. }
      rewrite (bind_val _ _ _ _ _ _ Sl). replace (j - 1 + 1) with ((j + 1) - 1) by lia.
      rewrite (IH n (set_clock (r_clock p) (set_clock (r_clock q) w)) tl w1 ls); [reflexivity|exact C|exact G|exact O|lia|lia|].
      change (set_env tl (set_clock (r_clock p) (set_clock (r_clock q) w))) with (set_clock (r_clock p) (set_clock (r_clock q) (set_env tl w))).
      rewrite !interfere_clock. exact I. }
    destruct F as (_ & [K|(rc & rb & An & N1 & N2)]).
    + rewrite K. fold (fl ESLConnection). rewrite Fl. reflexivity.
    + unfold answer_of in An. destruct (r_kind q); try discriminate An; injection An as -> ->;
        (replace (rc =? X + 1) with false by lia; replace (rc =? CODE_ERROR_LOGIN_REJECTED) with false by (unfold CODE_ERROR_LOGIN_REJECTED; lia);
         destruct (_ || _); [fold (fl ESLRequest)|fold (fl ESLResponse)]; rewrite Fl; reflexivity).
Qed.

Lemma fin_sent c X b w e r l : only_losses l -> fin (sent c X b w ++ e :: Got r :: l).
Proof.
  intros O. unfold sent. destruct (c_open (get_conn c w)); cbn [app]; [|apply fin_got, O].
  change (Send c X b :: e :: Got r :: l) with (([Send c X b; e] ++ [Got r]) ++ l). apply fin_app; [apply fin_last; cbn; tauto|apply fin_losses, O].
Qed.
Lemma lrun_fin c X b mr n a w t w1 o : lrun c X b mr n a w t w1 o -> ends o -> fin t /\ w_retries w1 = w_retries w.
Proof.
  induction 1; intros N; try (split; [constructor|reflexivity]); try (destruct (N _ eq_refl)).
  - pose proof (interfere_l _ _ _ _ H2) as O. split; [apply fin_sent, O|]. exact (interfere_J _ _ _ _ H2).
  - pose proof (interfere_l _ _ _ _ H2) as O. pose proof (interfere_l _ _ _ _ H6) as O2. split.
    + rewrite app_comm_cons, app_comm_cons, app_assoc. apply fin_app; [apply fin_sent, O|apply fin_got, O2].
    + rewrite (interfere_J _ _ _ _ H6). exact (interfere_J _ _ _ _ H2).
  - destruct (IHlrun N) as (F & R). pose proof (interfere_l _ _ _ _ H2) as O. pose proof (interfere_l _ _ _ _ H6) as O2. split.
    + replace (sent c X b w ++ AwaitReply c 2000 :: Got r :: l ++ Sleep (1000 * (a + 1)) :: Got r2 :: l2 ++ t)
        with ((sent c X b w ++ AwaitReply c 2000 :: Got r :: l) ++ (Sleep (1000 * (a + 1)) :: Got r2 :: l2) ++ t) by (rewrite <- !app_assoc; reflexivity).
      apply fin_app; [apply fin_sent, O|]. apply fin_app; [apply fin_got, O2|exact F].
    + rewrite R, (interfere_J _ _ _ _ H6). exact (interfere_J _ _ _ _ H2).
Qed.
(** a message answered at once, of which [t] tells *)
Lemma slower_sent c X b w r l e t' : slower lim (sent c X b w ++ AwaitReply c 2000 :: Got r :: l) e t' ->
  c_open (get_conn c w) = true /\ exists a e1 s e2 s2, answer_of r = Some (X + 1, a) /\ late (lim X) c X b r 1 e1 s /\ slower lim l e2 s2 /\
    e = e1 ++ e2 /\ t' = s ++ s2.
Proof.
  unfold sent. destruct (c_open (get_conn c w)); cbn [app]; intros S.
  - split; [reflexivity|]. inversion S as [|? ? ? ? a ? e2 s2 e1 s A L S'|? ? ? ? ? W|? ? ? ? W]; subst; try destruct W. eauto 12.
  - exfalso. inversion S as [| |? ? ? ? ? W|? ? ? ? W]; subst; destruct W.
Qed.
Lemma tol_request c X b mr : lim X <= mr -> tol (make_request c X b mr).
Proof.
  intros M w t w1 o E N K. pose proof E as E0. apply request_run in E. destruct (lrun_fin _ _ _ _ _ _ _ _ _ _ E N) as (F & Rt).
  split; [unfold J in *; rewrite Rt; exact K|]. split; [exact F|]. intros e t' tl S.
  assert (Nil : t = [] -> make_request c X b mr (set_env (e ++ tl) w) = (t', set_env tl w1, o)).
  { intros ->. apply slower_nil in S. destruct S as (-> & ->). cbn [app]. apply loop_env; assumption. }
  inversion E; subst; try (apply Nil; reflexivity).
  - destruct (N _ eq_refl).
  - destruct (slower_sent _ _ _ _ _ _ _ _ S) as (Op & a0 & e1 & s & e2 & s2 & A & L & S2 & -> & ->).
    pose proof (interfere_l _ _ _ _ H3) as O. destruct (slower_losses _ _ _ S2 O) as (-> & ->). rewrite app_nil_r.
    rewrite (judge_late _ _ _ A) in H4. subst o. unfold make_request.
    assert (Mk : exists m, makeMessage 0 X b = Ok m).
    { destruct (makeMessage 0 X b) as [m|er] eqn:Mm; [eauto|]. exfalso. unfold make_request in E0. rewrite <- H in E0. cbn [request_loop] in E0.
      rewrite bind_get, H0 in E0. cbn [negb] in E0. rewrite bind_get, H1 in E0. unfold send in E0. rewrite bind_assoc, bind_get, Op, Mm in E0. discriminate E0. }
    pose proof (interfere_comm tl _ _ _ _ H3) as I2. change (set_env tl (set_env rest w)) with (set_env tl w) in I2.
    rewrite <- H. replace 0 with (1 - 1) at 1 by lia. eapply late_run; eauto; lia.
  - destruct (N _ eq_refl).
  - exfalso. replace (sent c X b w ++ AwaitReply c 2000 :: Got r :: l ++ Sleep (1000 * (0 + 1)) :: Got r2 :: l2)
      with (sent c X b w ++ AwaitReply c 2000 :: Got r :: (l ++ Sleep (1000 * (0 + 1)) :: Got r2 :: l2)) in S by reflexivity.
    destruct (slower_sent _ _ _ _ _ _ _ _ S) as (_ & a0 & _ & _ & _ & _ & A & _). rewrite (judge_late _ _ _ A) in H4. discriminate H4.
  - exfalso. destruct (slower_sent _ _ _ _ _ _ _ _ S) as (_ & a0 & _ & _ & _ & _ & A & _). rewrite (judge_late _ _ _ A) in H4. discriminate H4.
Qed.
End Slow.
