(** Proofs about Request.v: the request loop. *)
From Verif Require Import Py F64 Struct Utf Utility Const Enum Decode World Request Traces P_Base P_Util P_Monad.

Lemma lose_losses c w : only_losses (fst (lose c w)).
Proof. unfold lose, only_losses. destruct (connected c w); simpl; auto. destruct (w_cb w); auto. Qed.
Lemma lose_all_losses cs : forall w, only_losses (fst (lose_all cs w)).
Proof.
  induction cs as [|c cs IH]; intro w; cbn [lose_all]; [constructor|].
  pose proof (lose_losses c w). destruct (lose c w) as [t1 w1]. specialize (IH w1). destruct (lose_all cs w1) as [t2 w2].
  apply Forall_app. auto.
Qed.
Lemma interfere_losses r w : only_losses (fst (interfere r w)).
Proof. apply lose_all_losses. Qed.

(** what one response means for a request *)
Inductive verdict := RAnswer (b : bytes) | RLogin | RCancel | RUnfit | RFail (e : exn).
Definition judge (code : Z) (r : resp) : verdict :=
  match r_kind r with
  | KReply rc b | KTimeoutReply rc b =>
      if rc =? code + 1 then RAnswer b
      else if rc =? 13 then RLogin
      else if (rc =? 30) || (rc =? 31) then RFail ESLRequest
      else RFail ESLResponse
  | KTimeout => RFail ESLConnection
  | KCancelFut | KCancelTask => RCancel
  | KDone | KOSError => RUnfit
  end.

Section Loop.
Variables (c : nat) (code : Z) (data : bytes) (mr : Z).

Definition sent (w : world) : trace := if c_open (get_conn c w) then [Send c code data] else [].

(** the runs of the request loop *)
Inductive lrun : nat -> Z -> world -> trace -> world -> out (option bytes) -> Prop :=
| L_none a w : lrun 0 a w [] w (Val None)
| L_down n a w : connected c w = false -> lrun (S n) a w [] w (Exc ESLConnection)
| L_closing n a w : connected c w = true -> c_closing (get_conn c w) = true -> lrun (S n) a w [] w (Val None)
| L_pack n a w e : connected c w = true -> c_closing (get_conn c w) = false -> c_open (get_conn c w) = true ->
    makeMessage 0 code data = Err e -> lrun (S n) a w [] w (Exc e)
| L_wait n a w : connected c w = true -> c_closing (get_conn c w) = false -> w_env w = [] ->
    lrun (S n) a w (sent w ++ [AwaitReply c 2000]) w (Stuck Waiting)
| L_end n a w r rest l w1 o : connected c w = true -> c_closing (get_conn c w) = false -> w_env w = r :: rest ->
    interfere r (set_env rest w) = (l, w1) ->
    match judge code r with
    | RAnswer b => o = Val (Some b)
    | RLogin => o = Exc ESLLogin
    | RCancel => o = if connected c w1 then Val None else Exc ESLConnection
    | RUnfit => o = Stuck Unfit
    | RFail e => a = mr /\ o = Exc e
    end ->
    lrun (S n) a w (sent w ++ AwaitReply c 2000 :: Got r :: l) w1 o
| L_sleep n a w r rest l w1 e : connected c w = true -> c_closing (get_conn c w) = false -> w_env w = r :: rest ->
    interfere r (set_env rest w) = (l, w1) -> judge code r = RFail e -> a <> mr -> w_env w1 = [] ->
    lrun (S n) a w (sent w ++ AwaitReply c 2000 :: Got r :: l ++ [Sleep (1000 * (a + 1))]) w1 (Stuck Waiting)
| L_woken n a w r rest l w1 e r2 rest2 l2 w2 o : connected c w = true -> c_closing (get_conn c w) = false ->
    w_env w = r :: rest -> interfere r (set_env rest w) = (l, w1) -> judge code r = RFail e -> a <> mr ->
    w_env w1 = r2 :: rest2 -> interfere r2 (set_env rest2 w1) = (l2, w2) ->
    match r_kind r2 with
    | KDone => False
    | KCancelTask => o = Exc ECancelled
    | _ => o = Stuck Unfit
    end ->
    lrun (S n) a w (sent w ++ AwaitReply c 2000 :: Got r :: l ++ Sleep (1000 * (a + 1)) :: Got r2 :: l2) w2 o
| L_retry n a w r rest l w1 e r2 rest2 l2 w2 t w3 o : connected c w = true -> c_closing (get_conn c w) = false ->
    w_env w = r :: rest -> interfere r (set_env rest w) = (l, w1) -> judge code r = RFail e -> a <> mr ->
    w_env w1 = r2 :: rest2 -> interfere r2 (set_env rest2 w1) = (l2, w2) -> r_kind r2 = KDone ->
    lrun n (a + 1) w2 t w3 o ->
    lrun (S n) a w (sent w ++ AwaitReply c 2000 :: Got r :: l ++ Sleep (1000 * (a + 1)) :: Got r2 :: l2 ++ t) w3 o.

Lemma loop_run n : forall a w t w' o, request_loop n a mr c code data w = (t, w', o) -> lrun n a w t w' o.
Proof.
  induction n as [|n IH]; intros a w t w' o H.
  - injection H as <- <- <-. constructor.
  - cbn [request_loop] in H. rewrite bind_get in H.
    destruct (connected c w) eqn:C; cbn [negb] in H.
    2:{ injection H as <- <- <-. constructor; auto. }
    rewrite bind_get in H.
    destruct (c_closing (get_conn c w)) eqn:G.
    { rewrite bind_get in H. rewrite C in H. injection H as <- <- <-. apply L_closing; auto. }
    unfold send in H. rewrite bind_assoc, bind_get in H.
    assert (S' : (exists e, c_open (get_conn c w) = true /\ makeMessage 0 code data = Err e /\ t = [] /\ w' = w /\ o = Exc e) \/
      exists t0, t = sent w ++ t0 /\
      (r <- ask (AwaitReply c (1000 * COM_TIMEOUT)) nopre ;;
          match r_kind r with
          | KReply rc b | KTimeoutReply rc b =>
        if rc =? code + 1 then mret (Some b)
        else if rc =? CODE_ERROR_LOGIN_REJECTED then mraise ESLLogin
        else if (rc =? CODE_ERROR_INVALID_REQUEST) || (rc =? CODE_ERROR_BAD_PARAMETER)
             then if a =? mr then mraise ESLRequest
        else msleep (1000 * (COM_RETRY_WAIT * (a + 1))) ;;;
             request_loop n (a + 1) mr c code data
        else if a =? mr then mraise ESLResponse
        else msleep (1000 * (COM_RETRY_WAIT * (a + 1))) ;;;
             request_loop n (a + 1) mr c code data
          | KTimeout => if a =? mr then mraise ESLConnection
        else msleep (1000 * (COM_RETRY_WAIT * (a + 1))) ;;;
             request_loop n (a + 1) mr c code data
          | KCancelFut | KCancelTask => ok <- mget (connected c) ;; if ok then mret None else mraise ESLConnection
          | KDone | KOSError => mstuck Unfit
          end)%m w = (t0, w', o)).
    { unfold sent. destruct (c_open (get_conn c w)) eqn:P.
      - rewrite bind_assoc in H. destruct (makeMessage 0 code data) as [mm|e] eqn:MM; cbn [mlift] in H.
        + rewrite bind_ret, bind_emit in H. right.
          match type of H with (match ?x with _ => _ end) = _ => destruct x as [[t0 w0] o0] eqn:E end.
          injection H as <- <- <-. exists t0. split; [reflexivity|first [exact E|reflexivity]].
        + injection H as <- <- <-. left. exists e. auto.
      - rewrite bind_ret in H. right. exists t. split; [reflexivity|exact H]. }
    clear H. destruct S' as [(e & P & MM & -> & -> & ->)|(t0 & -> & H)].
    { apply L_pack; auto. }
    unfold mbind at 1, ask at 1 in H. destruct (w_env w) as [|r rest] eqn:E.
    { injection H as <- <- <-. apply L_wait; auto. }
    unfold nopre in H. destruct (interfere r (set_env rest w)) as [l w1] eqn:I.
    assert (F : forall e, judge code r = RFail e ->
      (let '(t2, w2, o2) := (if a =? mr then mraise e
        else msleep (1000 * (COM_RETRY_WAIT * (a + 1))) ;;;
             request_loop n (a + 1) mr c code data)%m w1 in
        ((AwaitReply c (1000 * COM_TIMEOUT) :: Got r :: l) ++ t2, w2, o2)) = (t0, w', o) ->
      lrun (S n) a w (sent w ++ t0) w' o).
    { intros e J K. destruct (Z.eqb_spec a mr) as [A|A].
      - injection K as <- <- <-. rewrite app_nil_r. change (1000 * COM_TIMEOUT) with 2000.
        eapply L_end; eauto. rewrite J. auto.
      - replace (COM_RETRY_WAIT * (a + 1)) with (a + 1) in K by (unfold COM_RETRY_WAIT; ring).
        unfold mbind at 1, msleep in K. unfold mbind at 1, ask in K. destruct (w_env w1) as [|r2 rest2] eqn:E1.
        + injection K as <- <- <-. change (1000 * COM_TIMEOUT) with 2000.  cbn [app].
          eapply L_sleep; eauto.
        + unfold nopre in K. destruct (interfere r2 (set_env rest2 w1)) as [l2 w2] eqn:I2.
          change (1000 * COM_TIMEOUT) with 2000 in K.
          destruct (r_kind r2) eqn:K2; cbn [mret mraise mstuck] in K;
            try (injection K as <- <- <-; rewrite ?app_nil_r; cbn [app]; eapply L_woken; eauto; rewrite K2; reflexivity).
          rewrite app_nil_r in K. destruct (request_loop n (a + 1) mr c code data w2) as [[t3 w3] o3] eqn:R.
          injection K as <- <- <-. cbn [app]. 
          eapply L_retry; eauto. }
    assert (D : forall o', (match judge code r with
      | RAnswer b => o' = Val (Some b) | RLogin => o' = Exc ESLLogin
      | RCancel => o' = if connected c w1 then Val None else Exc ESLConnection
      | RUnfit => o' = Stuck Unfit | RFail e => False end) ->
      ((AwaitReply c (1000 * COM_TIMEOUT) :: Got r :: l) ++ [], w1, o') = (t0, w', o) ->
      lrun (S n) a w (sent w ++ t0) w' o).
    { intros o' J K. injection K as <- <- <-. rewrite app_nil_r. change (1000 * COM_TIMEOUT) with 2000.
      eapply L_end; eauto. destruct (judge code r); auto. contradiction. }
    unfold CODE_ERROR_LOGIN_REJECTED, CODE_ERROR_INVALID_REQUEST, CODE_ERROR_BAD_PARAMETER in H.
    unfold judge in F, D.
    destruct (r_kind r) as [rc b| |rc b| | | |] eqn:K.
    1,3: destruct (rc =? code + 1); [eapply D; [|exact H]; reflexivity|];
      destruct (rc =? 13); [eapply D; [|exact H]; reflexivity|];
      destruct ((rc =? 30) || (rc =? 31)); (eapply F; [reflexivity|exact H]).
    + eapply F; [reflexivity|exact H].
    + rewrite bind_get in H. eapply D; [reflexivity|]. destruct (connected c w1); exact H.
    + rewrite bind_get in H. eapply D; [reflexivity|]. destruct (connected c w1); exact H.
    + eapply D; [reflexivity|exact H].
    + eapply D; [reflexivity|exact H].
Qed.

End Loop.

(** ------------------------------------------------------------------ *)
(** traces of the loop *)
Lemma replies_cons e t : (forall c ms, e <> AwaitReply c ms) -> replies (e :: t) = replies t.
Proof. intros H. destruct e; try reflexivity. destruct (H c ms eq_refl). Qed.
Lemma wakes_cons e t : (forall ms, e <> Sleep ms) -> wakes (e :: t) = wakes t.
Proof. intros H. destruct e; try reflexivity. destruct (H ms eq_refl). Qed.
Lemma replies_losses l t : only_losses l -> replies (l ++ t) = replies t.
Proof.
  induction 1 as [|e l H F IH]; [reflexivity|]. cbn [app]. rewrite replies_cons; auto.
  intros c ms ->. exact H.
Qed.
Lemma wakes_losses l t : only_losses l -> wakes (l ++ t) = wakes t.
Proof.
  induction 1 as [|e l H F IH]; [reflexivity|]. cbn [app]. rewrite wakes_cons; auto.
  intros ms ->. exact H.
Qed.
Lemma losses_sends l : only_losses l -> sends l = [].
Proof. induction 1 as [|e l H F IH]; [reflexivity|]. destruct e; try contradiction; exact IH. Qed.
Lemma losses_sends_of k l : only_losses l -> sends_of k l = [].
Proof. induction 1 as [|e l H F IH]; [reflexivity|]. destruct e; try contradiction; exact IH. Qed.
Lemma losses_sleeps l : only_losses l -> sleeps l = [].
Proof. induction 1 as [|e l H F IH]; [reflexivity|]. destruct e; try contradiction; exact IH. Qed.
Lemma losses_waits l : only_losses l -> reply_waits l = [].
Proof. induction 1 as [|e l H F IH]; [reflexivity|]. destruct e; try contradiction; exact IH. Qed.
Lemma losses_opens l : only_losses l -> opens l = [].
Proof. induction 1 as [|e l H F IH]; [reflexivity|]. destruct e; try contradiction; exact IH. Qed.
Lemma losses_replies l : only_losses l -> replies l = [].
Proof. intros H. rewrite <- (app_nil_r l), replies_losses; auto. Qed.
Lemma losses_wakes l : only_losses l -> wakes l = [].
Proof. intros H. rewrite <- (app_nil_r l), wakes_losses; auto. Qed.
Lemma interfere_l r w l w1 : interfere r w = (l, w1) -> only_losses l.
Proof. intros H. pose proof (interfere_losses r w) as K. rewrite H in K. exact K. Qed.

Lemma replies_sent c code data w t : replies (sent c code data w ++ t) = replies t.
Proof. unfold sent. destruct c_open; reflexivity. Qed.
Lemma wakes_sent c code data w t : wakes (sent c code data w ++ t) = wakes t.
Proof. unfold sent. destruct c_open; reflexivity. Qed.
Lemma waits_sent c code data w : reply_waits (sent c code data w) = [].
Proof. unfold sent. destruct c_open; reflexivity. Qed.
Lemma sleeps_sent c code data w : sleeps (sent c code data w) = [].
Proof. unfold sent. destruct c_open; reflexivity. Qed.

(** losing connections *)
Lemma lset_length {A} n (x : A) l : List.length (lset n x l) = List.length l.
Proof. revert n. induction l as [|y l IH]; intros [|n]; simpl; auto. Qed.
Lemma nth_lset {A} n (x d : A) l m : (n < List.length l)%nat ->
  nth m (lset n x l) d = if Nat.eqb m n then x else nth m l d.
Proof.
  revert n m. induction l as [|y l IH]; intros n m L; [simpl in L; lia|].
  destruct n as [|n], m as [|m]; simpl; auto. apply IH. simpl in L. lia.
Qed.
Lemma lset_out {A} n (x : A) l : (List.length l <= n)%nat -> lset n x l = l.
Proof. revert n. induction l as [|y l IH]; intros [|n] L; simpl in *; auto; try lia. f_equal. apply IH. lia. Qed.
Lemma get_upd c f w c' : get_conn c' (upd_conn c f w) =
  if Nat.eqb c' c && Nat.ltb c (List.length (w_conns w)) then f (get_conn c w) else get_conn c' w.
Proof.
  unfold get_conn at 1, upd_conn. cbn [set_conns w_conns]. destruct (Nat.ltb_spec c (List.length (w_conns w))) as [L|L].
  - rewrite nth_lset by exact L. rewrite andb_true_r. destruct (Nat.eqb c' c); reflexivity.
  - rewrite lset_out by exact L. rewrite andb_false_r. reflexivity.
Qed.
Lemma connected_in c w : connected c w = true -> (c < List.length (w_conns w))%nat.
Proof.
  unfold connected, get_conn. intros H. destruct (Nat.ltb_spec c (List.length (w_conns w))); auto.
  rewrite nth_overflow in H by assumption. discriminate.
Qed.
Lemma lose_connected c w c' : connected c' (snd (lose c w)) = connected c' w && negb (Nat.eqb c' c).
Proof.
  unfold lose. destruct (connected c w) eqn:C; cbn [snd].
  - pose proof (connected_in _ _ C) as L. unfold connected at 1. rewrite get_upd.
    apply Nat.ltb_lt in L. rewrite L, andb_true_r. destruct (Nat.eqb_spec c' c) as [->|]; cbn [c_connected negb].
    + rewrite andb_false_r. reflexivity.
    + rewrite andb_true_r. reflexivity.
  - destruct (Nat.eqb_spec c' c) as [->|]; cbn [negb]; rewrite ?andb_true_r, ?andb_false_r; auto.
Qed.
Lemma lose_lost c w : In (Lost c) (fst (lose c w)) -> connected c (snd (lose c w)) = false.
Proof. intros _. rewrite lose_connected, Nat.eqb_refl, andb_false_r. reflexivity. Qed.
Lemma lose_lost_eq c c' w : In (Lost c') (fst (lose c w)) -> c' = c.
Proof.
  unfold lose. destruct (connected c w); [|intros []]. cbn [fst]. intros [H|H]; [congruence|].
  destruct (w_cb w); [destruct H as [H|[]]; discriminate|destruct H].
Qed.
Lemma lose_all_connected cs : forall w c', connected c' (snd (lose_all cs w)) = connected c' w && negb (existsb (Nat.eqb c') cs).
Proof.
  induction cs as [|c cs IH]; intros w c'; cbn [lose_all existsb].
  - rewrite andb_true_r. reflexivity.
  - pose proof (lose_connected c w c') as H. destruct (lose c w) as [t1 w1]. cbn [snd] in H.
    specialize (IH w1 c'). destruct (lose_all cs w1) as [t2 w2]. cbn [snd] in *. rewrite IH, H.
    rewrite negb_orb. apply eq_sym, andb_assoc.
Qed.
Lemma lose_all_lost cs : forall w c', In (Lost c') (fst (lose_all cs w)) -> In c' cs.
Proof.
  induction cs as [|c cs IH]; intros w c'; cbn [lose_all]; [intros []|].
  pose proof (lose_lost_eq c c' w) as H. destruct (lose c w) as [t1 w1]. cbn [fst] in H.
  specialize (IH w1 c'). destruct (lose_all cs w1) as [t2 w2]. cbn [fst] in *.
  rewrite in_app_iff. intros [K|K]; [left; symmetry; auto|right; auto].
Qed.
Lemma interfere_connected r w l w1 c : interfere r w = (l, w1) ->
  connected c w1 = connected c w && negb (existsb (Nat.eqb c) (r_lost r)).
Proof.
  unfold interfere. intros H. match type of H with ?x = _ => assert (S : snd x = w1) by (rewrite H; reflexivity) end.
  rewrite lose_all_connected in S || (rewrite <- S; rewrite lose_all_connected).
  f_equal. unfold connected, get_conn. destruct (r_data r); reflexivity.
Qed.
Lemma interfere_lost r w l w1 c : interfere r w = (l, w1) -> In (Lost c) l -> connected c w1 = false.
Proof.
  intros H I. rewrite (interfere_connected _ _ _ _ c H). unfold interfere in H.
  match type of H with ?x = _ => assert (S : fst x = l) by (rewrite H; reflexivity) end.
  rewrite <- S in I. apply lose_all_lost in I.
  assert (E : existsb (Nat.eqb c) (r_lost r) = true) by (apply existsb_exists; exists c; split; [exact I|apply Nat.eqb_refl]).
  rewrite E. apply andb_false_r.
Qed.
Lemma interfere_down r w l w1 c : interfere r w = (l, w1) -> connected c w = false -> connected c w1 = false.
Proof. intros H C. rewrite (interfere_connected _ _ _ _ c H), C. reflexivity. Qed.

Lemma lose_env c w : w_env (snd (lose c w)) = w_env w.
Proof. unfold lose. destruct connected; reflexivity. Qed.
Lemma lose_all_env cs : forall w, w_env (snd (lose_all cs w)) = w_env w.
Proof.
  induction cs as [|c cs IH]; intros w; cbn [lose_all]; [reflexivity|].
  pose proof (lose_env c w) as H. destruct (lose c w) as [t1 w1]. cbn [snd] in H.
  specialize (IH w1). destruct (lose_all cs w1) as [t2 w2]. cbn [snd] in *. congruence.
Qed.
Lemma interfere_env r w l w1 : interfere r w = (l, w1) -> w_env w1 = w_env w.
Proof.
  unfold interfere. intros H. match type of H with ?x = _ => assert (S : snd x = w1) by (rewrite H; reflexivity) end.
  rewrite <- S, lose_all_env. destruct (r_data r); reflexivity.
Qed.

(** ------------------------------------------------------------------ *)
Lemma judge_answer code r b : judge code r = RAnswer b <-> answer_of r = Some (code + 1, b).
Proof.
  unfold judge, answer_of. destruct (r_kind r) as [rc b'| |rc b'| | | |];
    try (split; intros; congruence);
    (destruct (Z.eqb_spec rc (code + 1)) as [->|N]; [split; intros H; injection H as ->; reflexivity|];
     split; [destruct (rc =? 13), ((rc =? 30) || (rc =? 31)); discriminate|intros H; injection H; intros; congruence]).
Qed.
Lemma judge_login code r : judge code r = RLogin <-> code + 1 <> 13 /\ exists b, answer_of r = Some (13, b).
Proof.
  unfold judge, answer_of. destruct (r_kind r) as [rc b'| |rc b'| | | |];
    try (split; [intros; discriminate|intros (_ & b & H); discriminate]);
    (destruct (Z.eqb_spec rc (code + 1)) as [->|N];
       [split; [discriminate|intros (K & b & H); injection H; intros; congruence]|];
     destruct (Z.eqb_spec rc 13) as [->|N13]; [split; eauto|];
     split; [destruct ((rc =? 30) || (rc =? 31)); discriminate|intros (_ & b & H); injection H; intros; congruence]).
Qed.
Lemma judge_fail code r e : judge code r = RFail e <-> failure code r e.
Proof.
  split.
  - unfold judge. destruct (r_kind r) as [rc b'| |rc b'| | | |] eqn:K; try discriminate.
    2:{ intros H; injection H as <-. apply F_timeout. exact K. }
    all: (destruct (Z.eqb_spec rc (code + 1)) as [->|N]; [discriminate|];
      destruct (Z.eqb_spec rc 13) as [->|N13]; [discriminate|];
      assert (A : answer_of r = Some (rc, b')) by (unfold answer_of; rewrite K; reflexivity);
      destruct (Z.eqb_spec rc 30) as [->|N30];
        [cbn [orb]; intros H; injection H as <-; eapply F_invalid; eauto|];
      destruct (Z.eqb_spec rc 31) as [->|N31];
        [cbn [orb]; intros H; injection H as <-; eapply F_bad; eauto|];
      cbn [orb]; intros H; injection H as <-; eapply F_other; eauto).
  - intros F.
    assert (G : forall rc b, answer_of r = Some (rc, b) -> judge code r =
      if rc =? code + 1 then RAnswer b else if rc =? 13 then RLogin
      else if (rc =? 30) || (rc =? 31) then RFail ESLRequest else RFail ESLResponse).
    { unfold answer_of, judge. intros rc b H. destruct (r_kind r); try discriminate; injection H as -> ->; reflexivity. }
    inversion F as [H|b H N|b H N|k b H N1 N2 N3 N4]; subst.
    + unfold judge. rewrite H. reflexivity.
    + rewrite (G _ _ H). destruct (Z.eqb_spec 30 (code + 1)); [congruence|]. reflexivity.
    + rewrite (G _ _ H). destruct (Z.eqb_spec 31 (code + 1)); [congruence|]. reflexivity.
    + rewrite (G _ _ H).
      destruct (Z.eqb_spec k (code + 1)); [congruence|]. destruct (Z.eqb_spec k 13); [congruence|].
      destruct (Z.eqb_spec k 30); [congruence|]. destruct (Z.eqb_spec k 31); [congruence|]. reflexivity.
Qed.

Ltac losses := repeat match goal with H : interfere _ _ = (?l, _) |- _ =>
  lazymatch goal with K : only_losses l |- _ => fail | _ => pose proof (interfere_l _ _ _ _ H) end end.
Ltac rep := rewrite ?replies_sent; cbn [replies]; rewrite ?replies_losses by assumption;
  cbn [replies]; rewrite ?replies_losses by assumption; rewrite ?losses_replies by assumption.

Ltac nol := repeat match goal with K : only_losses ?l |- _ =>
  rewrite ?(losses_sends l K), ?(losses_waits l K), ?(losses_sleeps l K), ?(losses_opens l K); clear K end.

Section Props.
Variables (c : nat) (code : Z) (data : bytes) (mr : Z).
Notation lrun := (lrun c code data mr).

(** the answers seen, and how each kind of answer ends the loop *)
Lemma run_answer n a w t w' b : lrun n a w t w' (Val (Some b)) ->
  exists rs r, replies t = rs ++ [r] /\ answer_of r = Some (code + 1, b).
Proof.
  intros H. remember (Val (Some b)) as o eqn:O. revert b O.
  induction H; intros b0 O; try discriminate; losses.
  - rep. exists [], r. split; [reflexivity|]. apply judge_answer.
    destruct (judge code r); subst o; try discriminate; try congruence.
    + destruct (connected c w1); discriminate.
    + destruct H3 as [_ H3]. discriminate.
  - exfalso. destruct (r_kind r2); subst o; try contradiction; discriminate.
  - rep. destruct (IHlrun b0 O) as (rs & r' & E & A). exists (r :: rs), r'. rewrite E. auto.
Qed.

(** a response that answers, or that rejects the login, ends the loop at once *)
Definition ends (r : resp) (w' : world) (o : out (option bytes)) : Prop :=
  match judge code r with
  | RFail _ => False
  | RAnswer b => o = Val (Some b)
  | RLogin => o = Exc ESLLogin
  | RCancel => o = if connected c w' then Val None else Exc ESLConnection
  | RUnfit => o = Stuck Unfit
  end.
Lemma run_final n a w t w' o q : lrun n a w t w' o -> In q (replies t) ->
  (exists e, judge code q = RFail e) \/
  (ends q w' o /\ exists rs t1 t2, replies t = rs ++ [q] /\ t = t1 ++ Got q :: t2 /\ only_losses t2).
Proof.
  intros H. induction H; losses; try (intros []).
  - rewrite replies_sent. intros [].
  - rep. intros [<-|[]]. unfold ends. destruct (judge code r) eqn:J; try (right; split; [assumption|];
      exists [], (sent c code data w ++ [AwaitReply c 2000]), l; rewrite <- app_assoc; auto).
    left. eauto.
  - rep. intros [<-|[]]. eauto.
  - rep. intros [<-|[]]. eauto.
  - rep. intros [<-|I]; [eauto|]. destruct (IHlrun I) as [F|(E & rs & t1 & t2 & Er & Et & L)]; [auto|].
    right. split; [exact E|]. exists (r :: rs), (sent c code data w ++ AwaitReply c 2000 :: Got r :: l ++ Sleep (1000 * (a + 1)) :: Got r2 :: l2 ++ t1), t2.
    rewrite Er, Et. repeat split; auto.
    rewrite <- ?app_assoc. cbn [app]. rewrite <- ?app_assoc. cbn [app]. rewrite <- ?app_assoc. reflexivity.
Qed.

Lemma len_replies n a w t w' o : lrun n a w t w' o -> (List.length (replies t) <= n)%nat.
Proof.
  intros H. induction H; losses; try (simpl; lia).
  - rewrite replies_sent. simpl. lia.
  - rep. simpl. lia.
  - rep. simpl. lia.
  - rep. simpl. lia.
  - rep. simpl. lia.
Qed.

(** all attempts used up: the last response decides *)
Lemma run_last n a w t w' o q rs x : lrun n a w t w' o -> a + Z.of_nat n = mr + 1 ->
  replies t = rs ++ [q] -> List.length (replies t) = n -> judge code q = RFail x -> o = Exc x.
Proof.
  intros H. revert rs. induction H; losses; intros rs A R LN J.
  - destruct rs; discriminate.
  - destruct rs; discriminate.
  - destruct rs; discriminate.
  - destruct rs; discriminate.
  - rewrite replies_sent in R. destruct rs; discriminate.
  - revert R LN. rep. intros R LN. destruct rs as [|? [|]]; try discriminate. injection R as ->.
    rewrite J in H3. destruct H3 as [_ ->]. reflexivity.
  - revert R LN. rep. intros R LN. simpl in LN. exfalso. apply H4. lia.
  - revert R LN. rep. intros R LN. simpl in LN. exfalso. apply H4. lia.
  - revert R LN. rep. intros R LN. simpl in LN. injection LN as LN.
    destruct rs as [|r' rs].
    + injection R as -> R. rewrite R in LN. simpl in LN. exfalso. apply H4. lia.
    + injection R as -> R. eapply IHlrun; eauto. lia.
Qed.

Lemma run_exc n a w t w' e : lrun n a w t w' (Exc e) -> a + Z.of_nat n = mr + 1 -> List.length (replies t) = n -> (0 < n)%nat ->
  exists rs r, replies t = rs ++ [r] /\
   (judge code r = RFail e \/ (judge code r = RLogin /\ e = ESLLogin) \/
    (judge code r = RCancel /\ e = ESLConnection /\ connected c w' = false)).
Proof.
  intros H. remember (Exc e) as o eqn:O. revert e O. induction H; losses; intros e0 O A LN P; try discriminate.
  - revert LN. rep. intros LN. exists [], r. split; [reflexivity|].
    destruct (judge code r); subst o.
    + discriminate.
    + injection O as <-. auto.
    + right; right. destruct (connected c w1); [discriminate|]. injection O as <-. auto.
    + discriminate.
    + destruct H3 as [_ H3]. left. congruence.
  - revert LN. rep. intros LN. simpl in LN. exfalso. apply H4. lia.
  - revert LN. rep. intros LN. simpl in LN. injection LN as LN.
    assert (N0 : (0 < n)%nat) by lia.
    destruct (IHlrun e0 O ltac:(lia) LN N0) as (rs & r' & R & D). exists (r :: rs), r'. rewrite R. auto.
Qed.

(** messages, waits and sleeps *)
Lemma run_sends n a w t w' o : lrun n a w t w' o ->
  Forall (fun x => x = (c, code, data)) (sends t) /\ (List.length (sends t) <= n)%nat /\
  Forall (fun ms => ms = 2000) (reply_waits t) /\ (List.length (reply_waits t) <= n)%nat.
Proof.
  assert (S1 : forall w, Forall (fun x => x = (c, code, data)) (sends (sent c code data w)) /\
    (List.length (sends (sent c code data w)) <= 1)%nat).
  { intros x. unfold sent. destruct c_open; simpl; auto. }
  intros H. induction H; losses; repeat rewrite ?sends_app, ?reply_waits_app, ?waits_sent;
    try (specialize (S1 w) as [S1 S2]).
  1-4: simpl; repeat split; auto; lia.
  - rewrite !app_length. simpl. repeat split; auto; try lia. rewrite app_nil_r. auto.
  - change (sends (AwaitReply c 2000 :: Got r :: l)) with (sends l).
    change (reply_waits (AwaitReply c 2000 :: Got r :: l)) with (2000 :: reply_waits l).
    nol. rewrite app_nil_r. simpl. repeat split; auto; lia.
  - change (AwaitReply c 2000 :: Got r :: l ++ [Sleep (1000 * (a + 1))]) with
     ([AwaitReply c 2000; Got r] ++ l ++ [Sleep (1000 * (a + 1))]).
    rewrite !sends_app, !reply_waits_app; nol.
    simpl. rewrite app_nil_r. repeat split; auto; lia.
  - change (AwaitReply c 2000 :: Got r :: l ++ Sleep (1000 * (a + 1)) :: Got r2 :: l2) with
     ([AwaitReply c 2000; Got r] ++ l ++ [Sleep (1000 * (a + 1)); Got r2] ++ l2).
    rewrite !sends_app, !reply_waits_app; nol.
    simpl. rewrite app_nil_r. repeat split; auto; lia.
  - change (AwaitReply c 2000 :: Got r :: l ++ Sleep (1000 * (a + 1)) :: Got r2 :: l2 ++ t) with
     ([AwaitReply c 2000; Got r] ++ l ++ [Sleep (1000 * (a + 1)); Got r2] ++ l2 ++ t).
    rewrite !sends_app, !reply_waits_app; nol.
    destruct IHlrun as (I1 & I2 & I3 & I4). simpl. rewrite app_length.
    repeat split; auto; try lia. apply Forall_app. auto.
Qed.

Lemma run_sleeps n a w t w' o : lrun n a w t w' o -> a + Z.of_nat n = mr + 1 ->
  exists k, sleeps t = map (fun i => 1000 * (a + 1 + Z.of_nat i)) (seq 0 k) /\ (k <= n - 1)%nat.
Proof.
  intros H. induction H; losses; intros A; repeat rewrite ?sleeps_app, ?sleeps_sent; cbn [app].
  1-5: exists 0%nat; split; [reflexivity|lia].
  - exists 0%nat. split; [|lia]. apply (losses_sleeps l). assumption.
  - exists 1%nat. split; [|lia]. change (AwaitReply c 2000 :: Got r :: l ++ [Sleep (1000 * (a + 1))]) with
     ([AwaitReply c 2000; Got r] ++ l ++ [Sleep (1000 * (a + 1))]).
    rewrite !sleeps_app; nol. cbn [sleeps flat_map app map seq]. f_equal. lia.
  - exists 1%nat. split; [|lia]. change (AwaitReply c 2000 :: Got r :: l ++ Sleep (1000 * (a + 1)) :: Got r2 :: l2) with
     ([AwaitReply c 2000; Got r] ++ l ++ [Sleep (1000 * (a + 1)); Got r2] ++ l2).
    rewrite !sleeps_app; nol. cbn [sleeps flat_map app map seq]. f_equal. lia.
  - destruct (IHlrun ltac:(lia)) as (k & E & L). exists (S k). split; [|lia].
    change (AwaitReply c 2000 :: Got r :: l ++ Sleep (1000 * (a + 1)) :: Got r2 :: l2 ++ t) with
     ([AwaitReply c 2000; Got r] ++ l ++ [Sleep (1000 * (a + 1)); Got r2] ++ l2 ++ t).
    rewrite !sleeps_app; nol. rewrite E. cbn [sleeps flat_map app map seq]. f_equal; [lia|].
    rewrite <- seq_shift, map_map. apply map_ext. intros i. lia.
Qed.
End Props.

Lemma spaced_losses l t b : only_losses l -> spaced b t -> spaced b (l ++ t).
Proof. induction 1 as [|e l H F IH]; intros S; [exact S|]. destruct e; try contradiction; exact (IH S). Qed.
Lemma losses_spaced l b : only_losses l -> spaced b l.
Proof. induction 1 as [|e l H F IH]; [exact Logic.I|]. destruct e; try contradiction; exact IH. Qed.

Lemma split_app {A} (a b t1 t2 : list A) x : a ++ b = t1 ++ x :: t2 ->
  (exists a2, a = t1 ++ x :: a2 /\ t2 = a2 ++ b) \/ (exists b1, t1 = a ++ b1 /\ b = b1 ++ x :: t2).
Proof.
  revert t1. induction a as [|y a IH]; intros t1 H.
  - right. exists t1. auto.
  - destruct t1 as [|z t1]; simpl in H.
    + injection H as <- <-. left. exists a. auto.
    + injection H as <- H. destruct (IH _ H) as [(a2 & -> & ->)|(b1 & -> & Eb)]; [left|right]; eexists; split; try reflexivity. exact Eb.
Qed.

Lemma sends_slept ms r t : sends (Sleep ms :: Got r :: t) = sends t.
Proof. reflexivity. Qed.
Lemma waits_slept ms r t : reply_waits (Sleep ms :: Got r :: t) = reply_waits t.
Proof. reflexivity. Qed.

Section Props2.
Variables (c : nat) (code : Z) (data : bytes) (mr : Z).
Notation lrun := (lrun c code data mr).

Lemma run_spaced n a w t w' o : lrun n a w t w' o -> spaced true t.
Proof.
  assert (S1 : forall w t, spaced false t -> spaced true t -> spaced true (sent c code data w ++ t)).
  { intros x t1. unfold sent. destruct c_open; simpl; auto. }
  intros H. induction H; losses; try exact I; apply S1; cbn [spaced app]; auto;
    try (apply losses_spaced; assumption);
    apply spaced_losses; auto; cbn [spaced]; auto; try (apply losses_spaced; assumption);
    apply spaced_losses; auto.
Qed.

Lemma run_down n a w t w' o : lrun n a w t w' o -> connected c w = false -> t = [].
Proof. intros H. inversion H; subst; intros D; auto; congruence. Qed.

Lemma in_sent w : ~ In (Lost c) (sent c code data w).
Proof. unfold sent. destruct c_open; simpl; [intros [H|H]; [discriminate|contradiction]|auto]. Qed.

(** after the connection is lost the loop writes and waits for nothing more *)
Lemma run_lost n a w t w' o : lrun n a w t w' o ->
  forall t1 t2, t = t1 ++ Lost c :: t2 -> sends t2 = [] /\ reply_waits t2 = [].
Proof.
  assert (G : forall w b t1 t2, sent c code data w ++ b = t1 ++ Lost c :: t2 ->
     exists b1, b = b1 ++ Lost c :: t2).
  { intros x b t1 t2 H. destruct (split_app _ _ _ _ _ H) as [(a2 & E & _)|(b1 & _ & E)]; [|eauto].
    exfalso. apply (in_sent x). rewrite E. apply in_or_app. right. left. reflexivity. }
  intros H. induction H; losses; intros t1 t2 E; try (destruct t1; discriminate).
  - destruct (G _ _ _ _ E) as (b1 & E1). destruct b1 as [|? [|]]; discriminate.
  - destruct (G _ _ _ _ E) as (b1 & E1). destruct b1 as [|? [|? b1]]; try discriminate. injection E1 as _ _ E1.
    subst l. apply Forall_app in H4. destruct H4 as [_ F]. inversion F; subst. split; [apply losses_sends|apply losses_waits]; assumption.
  - destruct (G _ _ _ _ E) as (b1 & E1). destruct b1 as [|? [|? b1]]; try discriminate. injection E1 as _ _ E1.
    destruct (split_app _ _ _ _ _ E1) as [(a2 & El & E2)|(b2 & _ & E2)].
    + subst l t2. apply Forall_app in H6. destruct H6 as [_ F]. inversion F; subst. rewrite sends_app, reply_waits_app.
      rewrite (losses_sends a2), (losses_waits a2) by assumption. auto.
    + destruct b2 as [|? [|]]; discriminate.
  - destruct (G _ _ _ _ E) as (b1 & E1). destruct b1 as [|? [|? b1]]; try discriminate. injection E1 as _ _ E1.
    destruct (split_app _ _ _ _ _ E1) as [(a2 & El & E2)|(b2 & _ & E2)].
    + subst l t2. apply Forall_app in H9. destruct H9 as [_ F]. inversion F; subst. rewrite sends_app, reply_waits_app.
      rewrite (losses_sends a2), (losses_waits a2) by assumption. rewrite sends_slept, waits_slept, (losses_sends l2), (losses_waits l2) by assumption. auto.
    + destruct b2 as [|? [|? b2]]; try discriminate. injection E2 as _ _ E2. subst l2.
      apply Forall_app in H8. destruct H8 as [_ F]. inversion F; subst.
      rewrite (losses_sends t2), (losses_waits t2) by assumption. auto.
  - destruct (G _ _ _ _ E) as (b1 & E1). destruct b1 as [|? [|? b1]]; try discriminate. injection E1 as _ _ E1.
    assert (Dn : In (Lost c) (l ++ l2) -> t = []).
    { intros I. eapply run_down; [eassumption|]. apply in_app_or in I. destruct I as [I|I].
      - eapply interfere_down; [eassumption|]. pose proof (interfere_lost _ _ _ _ c H2 I) as D.
        unfold connected, get_conn in *. cbn [set_env w_conns]. exact D.
      - eapply interfere_lost; eassumption. }
    destruct (split_app _ _ _ _ _ E1) as [(a2 & El & E2)|(b2 & _ & E2)].
    + rewrite Dn in E2 by (apply in_or_app; left; rewrite El; apply in_or_app; right; left; reflexivity).
      subst l t2. rewrite app_nil_r. apply Forall_app in H10. destruct H10 as [_ F]. inversion F; subst.
      rewrite sends_app, reply_waits_app, (losses_sends a2), (losses_waits a2) by assumption.
      rewrite sends_slept, waits_slept, (losses_sends l2), (losses_waits l2) by assumption. auto.
    + destruct b2 as [|? [|? b2]]; try discriminate. injection E2 as _ _ E2.
      destruct (split_app _ _ _ _ _ E2) as [(a2 & El & E3)|(b3 & _ & E3)].
      * rewrite Dn in E3 by (apply in_or_app; right; rewrite El; apply in_or_app; right; left; reflexivity).
        subst l2 t2. rewrite app_nil_r. apply Forall_app in H9. destruct H9 as [_ F]. inversion F; subst.
        rewrite (losses_sends a2), (losses_waits a2) by assumption. auto.
      * eapply IHlrun. exact E3.
Qed.

Lemma wakes_wait c1 ms r t : wakes (AwaitReply c1 ms :: Got r :: t) = wakes t.
Proof. rewrite !wakes_cons; congruence. Qed.
Lemma wakes_waiting c1 ms : wakes [AwaitReply c1 ms] = [].
Proof. reflexivity. Qed.
Lemma wakes_slept ms r t : wakes (Sleep ms :: Got r :: t) = r :: wakes t.
Proof. change (wakes (Sleep ms :: Got r :: t)) with (r :: wakes (Got r :: t)). rewrite wakes_cons; congruence. Qed.
Lemma wakes_sleeping ms : wakes [Sleep ms] = [].
Proof. reflexivity. Qed.

Lemma run_woken n a w t w' o q : lrun n a w t w' o -> In q (wakes t) -> r_kind q = KCancelTask -> o = Exc ECancelled.
Proof.
  intros H. induction H; losses; try (intros []); rewrite ?wakes_sent, ?wakes_wait, ?wakes_waiting.
  - intros [].
  - rewrite (losses_wakes l) by assumption. intros [].
  - rewrite (wakes_losses l) by assumption. intros [].
  - rewrite (wakes_losses l), wakes_slept, (losses_wakes l2) by assumption.
    intros [<-|[]] K. rewrite K in H7. exact H7.
  - rewrite (wakes_losses l), wakes_slept, (wakes_losses l2) by assumption.
    intros [<-|I] K; [congruence|auto].
Qed.
End Props2.

(** ------------------------------------------------------------------ *)
Lemma request_run c code data mr w t w' o : make_request c code data mr w = (t, w', o) ->
  lrun c code data mr (Z.to_nat (mr + 1)) 0 w t w' o.
Proof. apply loop_run. Qed.

Lemma total_seq k : 2 * total (map (fun i => 1000 * (1 + Z.of_nat i)) (seq 0 k)) = 1000 * (Z.of_nat k * (Z.of_nat k + 1)).
Proof.
  induction k as [|k IH]; [reflexivity|]. rewrite seq_S, map_app.
  assert (T : forall l x, total (l ++ [x]) = total l + x) by (intros l x; induction l as [|y l I]; simpl; lia).
  cbn [map]. rewrite T. rewrite Nat.add_0_l. lia.
Qed.
Lemma total_2000 l : Forall (fun ms => ms = 2000) l -> total l = 2000 * zlen l.
Proof. induction 1 as [|x l -> F IH]; [reflexivity|]. cbn [total fold_right]. fold (total l). rewrite zlen_cons. lia. Qed.

(** everything about the timing of one request *)
Lemma request_timing c code data mr w t w' o : make_request c code data mr w = (t, w', o) -> 0 <= mr ->
  Forall (fun x => x = (c, code, data)) (sends t) /\ zlen (sends t) <= mr + 1 /\
  Forall (fun ms => ms = 2000) (reply_waits t) /\ zlen (reply_waits t) <= mr + 1 /\
  (exists k, sleeps t = map (fun i => 1000 * (1 + Z.of_nat i)) (seq 0 k) /\ Z.of_nat k <= mr) /\
  spaced true t /\
  2 * (total (sleeps t) + total (reply_waits t)) <= 4000 * (mr + 1) + 1000 * (mr * (mr + 1)).
Proof.
  intros R M. apply request_run in R.
  pose proof (run_sends _ _ _ _ _ _ _ _ _ _ R) as (S1 & S2 & S3 & S4).
  assert (A : 0 + Z.of_nat (Z.to_nat (mr + 1)) = mr + 1) by lia.
  pose proof (run_sleeps _ _ _ _ _ _ _ _ _ _ R A) as (k & K1 & K2).
  assert (K3 : sleeps t = map (fun i => 1000 * (1 + Z.of_nat i)) (seq 0 k)).
  { rewrite K1. apply map_ext. intros i. lia. }
  assert (L : Z.of_nat k <= mr) by lia.
  unfold zlen in *. repeat split; auto; try lia.
  - exists k. auto.
  - exact (run_spaced _ _ _ _ _ _ _ _ _ _ R).
  - rewrite K3. rewrite (total_2000 _ S3). unfold zlen.
    assert (Q := total_seq k).
    assert (0 <= Z.of_nat k) by lia. assert (Z.of_nat k * (Z.of_nat k + 1) <= mr * (mr + 1)) by (apply Z.mul_le_mono_nonneg; lia). lia.
Qed.

Lemma make_message_err id code data e : makeMessage id code data = Err e -> e = EStruct.
Proof. rewrite makeMessage_spec. destruct (_ && _); [discriminate|congruence]. Qed.

Section Props3.
Variables (c : nat) (code : Z) (data : bytes) (mr : Z).
Notation lrun := (lrun c code data mr).
(** the loop gives up only after its last attempt, or because the connection is gone *)
Lemma run_gave_up n a w t w' e : lrun n a w t w' (Exc e) -> a + Z.of_nat n = mr + 1 ->
  e = ESLRequest \/ e = ESLResponse \/ e = ESLConnection ->
  List.length (replies t) = n \/ (e = ESLConnection /\ connected c w' = false).
Proof.
  intros H. remember (Exc e) as o eqn:O. revert e O. induction H; losses; intros e0 O A K; try discriminate.
  - injection O as <-. right. auto.
  - injection O as <-. apply make_message_err in H2. subst e. destruct K as [K|[K|K]]; discriminate.
  - rep. unfold judge in H3. subst o.
    destruct (judge code r) eqn:J; unfold judge in J; rewrite J in H3.
    + discriminate.
    + injection H3 as ->. destruct K as [K|[K|K]]; discriminate.
    + destruct (connected c w1) eqn:C1; [discriminate|]. injection H3 as ->. auto.
    + discriminate.
    + destruct H3 as [-> _]. left. simpl. lia.
  - rewrite O in H7. destruct (r_kind r2); try discriminate; try contradiction.
    injection H7 as ->. destruct K as [K|[K|K]]; discriminate.
  - rep. destruct (IHlrun e0 O ltac:(lia) K) as [L|L]; [left; simpl; lia|right; exact L].
Qed.
(** no result and no error: the caller or the future was cancelled, or the protocol is closing *)
Lemma run_none n a w t w' : lrun n a w t w' (Val None) -> a + Z.of_nat n = mr + 1 -> (0 < n)%nat ->
  connected c w' = true /\
  (c_closing (get_conn c w') = true \/
   exists rs r, replies t = rs ++ [r] /\ (r_kind r = KCancelFut \/ r_kind r = KCancelTask)).
Proof.
  intros H. remember (Val None) as o eqn:O. revert O. induction H; losses; intros O A P; try discriminate; try lia.
  - auto.
  - subst o. unfold judge in H3. destruct (r_kind r) eqn:K.
    1,3: destruct (_ =? _) in H3; [discriminate|]; destruct (_ =? _) in H3; [discriminate|];
         destruct (_ || _) in H3; destruct H3; discriminate.
    1: destruct H3; discriminate.
    3,4: discriminate.
    all: destruct (connected c w1) eqn:C1; [|discriminate]; split; [reflexivity|right]; exists [], r; rep; auto.
  - rewrite O in H7. destruct (r_kind r2); try discriminate; contradiction.
  - rep. assert (n <> 0)%nat by lia. destruct (IHlrun O ltac:(lia) ltac:(lia)) as (C & [G|(rs & q & E & K)]); split; auto.
    right. exists (r :: rs), q. rewrite E. auto.
Qed.
End Props3.
