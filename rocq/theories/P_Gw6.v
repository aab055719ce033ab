(** What no gateway call changes, and what it can do to connections. *)
From Verif Require Import Py F64 Struct Utf Utility Const Spec Enum Decode World Request Gateway Traces Api Paths P_Base P_Util P_Monad P_Request P_Sat P_Paths P_Gw1.
Open Scope m_scope.

(** lose_all and interfere only change connections, data and clock *)
Lemma lose_fields c w l w1 : lose c w = (l, w1) ->
  w_addr w1 = w_addr w /\ w_cb w1 = w_cb w /\ w_proto w1 = w_proto w /\ w_data w1 = w_data w /\ w_last w1 = w_last w /\
  w_retries w1 = w_retries w /\ w_cm w1 = w_cm w /\ w_env w1 = w_env w /\ w_host w1 = w_host w /\
  List.length (w_conns w1) = List.length (w_conns w).
Proof.
  unfold lose. destruct (connected c w); intros E; injection E as <- <-; repeat split; try reflexivity.
  unfold upd_conn. cbn [set_conns w_conns]. apply lset_length.
Qed.
Lemma lose_all_fields cs : forall w l w1, lose_all cs w = (l, w1) ->
  w_addr w1 = w_addr w /\ w_cb w1 = w_cb w /\ w_proto w1 = w_proto w /\ w_data w1 = w_data w /\ w_last w1 = w_last w /\
  w_retries w1 = w_retries w /\ w_cm w1 = w_cm w /\ w_env w1 = w_env w /\ w_host w1 = w_host w /\
  List.length (w_conns w1) = List.length (w_conns w).
Proof.
  induction cs as [|c cs IH]; intros w l w1 E; cbn [lose_all] in E; [injection E as <- <-; repeat split; reflexivity|].
  destruct (lose c w) as [t1 w2] eqn:L. apply lose_fields in L. destruct (lose_all cs w2) as [t2 w3] eqn:L2. apply IH in L2.
  injection E as <- <-. intuition congruence.
Qed.
Lemma interfere_fields r w l w1 : interfere r w = (l, w1) ->
  w_addr w1 = w_addr w /\ w_cb w1 = w_cb w /\ w_proto w1 = w_proto w /\ w_last w1 = w_last w /\
  w_retries w1 = w_retries w /\ w_cm w1 = w_cm w /\ w_env w1 = w_env w /\ w_host w1 = w_host w /\
  List.length (w_conns w1) = List.length (w_conns w) /\
  w_data w1 = match r_data r with Some d => d | None => w_data w end.
Proof. unfold interfere. intros E. apply lose_all_fields in E. destruct (r_data r); cbn [set_clock set_data w_addr w_cb w_proto w_data w_last w_retries w_cm w_env w_host w_conns] in E; intuition. Qed.
Lemma opened_fields r w : w_addr (opened r w) = w_addr w /\ w_cb (opened r w) = w_cb w /\ w_proto (opened r w) = w_proto w /\
  w_data (opened r w) = w_data w /\ w_last (opened r w) = w_last w /\
  w_retries (opened r w) = w_retries w /\ w_cm (opened r w) = w_cm w /\ w_env (opened r w) = w_env w /\ w_host (opened r w) = w_host w.
Proof. unfold opened. destruct (r_kind r); repeat split; reflexivity. Qed.

(** every message *)
Definition anything (_ : Z) (_ : bytes) : Prop := True.

(** the retry limit and the host *)
Definition same_limits : wrel := fun w _ w' => w_retries w' = w_retries w /\ w_host w' = w_host w.
Lemma limits_closed : closed anything same_limits.
Proof.
  constructor; unfold same_limits; try (intros; split; reflexivity).
  - intros w t1 w1 t2 w2 (A & B) (C & D). split; congruence.
  - intros w e r rest l w1 E P I. apply interfere_fields in I. cbn [set_env w_retries w_host] in I. intuition.
  - intros w r rest l w1 E I. apply interfere_fields in I. pose proof (opened_fields r (set_env rest w)) as O.
    cbn [set_env w_retries w_host] in O. intuition congruence.
  - intros w c l w1 L. apply lose_fields in L. intuition.
Qed.

(** the address, and where connections are opened to.  The MAC address may change. *)
Definition same_place : wrel := fun w t w' =>
  same_addr (w_addr w') (w_addr w) /\ Forall (fun x => x = (a_ip (w_addr w), a_port (w_addr w))) (opens t).
Lemma same_addr_refl a : same_addr a a. Proof. repeat split. Qed.
Lemma place_closed : closed anything same_place.
Proof.
  constructor; unfold same_place.
  - intros w. split; [apply same_addr_refl|constructor].
  - intros w t1 w1 t2 w2 ((A1 & A2 & A3 & A4 & A5) & F1) ((B1 & B2 & B3 & B4 & B5) & F2). split; [unfold same_addr; repeat split; congruence|].
    rewrite opens_app. apply Forall_app. split; [exact F1|]. rewrite A1, A2 in F2. exact F2.
  - intros. split; [apply same_addr_refl|constructor].
  - intros. split; [apply same_addr_refl|constructor].
  - intros. split; [apply same_addr_refl|constructor].
  - intros w e _ P. split; [apply same_addr_refl|]. destruct e; try contradiction; constructor.
  - intros w e r rest l w1 E P I. pose proof (interfere_only _ _ _ _ I) as L. apply interfere_fields in I.
    destruct I as (A & _). split; [rewrite A; apply same_addr_refl|].
    assert (opens (e :: Got r :: l) = []) as ->; [|constructor]. change (e :: Got r :: l) with ([e; Got r] ++ l). rewrite opens_app, (losses_opens _ L).
    destruct e; try contradiction; reflexivity.
  - intros. split; [apply same_addr_refl|]. repeat constructor.
  - intros w r rest l w1 E I. pose proof (interfere_only _ _ _ _ I) as L. apply interfere_fields in I.
    destruct I as (A & _). pose proof (opened_fields r (set_env rest w)) as (O & _).
    split; [rewrite A, O; apply same_addr_refl|].
    change (Open (a_ip (w_addr w)) (a_port (w_addr w)) 2000 :: Got r :: l) with ([Open (a_ip (w_addr w)) (a_port (w_addr w)) 2000; Got r] ++ l).
    rewrite opens_app, (losses_opens _ L). repeat constructor.
  - intros w c l w1 L. pose proof (lose_only _ _ _ _ L) as O. apply lose_fields in L. destruct L as (A & _).
    rewrite (losses_opens _ O), A. split; [apply same_addr_refl|constructor].
  - intros. split; [apply same_addr_refl|constructor].
  - intros. split; [apply same_addr_refl|constructor].
  - intros. split; [apply same_addr_refl|constructor].
  - intros. split; [apply same_addr_refl|constructor].
  - intros. split; [repeat split|constructor].
  - intros. split; [repeat split|constructor].
Qed.

(** connections: none disappears, a lost one stays lost, and losing one shows in the trace *)
Definition conn_hist : wrel := fun w t w' =>
  (List.length (w_conns w) <= List.length (w_conns w'))%nat /\
  (forall c, (c < List.length (w_conns w))%nat -> connected c w = false -> connected c w' = false) /\
  (forall c, connected c w = true -> connected c w' = false -> In (Lost c) t) /\
  (forall c, In (Lost c) t -> connected c w' = false /\ (c < List.length (w_conns w'))%nat).

Lemma lose_trace c w l w1 c' : lose c w = (l, w1) -> connected c' w = true -> connected c' w1 = false -> In (Lost c') l.
Proof.
  intros E C D. pose proof (lose_connected c w c') as K. rewrite E in K. cbn [snd] in K. rewrite D, C in K. cbn [andb] in K.
  destruct (Nat.eqb_spec c' c) as [->|]; [|discriminate]. unfold lose in E. rewrite C in E. injection E as <- _. left. reflexivity.
Qed.
Lemma lose_all_trace cs : forall w l w1 c', lose_all cs w = (l, w1) -> connected c' w = true -> connected c' w1 = false -> In (Lost c') l.
Proof.
  induction cs as [|c cs IH]; intros w l w1 c' E C D; cbn [lose_all] in E; [injection E as <- <-; congruence|].
  destruct (lose c w) as [t1 w2] eqn:L. destruct (lose_all cs w2) as [t2 w3] eqn:L2. injection E as <- <-.
  apply in_or_app. destruct (connected c' w2) eqn:C2; [right; eapply IH; eauto|left; eapply lose_trace; eauto].
Qed.
Lemma interfere_trace r w l w1 c : interfere r w = (l, w1) -> connected c w = true -> connected c w1 = false -> In (Lost c) l.
Proof.
  unfold interfere. intros E C D. eapply lose_all_trace; [exact E| |exact D]. destruct (r_data r); exact C.
Qed.
Lemma lose_all_were cs : forall w l w1 c', lose_all cs w = (l, w1) -> In (Lost c') l -> connected c' w = true.
Proof.
  induction cs as [|c cs IH]; intros w l w1 c' E C; cbn [lose_all] in E; [injection E as <- <-; contradiction|].
  destruct (lose c w) as [t1 w2] eqn:L. destruct (lose_all cs w2) as [t2 w3] eqn:L2. injection E as <- <-.
  apply in_app_or in C. destruct C as [C|C].
  - unfold lose in L. destruct (connected c w) eqn:K; injection L as <- <-; [|contradiction].
    destruct C as [C|C]; [injection C as <-; exact K|]. destruct (w_cb w); [destruct C as [C|[]]; discriminate|contradiction].
  - specialize (IH _ _ _ _ L2 C). pose proof (lose_connected c w c') as K. rewrite L in K. cbn [snd] in K. rewrite IH in K.
    symmetry in K. apply andb_true_iff in K. apply K.
Qed.
Lemma interfere_were r w l w1 c : interfere r w = (l, w1) -> In (Lost c) l -> connected c w = true.
Proof. unfold interfere. intros E C. eapply lose_all_were in E; [|exact C]. destruct (r_data r); exact E. Qed.

Lemma conn_set_same w w' : w_conns w' = w_conns w -> forall c, connected c w' = connected c w.
Proof. intros E c. unfold connected, get_conn. rewrite E. reflexivity. Qed.

Lemma hist_same w w' t : w_conns w' = w_conns w -> (forall c, ~ In (Lost c) t) -> conn_hist w t w'.
Proof.
  intros E N. pose proof (conn_set_same _ _ E) as S. unfold conn_hist. repeat split.
  - rewrite E. lia.
  - intros c _ D. rewrite S. exact D.
  - intros c A B. rewrite S in B. congruence.
  - exfalso. eapply N; eassumption.
  - exfalso. eapply N; eassumption.
Qed.
Ltac not_lost := let c := fresh in let J := fresh in intros c J; cbn [In] in J; intuition discriminate.

Lemma hist_trans w t1 w1 t2 w2 : conn_hist w t1 w1 -> conn_hist w1 t2 w2 -> conn_hist w (t1 ++ t2) w2.
Proof.
  intros (A1 & A2 & A3 & A4) (B1 & B2 & B3 & B4). unfold conn_hist. split; [lia|]. split; [|split].
  - intros c L D. apply B2; [lia|auto].
  - intros c C D. apply in_or_app. destruct (connected c w1) eqn:E; [right; auto|left; auto].
  - intros c I. apply in_app_or in I. destruct I as [I|I]; [|apply B4; exact I].
    destruct (A4 c I) as (D & L). split; [apply B2; assumption|lia].
Qed.

Lemma hist_interfere r w l w1 : interfere r w = (l, w1) -> conn_hist w l w1.
Proof.
  intros I. pose proof (interfere_fields _ _ _ _ I) as F. destruct F as (_ & _ & _ & _ & _ & _ & _ & _ & F & _).
  unfold conn_hist. split; [rewrite F; lia|]. split; [|split].
  - intros c L D. rewrite (interfere_connected _ _ _ _ c I), D. reflexivity.
  - intros c C D. eapply interfere_trace; eauto.
  - intros c J. split; [eapply interfere_lost; eauto|]. rewrite F. apply connected_in. eapply interfere_were; eauto.
Qed.

Lemma hist_opened r w : conn_hist w [] (opened r w).
Proof.
  unfold opened. destruct (r_kind r); try (apply hist_same; [reflexivity|intros ? J; exact J]).
  unfold conn_hist. cbn [set_conns w_conns]. split; [rewrite app_length; cbn; lia|].
  assert (S : forall c, (c < List.length (w_conns w))%nat -> connected c (set_conns (w_conns w ++ [new_conn]) w) = connected c w).
  { intros c L. unfold connected, get_conn. cbn [set_conns w_conns]. rewrite app_nth1 by exact L. reflexivity. }
  split; [|split].
  - intros c L D. rewrite S by exact L. exact D.
  - intros c C D. rewrite S in D by (apply connected_in; exact C). congruence.
  - intros c [].
Qed.

Lemma hist_closed : closed anything conn_hist.
Proof.
  constructor.
  - intros. apply hist_same; [reflexivity|intros ? J; exact J].
  - intros. eapply hist_trans; eassumption.
  - intros. apply hist_same; [reflexivity|not_lost].
  - intros. apply hist_same; [reflexivity|not_lost].
  - intros. apply hist_same; [reflexivity|not_lost].
  - intros w e _ P. apply hist_same; [reflexivity|]. intros c [I|[]]. subst e. contradiction.
  - intros w e r rest l w1 E P I. apply hist_interfere in I.
    change (e :: Got r :: l) with ([e; Got r] ++ l). eapply hist_trans; [|exact I]. apply hist_same; [reflexivity|].
    intros c [J|[J|[]]]; [subst e; contradiction|discriminate].
  - intros. apply hist_same; [reflexivity|not_lost].
  - intros w r rest l w1 E I. apply hist_interfere in I.
    change (Open (a_ip (w_addr w)) (a_port (w_addr w)) 2000 :: Got r :: l) with
      ([Open (a_ip (w_addr w)) (a_port (w_addr w)) 2000; Got r] ++ [] ++ l).
    eapply hist_trans with (w1 := set_env rest w); [apply hist_same; [reflexivity|not_lost]|].
    eapply hist_trans; [apply hist_opened|exact I].
  - intros w c l w1 L. pose proof (lose_fields _ _ _ _ L) as F. destruct F as (_ & _ & _ & _ & _ & _ & _ & _ & _ & F).
    pose proof (lose_connected c w) as K. rewrite L in K. cbn [snd] in K. unfold conn_hist. split; [rewrite F; lia|]. split; [|split].
    + intros c' _ D. rewrite K, D. reflexivity.
    + intros c' C D. eapply lose_trace; eauto.
    + intros c' J. pose proof (lose_lost_eq c c' w) as Q. rewrite L in Q. cbn [fst] in Q. specialize (Q J). subst c'.
      split; [rewrite K, Nat.eqb_refl, andb_false_r; reflexivity|]. rewrite F. apply connected_in.
      unfold lose in L. destruct (connected c w) eqn:X; [reflexivity|injection L as <- _; contradiction].
  - intros. apply hist_same; [reflexivity|intros ? J; exact J].
  - intros. apply hist_same; [reflexivity|intros ? J; exact J].
  - intros. apply hist_same; [reflexivity|intros ? J; exact J].
  - intros w c f M. 
    assert (S : forall c', connected c' (upd_conn c f w) = connected c' w).
    { intros c'. unfold connected. rewrite get_upd. destruct (_ && _) eqn:X; [|reflexivity].
      apply andb_true_iff in X. destruct X as (X & _). apply Nat.eqb_eq in X. subst c'. apply M. }
    unfold conn_hist. split; [unfold upd_conn; cbn [set_conns w_conns]; rewrite lset_length; lia|]. split; [|split].
    + intros c' _ D. rewrite S. exact D.
    + intros c' C D. rewrite S in D. congruence.
    + intros c' [].
  - intros. apply hist_same; [reflexivity|intros ? J; exact J].
  - intros. apply hist_same; [reflexivity|intros ? J; exact J].
Qed.
