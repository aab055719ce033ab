From Verif Require Import Py F64 Struct Utf Utility Const Spec Enum Decode World Request Gateway Traces Paths Api P_Base P_Util P_Monad P_Request P_Sat P_Paths P_Frame P_Gw1 P_Gw6 P_Gw7 P_Calm P_Gw8 P_Gw9 P_Gw10 P_Gw11.
Open Scope m_scope.

(** C61: transports only come from successful opens, and old ones are not reopened *)
Definition grown : wrel := fun w t w' =>
  (List.length (w_conns w) <= List.length (w_conns w') <= List.length (w_conns w) + granted t)%nat /\
  forall c, (c < List.length (w_conns w))%nat -> c_open (get_conn c w') = true -> c_open (get_conn c w) = true.
Lemma grown_same w w' t : w_conns w' = w_conns w -> grown w t w'.
Proof. intros E. unfold grown, get_conn. rewrite E. split; [lia|auto]. Qed.
Lemma upd_len c f w : List.length (w_conns (upd_conn c f w)) = List.length (w_conns w).
Proof. unfold upd_conn. cbn [set_conns w_conns]. apply lset_length. Qed.
Lemma lose_grown c w l w1 : lose c w = (l, w1) -> grown w l w1.
Proof.
  unfold lose. destruct (connected c w); intros E; injection E as <- <-; [|apply grown_same; reflexivity].
  unfold grown. rewrite upd_len. split; [lia|]. intros c' _. rewrite get_upd. destruct (_ && _); [discriminate|auto].
Qed.
Lemma grown_trans w t1 w1 t2 w2 : grown w t1 w1 -> grown w1 t2 w2 -> grown w (t1 ++ t2) w2.
Proof. unfold grown. intros (A & B) (C & D). pose proof (granted_app t1 t2). split; [lia|]. intros c L O. apply B; [exact L|]. apply D; [lia|exact O]. Qed.
Lemma interfere_grown r w l w1 : interfere r w = (l, w1) -> grown w l w1.
Proof.
  unfold interfere. set (w0 := set_clock _ _).
  assert (S : grown w [] w0) by (apply grown_same; subst w0; destruct (r_data r); reflexivity). clearbody w0. intros E.
  change l with ([] ++ l). eapply grown_trans; [exact S|]. clear S. revert w0 l w1 E.
  induction (r_lost r) as [|c cs IH]; intros w0 l w1 E; cbn [lose_all] in E; [injection E as <- <-; apply grown_same; reflexivity|].
  destruct (lose c w0) as [ta wa] eqn:L. destruct (lose_all cs wa) as [tb wb] eqn:L2. injection E as <- <-.
  eapply grown_trans; [eapply lose_grown; exact L|eapply IH; exact L2].
Qed.
Lemma grown_more w t w' t' : grown w t w' -> (granted t <= granted t')%nat -> grown w t' w'.
Proof. unfold grown. intros (A & B) L. split; [lia|exact B]. Qed.
Lemma grown_closed : closed anything grown.
Proof.
  constructor; try (intros; apply grown_same; reflexivity).
  - exact grown_trans.
  - intros w e r rest l w1 E P I. eapply grown_more; [eapply (grown_trans w [] (set_env rest w)); [apply grown_same; reflexivity|eapply interfere_grown; exact I]|].
    change (e :: Got r :: l) with ([e; Got r] ++ l). pose proof (granted_app [e; Got r] l). cbn [app] in *. lia.
  - intros w r rest l w1 E I. apply interfere_grown in I. destruct I as (A & B). unfold opened in A, B.
    assert (K : (granted l + match r_kind r with KDone => 1 | _ => 0 end <= granted (Open (a_ip (w_addr w)) (a_port (w_addr w)) 2000 :: Got r :: l))%nat).
    { cbn [granted]. destruct (r_kind r); destruct l; cbn [granted]; lia. }
    unfold grown. destruct (r_kind r); cbn [set_conns set_env w_conns] in *; try (split; [lia|exact B]).
    rewrite app_length in *. cbn [List.length] in *. split; [lia|]. intros c L O. specialize (B c ltac:(lia) O). unfold get_conn in *.
    cbn [set_conns w_conns set_env] in B. rewrite app_nth1 in B by exact L. exact B.
  - intros w c l w1 E. eapply lose_grown; exact E.
  - intros w c f M. unfold grown. rewrite upd_len. split; [lia|]. intros c' _. rewrite get_upd. destruct (_ && _) eqn:E; [|auto].
    apply andb_prop in E. destruct E as (E & _). apply Nat.eqb_eq in E. subst c'. apply M.
Qed.
Lemma connect_grown n x : Sat grown (async_connect n x).
Proof. eapply sat_connect_args; [apply grown_closed|..]; try (intros; exact Logic.I). intros w. apply grown_same. reflexivity. Qed.

(** ------------------------------------------------------------------ *)
(** * C56: the retry limit *)
Lemma perform_limit n c w t w' o : perform n c w = (t, w', o) ->
  w_retries w' = match c, o with SetMaxRetries k, Val _ => k | _, _ => w_retries w end /\
  (forall k, c = SetMaxRetries k -> t = [] /\ ((1 <= k <= 5 /\ o = Val tt) \/ (~ 1 <= k <= 5 /\ o = Exc EValue /\ w' = w))).
Proof.
  intros E.
  assert (K : (forall k, c <> SetMaxRetries k) -> w_retries w' = w_retries w).
  { intros N. eapply (sat_perform anything same_limits limits_closed) in E; try (intros; exact Logic.I).
    - apply E.
    - intros; split; reflexivity.
    - intros k X. destruct (N _ X).
    - intros k _ w0 v; split; reflexivity. }
  destruct c; try (split; [apply K; discriminate|discriminate]).
  cbn [perform] in E. unfold set_max_retries in E. destruct ((0 <? k) && (k <? 6)) eqn:B; injection E as <- <- <-.
  - split; [reflexivity|]. intros k0 X. injection X as <-. split; [reflexivity|]. left. split; [lia|reflexivity].
  - split; [reflexivity|]. intros k0 X. injection X as <-. split; [reflexivity|]. right. split; [lia|auto].
Qed.
Lemma session_limit n w l w' : session n w l w' -> w_retries w' = last_limit l (w_retries w) /\ (limit_ok w -> limit_ok w').
Proof.
  induction 1 as [w|w c t w1 o l w2 E N S (IH1 & IH2)|w r t w1 l w2 E S (IH1 & IH2)]; unfold last_limit in *; cbn [fold_left].
  - auto.
  - apply perform_limit in E. destruct E as (E & F). rewrite IH1. split.
    + f_equal. rewrite E. destruct c; try reflexivity.
    + intros L. apply IH2. unfold limit_ok in *. rewrite E. destruct c; try exact L. specialize (F _ eq_refl). destruct F as (_ & [(F & ->)|(_ & -> & _)]); [exact F|exact L].
  - apply interfere_fields in E. destruct E as (_ & _ & _ & _ & E & _). rewrite IH1, E. split; [reflexivity|]. intros L. apply IH2. unfold limit_ok in *. rewrite E. exact L.
Qed.

(** ------------------------------------------------------------------ *)
(** * C60: the same place *)
Lemma losses_place w l w1 : only_losses l -> w_addr w1 = w_addr w -> same_place w l w1.
Proof. intros L E. unfold same_place. rewrite E, (losses_opens _ L). split; [apply same_addr_refl|constructor]. Qed.
Lemma session_place n w l w' : session n w l w' -> Forall no_connect_args l -> same_place w (history_trace l) w'.
Proof.
  unfold history_trace. induction 1 as [w|w c t w1 o l w2 E N S IH|w r t w1 l w2 E S IH]; intros F; cbn [map List.concat trace_of].
  - apply (R_refl _ _ place_closed).
  - inversion F as [|? ? F1 F2]; subst. eapply (R_trans _ _ place_closed); [|apply IH; exact F2].
    eapply (sat_perform anything same_place place_closed) in E; try (intros; exact Logic.I); [exact E|..].
    + intros x -> w0. cbn in F1. subst x. apply (R_args _ _ place_closed).
    + intros; split; [apply same_addr_refl|constructor].
    + intros k _ w0 v; split; [apply same_addr_refl|constructor].
  - inversion F as [|? ? F1 F2]; subst. eapply (R_trans _ _ place_closed); [|apply IH; exact F2].
    pose proof (interfere_l _ _ _ _ E). apply interfere_fields in E. apply losses_place; [assumption|apply E].
Qed.
Definition at_place (A : addr) : wrel := fun w t w' =>
  same_addr (w_addr w) A -> same_addr (w_addr w') A /\ Forall (fun y => y = (a_ip A, a_port A)) (opens t).
Lemma place_at A w t w' : same_place w t w' -> at_place A w t w'.
Proof.
  intros ((B1 & B2 & B3 & B4 & B5) & F) (C1 & C2 & C3 & C4 & C5). split; [unfold same_addr; intuition congruence|]. rewrite <- C1, <- C2. exact F.
Qed.
Lemma at_closed A : closed anything (at_place A).
Proof.
  pose proof place_closed as P. constructor.
  2:{ intros w t1 w1 t2 w2 H1 H2 S. destruct (H1 S) as (S1 & F1). destruct (H2 S1) as (S2 & F2). split; [exact S2|]. rewrite opens_app. apply Forall_app. auto. }
  all: intros; apply place_at.
  - apply (R_refl _ _ P).
  - eapply (R_send _ _ P); eassumption.
  - eapply (R_raw _ _ P); eassumption.
  - apply (R_shut _ _ P).
  - apply (R_wait0 _ _ P); assumption.
  - eapply (R_wait _ _ P); eassumption.
  - apply (R_open0 _ _ P); assumption.
  - eapply (R_open _ _ P); eassumption.
  - eapply (R_lose _ _ P); eassumption.
  - apply (R_data _ _ P).
  - apply (R_last _ _ P); assumption.
  - apply (R_cm _ _ P).
  - apply (R_conn _ _ P); assumption.
  - apply (R_store _ _ P).
  - apply (R_args _ _ P).
Qed.
Lemma connect_place n x w t w' o : async_connect (S n) x w = (t, w', o) -> is_connected w = false ->
  let A := w_addr (store_args x w) in
  same_addr (w_addr w') A /\ Forall (fun y => y = (a_ip A, a_port A)) (opens t).
Proof.
  intros E U A. assert (E2 : async_connect (S n) x (store_args x w) = (t, w', o)).
  { rewrite connect_S in *. unfold connect_body in *. rewrite bind_get, U, bind_put in E. rewrite bind_get.
    change (is_connected (store_args x w)) with (is_connected w). rewrite U, bind_put. rewrite <- E. f_equal.
    unfold store_args. cbn [set_cb set_addr w_addr a_ip a_port a_type a_subtype a_name a_mac]. destruct w as [[] ? ? ? ? ? ? ? ? ? ?]. cbn.
    destruct x as [[] [] [] [] [] []]; reflexivity. }
  clear E. eapply sat_connect_args in E2; [|apply (at_closed A)|..]; try (intros; exact Logic.I).
  - apply E2. apply same_addr_refl.
  - intros w0 S. cbn [opens flat_map]. split; [|constructor]. subst A. unfold same_addr, store_args in *. cbn [set_cb set_addr w_addr a_ip a_port a_type a_subtype a_name] in *.
    destruct S as (S1 & S2 & S3 & S4 & S5). rewrite S1, S2, S3, S4, S5. destruct x as [[] [] [] [] [] []]; cbn; auto.
Qed.
