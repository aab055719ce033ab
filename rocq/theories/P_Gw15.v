From Verif Require Import Py F64 Struct Utf Utility Const Spec Enum Decode World Request Gateway Traces Paths Api P_Base P_Util P_Dict P_Monad P_Request P_Sat P_Paths P_Frame P_Gw1 P_Gw6 P_Gw7 P_Calm P_Gw8 P_Gw9 P_Gw10 P_Gw11 P_Gw13 P_Gw14.
Open Scope m_scope.

(** ------------------------------------------------------------------ *)
(** * C65: updating *)
Lemma obo_step n c cs (k : M unit) w t w' o : (perform n c ;;; k) w = (t, w', o) ->
  (forall w1 t2 w2 o2, k w1 = (t2, w2, o2) -> one_by_one n cs w1 t2 w2 o2) -> one_by_one n (c :: cs) w t w' o.
Proof.
  intros E K. apply bind_inv in E. destruct E as [(t1 & w1 & [] & t2 & E1 & E2 & ->)|[(e & E1 & ->)|(y & E1 & ->)]].
  - eapply O_next; eauto.
  - eapply O_fail; eauto. discriminate.
  - eapply O_fail; eauto. discriminate.
Qed.
Lemma update_obo n w t w' o : async_update n w = (t, w', o) ->
  (w_data w = [] /\ t = [] /\ w' = w /\ o = Exc ESLError) \/
  (w_data w <> [] /\ one_by_one n [GetStatus; GetPumps; GetChemistry; GetScg; GetDatetime] w t w' o).
Proof.
  unfold async_update. rewrite bind_get. destruct (w_data w) as [|x l].
  - intros E. injection E as <- <- <-. auto.
  - intros E. right. split; [discriminate|].
    eapply (obo_step n GetStatus); [exact E|]. clear. intros w t w' o E.
    eapply (obo_step n GetPumps); [exact E|]. clear. intros w t w' o E.
    eapply (obo_step n GetChemistry); [exact E|]. clear. intros w t w' o E.
    eapply (obo_step n GetScg); [exact E|]. clear. intros w t w' o E.
    destruct o as [[]|e|y].
    + replace t with (t ++ []) by apply app_nil_r. eapply O_next; [exact E|constructor].
    + eapply O_fail; [exact E|discriminate].
    + eapply O_fail; [exact E|discriminate].
Qed.
Lemma call_only n c X : request_code c = Some X \/ (c = GetPumps /\ X = 12584) -> (c = GetStatus \/ c = GetPumps \/ c = GetChemistry \/ c = GetScg \/ c = GetDatetime) ->
  forall w t w' o, perform n c w = (t, w', o) -> only_code X t.
Proof.
  intros R K w t w' o E.
  assert (H : Sat (allowed (fun Y _ => Y = X \/ connecting_code Y)) (perform n c)).
  { assert (Cl := allowed_closed (fun Y _ => Y = X \/ connecting_code Y)).
    destruct K as [->|[->|[->|[->| ->]]]]; destruct R as [R|[R R2]]; try discriminate; try injection R as <-; try subst X; cbn [perform].
    all: cbn [perform].
    2: { eapply sat_pumps; [exact Cl|..]; try (intros; first [left; reflexivity|right; cbn; tauto|intros ? ? ? []]). }
    all: eapply sat_poll; [exact Cl|intros; right; cbn; tauto|eapply sat_connect_api; [exact Cl|right; assumption]| |intros ? ? ? ? ? []].
    4: { intros; eapply sat_date_time; [exact Cl|left; reflexivity]. }
    all: intros; eapply sat_data_request; [exact Cl|left; reflexivity]. }
  intros k Y p I. exact (H _ _ _ _ E k Y p I).
Qed.

(** undisturbed *)
Record still0 (c : nat) (w : world) : Prop := {
  z_proto : w_proto w = Some c;
  z_conn : sound c w;
  z_env : no_pushes w;
  z_retries : 0 <= w_retries w }.
Lemma still0_interfere c r rest w l w1 : still0 c w -> w_env w = r :: rest -> interfere r (set_env rest w) = (l, w1) -> still0 c w1.
Proof.
  intros [P S N R] E I. unfold no_pushes in N. rewrite E in N. inversion N as [|? ? D N']; subst.
  pose proof (interfere_fields _ _ _ _ I) as (_ & _ & I1 & _ & I2 & _ & I3 & _).
  cbn [set_env w_proto w_retries w_env w_conns w_data] in *. constructor; unfold no_pushes; try congruence.
  unfold interfere in I. rewrite D in I. apply (sound_lose_all c) in I; [exact I|]. exact S.
Qed.
Lemma run_still0 c0 X p mr c n a w t w' o : lrun c X p mr n a w t w' o -> still0 c0 w -> still0 c0 w'.
Proof. induction 1; intros S; try exact S; eauto using still0_interfere. Qed.
Lemma run_first0 X p mr c n a w t w' v : lrun c X p mr n a w t w' (Val v) -> (0 < n)%nat -> still0 c w -> connected c w = true -> In (Send c X p) t.
Proof.
  intros E N S C. destruct (z_conn _ _ S C) as (S1 & S2). inversion E; subst; try lia; try congruence; unfold sent; rewrite S2; left; reflexivity.
Qed.
Lemma reading_still n X p dec c w t w' r : still0 c w -> command n (reading X p dec) 1 w = (t, w', Val r) -> opens t = [] ->
  still0 c w' /\ In (Send c X p) t.
Proof.
  intros S E O. apply command_val in E.
  destruct E as [E|(t1 & w1 & e & td & wd & ts & ws & t2 & E1 & Ce & Ed & Es & E & ->)].
  - apply attempt_val in E. destruct E as (ta & tb & wa & c1 & -> & E1 & P & E2).
    apply noopen_app in O. destruct O as (O1 & O2). apply connect_noopen in E1; [|exact O1]. destruct E1 as (-> & _ & C & ->).
    rewrite (z_proto _ _ S) in P. injection P as <-. unfold is_connected in C. rewrite (z_proto _ _ S) in C.
    apply reading_inv in E2. destruct E2 as (w1 & o1 & E2 & D). destruct o1 as [v|e|y]; [|destruct D; discriminate..].
    apply request_run in E2. pose proof (run_still0 c _ _ _ _ _ _ _ _ _ _ E2 S) as S1. split.
    + destruct (nonempty v) as [b|]; destruct D as (-> & _); [|exact S1]. destruct S1 as [X1 X2 X3 X4]. constructor; assumption.
    + cbn [app]. eapply run_first0; [exact E2| |exact S|exact C]. pose proof (z_retries _ _ S). lia.
  - exfalso. apply attempt_val in E. destruct E as (ta & tb & wa & c1 & -> & E3 & P & E4).
    apply noopen_app in O. destruct O as (O1 & O). apply noopen_app in O. destruct O as (_ & O). apply noopen_app in O. destruct O as (_ & O).
    apply noopen_app in O. destruct O as (O & _). apply connect_noopen in E3; [|exact O]. destruct E3 as (_ & _ & C & ->).
    apply disconnect_inv in Ed. destruct Ed as (c2 & P1 & Dn & K).
    assert (K1 : connected c2 ws = false /\ kept wd ws).
    { unfold msleep in Es. apply bind_inv in Es.
      destruct Es as [(ta0 & wa0 & x & tb0 & A1 & A2 & _)|[(e0 & A1 & Y)|(y0 & A1 & Y)]]; try discriminate.
      unfold ask, nopre in A1. destruct (w_env wd) as [|r0 rest]; [discriminate|]. destruct (interfere r0 (set_env rest wd)) as [l0 w0] eqn:I0.
      injection A1 as <- <- <-. destruct (r_kind r0); try discriminate. injection A2 as <- <-.
      split; [eapply interfere_down; [exact I0|exact Dn]|eapply kept_interfere; exact I0]. }
    destruct K1 as (H1 & K1). destruct K as (_ & _ & K & _). destruct K1 as (_ & _ & K1 & _).
    unfold is_connected in C. rewrite K1, K, P1 in C. congruence.
Qed.
Lemma poll_still n k X p dec (method : Z -> nat -> M (option bytes)) c w t w' : (forall mr c w, method mr c w = reading X p dec mr c w) ->
  still0 c w -> poll (async_connect n no_args) k method w = (t, w', Val tt) -> opens t = [] -> still0 c w' /\ In (Send c X p) t.
Proof.
  intros M S E O. apply poll_trace in E. destruct E as (w1 & o1 & E & D). rewrite (command_ext n _ _ 1 w M) in E.
  destruct o1 as [r|e|y].
  - apply (reading_still n X p dec c) in E; auto. destruct E as (S1 & I). split; [|exact I].
    destruct r; destruct D as (-> & _); [|exact S1]. destruct S1; constructor; assumption.
  - destruct D as (_ & D). discriminate.
  - destruct D as (_ & D). discriminate.
Qed.
Lemma pumps_still n c ids : Forall (fun i => 0 <= i < 8) ids -> forall w t w', still0 c w -> pumps_loop n ids w = (t, w', Val tt) -> opens t = [] -> still0 c w'.
Proof.
  induction 1 as [|i ids I _ IH]; intros w t w' S E O.
  - injection E as <- <-. exact S.
  - apply turn_inv in E; [|lia].
    destruct E as [(e & Fl & -> & -> & X)|(f & Fl & [(B & E)|(B & t1 & w1 & o1 & E1 & G)])]; [discriminate|eauto|].
    destruct o1 as [r|e|y]; [|destruct G as (_ & _ & X); discriminate..]. destruct G as (t2 & -> & E2).
    apply noopen_app in O. destruct O as (O1 & O2).
    assert (S0 : still0 c (pumps_entry w)) by (unfold pumps_entry; destruct (din _ _); destruct S; constructor; assumption).
    rewrite (command_pump _ _ _ I) in E1. apply (reading_still n _ _ _ c) in E1; [|exact S0|exact O1]. destruct E1 as (S1 & _).
    eapply IH; [|exact E2|exact O2]. destruct r; [|exact S1]. unfold store_pump. destruct (dget K_PUMPS (w_last w1)) as [[]|]; destruct S1; constructor; assumption.
Qed.
Lemma update_asks n c w t w' : async_update n w = (t, w', Val tt) -> ready c w -> no_pushes w -> 0 <= w_retries w -> opens t = [] ->
  forall X, In X [12526; 12592; 12572; 8110] -> exists p, In (Send c X p) t.
Proof.
  intros E (R1 & R2 & R3 & R4) N R O. assert (S : still0 c w) by (constructor; auto; intros _; auto).
  unfold async_update in E. rewrite bind_get in E. destruct (w_data w); [discriminate|].
  apply bind_inv in E. destruct E as [(t1 & w1 & [] & ta & E1 & E & ->)|[(e & E1 & Y)|(y & E1 & Y)]]; try discriminate.
  apply noopen_app in O. destruct O as (O1 & O).
  apply bind_inv in E. destruct E as [(t2 & w2 & [] & tb & E2 & E & ->)|[(e & E2 & Y)|(y & E2 & Y)]]; try discriminate.
  apply noopen_app in O. destruct O as (O2 & O).
  apply bind_inv in E. destruct E as [(t3 & w3 & [] & tc & E3 & E & ->)|[(e & E3 & Y)|(y & E3 & Y)]]; try discriminate.
  apply noopen_app in O. destruct O as (O3 & O).
  apply bind_inv in E. destruct E as [(t4 & w4 & [] & t5 & E4 & E5 & ->)|[(e & E4 & Y)|(y & E4 & Y)]]; try discriminate.
  apply noopen_app in O. destruct O as (O4 & O5).
  eapply (poll_still n K_STATUS _ _ _ request_pool_status c) in E1; [|intros; apply reading_data|exact S|exact O1]. destruct E1 as (S1 & I1).
  apply (pumps_still n c) in E2; [|repeat constructor; lia|exact S1|exact O2]. 
  eapply (poll_still n K_CHEMISTRY _ _ _ request_chemistry c) in E3; [|intros; apply reading_data|exact E2|exact O3]. destruct E3 as (S3 & I3).
  eapply (poll_still n K_SCG _ _ _ request_scg_config c) in E4; [|intros; apply reading_data|exact S3|exact O4]. destruct E4 as (S4 & I4).
  eapply (poll_still n K_DATE_TIME _ _ _ request_date_time c) in E5; [|intros; apply reading_time|exact S4|exact O5]. destruct E5 as (S5 & I5).
  intros X [<-|[<-|[<-|[<-|[]]]]]; eexists; rewrite !in_app_iff; eauto.
Qed.
Lemma only_nil X : only_code X []. Proof. intros c Y p []. Qed.
Definition poll_code (c : api_call) : Z := match c with GetPumps => 12584 | _ => over (request_code c) 0 end.
Lemma obo_parts n cs w t w' o : one_by_one n cs w t w' o ->
  Forall (fun c => c = GetStatus \/ c = GetPumps \/ c = GetChemistry \/ c = GetScg \/ c = GetDatetime) cs ->
  exists ts, t = List.concat ts /\ Forall2 (fun c t => only_code (poll_code c) t) cs ts.
Proof.
  assert (K : forall c, (c = GetStatus \/ c = GetPumps \/ c = GetChemistry \/ c = GetScg \/ c = GetDatetime) -> forall w t w' o, perform n c w = (t, w', o) -> only_code (poll_code c) t).
  { intros c H. apply call_only; [|exact H]. destruct H as [->|[->|[->|[->| ->]]]]; auto. }
  induction 1 as [w|c cs w t1 w1 t2 w' o E _ IH|c cs w t w' o E _]; intros F.
  - exists []. split; [reflexivity|constructor].
  - inversion F as [|? ? Fc F']; subst. destruct (IH F') as (ts & -> & G). exists (t1 :: ts). split; [reflexivity|]. constructor; [|exact G]. eapply K; eauto.
  - inversion F as [|? ? Fc F']; subst. exists (t :: map (fun _ => []) cs). split.
    + cbn [List.concat]. replace (List.concat (map (fun _ => []) cs)) with (@nil ev); [symmetry; apply app_nil_r|]. clear. induction cs; auto.
    + constructor; [eapply K; eauto|]. clear. induction cs; constructor; [apply only_nil|auto].
Qed.
Lemma update_parts n w t w' o : async_update n w = (t, w', o) ->
  exists t1 t2 t3 t4 t5, t = t1 ++ t2 ++ t3 ++ t4 ++ t5 /\
    only_code 12526 t1 /\ only_code 12584 t2 /\ only_code 12592 t3 /\ only_code 12572 t4 /\ only_code 8110 t5.
Proof.
  intros E. apply update_obo in E. destruct E as [(_ & -> & _)|(_ & E)].
  - exists [], [], [], [], []. repeat split; apply only_nil.
  - apply obo_parts in E; [|repeat (apply Forall_cons; [auto 6|]); apply Forall_nil]. destruct E as (ts & -> & F).
    inversion F as [|? t1 ? ? A1 F1]; subst. inversion F1 as [|? t2 ? ? A2 F2]; subst. inversion F2 as [|? t3 ? ? A3 F3]; subst.
    inversion F3 as [|? t4 ? ? A4 F4]; subst. inversion F4 as [|? t5 ? ? A5 F5]; subst. inversion F5; subst.
    exists t1, t2, t3, t4, t5. cbn [List.concat]. rewrite app_nil_r. repeat split; assumption.
Qed.
