From Verif Require Import Py F64 Struct Utf Utility Const Spec Enum Decode World Request Gateway Traces Paths Api P_Base P_Util P_Dict P_Monad P_Request P_Sat P_Paths P_Frame P_Gw1 P_Gw6 P_Gw7 P_Calm P_Gw8 P_Gw9 P_Gw10 P_Gw11 P_Gw13 P_Gw14 P_Gw15.
Open Scope m_scope.

Lemma came_app X a b x : came_in X a x -> came_in X (a ++ b) x.
Proof. intros (N & q & I & A). split; [exact N|]. exists q. rewrite in_app_iff. auto. Qed.
Lemma came_app2 X a b x : came_in X b x -> came_in X (a ++ b) x.
Proof. intros (N & q & I & A). split; [exact N|]. exists q. rewrite in_app_iff. auto. Qed.

Lemma kind_poll n k X c w t w' o : debug_kind k X -> polls k c -> c <> Update -> perform n c w = (t, w', o) ->
  match o with
  | Val _ => (forall q b, answered X q t -> answer_of q = Some (X + 1, b) -> b <> [] -> dget k (w_last w') = Some (VBytes b)) /\
             (dget k (w_last w') = dget k (w_last w) \/ exists b, came_in X t b /\ dget k (w_last w') = Some (VBytes b))
  | _ => dget k (w_last w') = dget k (w_last w)
  end.
Proof.
  intros D Pl U E.
  assert (G : match o with
  | Val _ => (forall q b, answered X q t -> answer_of q = Some (X + 1, b) -> b <> [] -> dget k (w_last w') = Some (VBytes b)) /\
             (dget k (w_last w') = dget k (w_last w) \/
              exists q b, In (Got q) t /\ answer_of q = Some (X + 1, b) /\ b <> [] /\ dget k (w_last w') = Some (VBytes b))
  | _ => dget k (w_last w') = dget k (w_last w)
  end).
  { destruct c; try contradiction; try congruence; cbn in Pl; subst k; cbn [perform] in E;
      destruct D as [(D & ->)|[(D & ->)|[(D & ->)|(D & ->)]]]; try discriminate;
      (eapply poll_stored in E; [exact E|..]).
    all: lazymatch goal with
         | |- ~ connecting _ => intros C; repeat (destruct C as [C|C]; [discriminate|]); destruct C
         | |- ~ connect_key _ => intros [C|C]; discriminate
         | |- forall (_ : Z) (_ : nat) (_ : world), _ => intros; first [apply reading_time|apply reading_data]
         | |- _ => idtac
         end.
    all: intros; cbn beta; first [apply ca_status|apply ca_chem|apply ca_scg|apply ca_datetime]. }
  destruct o as [u|e|y]; auto. destruct G as (G1 & [G2|(q & b & I & A & N & G2)]); split; auto. right. exists b. split; [|exact G2]. split; [exact N|]. eauto.
Qed.
Lemma kind_keys k X : debug_kind k X -> ~ connect_key k /\ k <> K_PUMPS.
Proof. intros [(-> & _)|[(-> & _)|[(-> & _)|(-> & _)]]]; (split; [intros [C|C]; discriminate|discriminate]). Qed.
Lemma kind_other n k X c w t w' o : debug_kind k X -> ~ polls k c -> perform n c w = (t, w', o) -> dget k (w_last w') = dget k (w_last w).
Proof.
  intros D P E. destruct (kind_keys k X D) as (N & NP). eapply perform_key; [exact E|exact N|]. intros I.
  destruct c; cbn in I, P; try contradiction; destruct I as [I|[]]; subst k; try (apply P; reflexivity); try contradiction.
  apply N. right. reflexivity.
Qed.
Lemma kind_call n k X c w t w' o : debug_kind k X -> c <> Update -> perform n c w = (t, w', o) ->
  dget k (w_last w') = dget k (w_last w) \/ exists b, came_in X t b /\ dget k (w_last w') = Some (VBytes b).
Proof.
  intros D U E. assert (De : polls k c \/ ~ polls k c).
  { destruct c; cbn; try tauto; destruct (key_eqb k K_STATUS) eqn:?, (key_eqb k K_CHEMISTRY) eqn:?, (key_eqb k K_SCG) eqn:?, (key_eqb k K_DATE_TIME) eqn:?;
    repeat match goal with H : key_eqb _ _ = true |- _ => apply key_eqb_eq in H | H : key_eqb ?x1 ?x2 = false |- _ => let K := fresh in assert (K : x1 <> x2) by (intros ->; rewrite (proj2 (key_eqb_eq x2 x2) eq_refl) in H; discriminate); clear H end; auto. }
  destruct De as [P|P]; [|left; eapply kind_other; eauto]. pose proof (kind_poll _ _ _ _ _ _ _ _ D P U E) as G. destruct o; tauto.
Qed.
Lemma kind_obo n k X cs w t w' o : debug_kind k X -> Forall (fun c => c <> Update) cs -> one_by_one n cs w t w' o ->
  dget k (w_last w') = dget k (w_last w) \/ exists b, came_in X t b /\ dget k (w_last w') = Some (VBytes b).
Proof.
  intros D F O. induction O as [w|c cs w t1 w1 t2 w' o E _ IH|c cs w t w' o E _]; [left; reflexivity|inversion F as [|? ? U F']; subst..].
  - specialize (IH F'). apply (kind_call n k X) in E; [|exact D|exact U]. destruct IH as [IH|(b & C & IH)].
    + rewrite IH. destruct E as [E|(b & C & E)]; [left; exact E|]. right. exists b. split; [apply came_app; exact C|exact E].
    + right. exists b. split; [apply came_app2; exact C|exact IH].
  - eapply kind_call; eauto.
Qed.
Lemma kind_perform n k X c w t w' o : debug_kind k X -> perform n c w = (t, w', o) ->
  dget k (w_last w') = dget k (w_last w) \/ exists b, came_in X t b /\ dget k (w_last w') = Some (VBytes b).
Proof.
  intros D E. assert (Q : c = Update \/ c <> Update) by (destruct c; auto; right; discriminate). destruct Q as [->|U]; [|eapply kind_call; eauto].
  cbn [perform] in E. apply update_obo in E. destruct E as [(_ & _ & -> & _)|(_ & O)]; [left; reflexivity|].
  eapply kind_obo; [exact D| |exact O]. repeat constructor; discriminate.
Qed.
Lemma kind_session n k X w l w' : debug_kind k X -> session n w l w' ->
  dget k (w_last w') = dget k (w_last w) \/ exists b, came_in X (history_trace l) b /\ dget k (w_last w') = Some (VBytes b).
Proof.
  intros D S. induction S as [w|w c t w1 o l w2 E N S IH|w r t w1 l w2 I S IH].
  - left. reflexivity.
  - apply (kind_perform n k X) in E; [|exact D]. unfold history_trace. cbn [map List.concat trace_of]. fold (history_trace l). destruct IH as [IH|(b & C & IH)].
    + rewrite IH. destruct E as [E|(b & C & E)]; [left; exact E|]. right. exists b. split; [apply came_app; exact C|exact E].
    + right. exists b. split; [apply came_app2; exact C|exact IH].
  - apply interfere_fields in I. destruct I as (_ & _ & _ & L & _). unfold history_trace. cbn [map List.concat trace_of]. fold (history_trace l).
    destruct IH as [IH|(b & C & IH)]; [left; congruence|]. right. exists b. split; [apply came_app2; exact C|exact IH].
Qed.

(** ** pumps *)
Definition last_kept (w w' : world) : Prop := dget K_PUMPS (w_last w') = dget K_PUMPS (w_last w).
Lemma pump_command_key n i w t w' o : command n (request_pump_status i) 1 w = (t, w', o) -> last_kept w w'.
Proof.
  intros E. eapply (command_key n (request_pump_status i) 1 K_PUMPS); [intros [C|C]; discriminate| |exact E].
  intros mr c w0 t0 w0' o0 E0. eapply (q_kept _ _ _ (pump_once i)); exact E0.
Qed.
Lemma entry_debug i w : pump_debug i (pumps_entry w) = pump_debug i w.
Proof.
  unfold pumps_entry, pump_debug, din. change (KS "pumps") with K_PUMPS. destruct (dget K_PUMPS (w_last w)) eqn:D; [rewrite D; reflexivity|].
  cbn [set_last w_last]. rewrite dget_dset. replace (key_eqb K_PUMPS K_PUMPS) with true by reflexivity. reflexivity.
Qed.
Lemma store_debug i j b w : (exists m, dget K_PUMPS (w_last w) = Some (VDict m)) ->
  pump_debug j (store_pump i b w) = if j =? i then Some (VBytes b) else pump_debug j w.
Proof.
  intros (m & D). unfold store_pump, pump_debug. change (KS "pumps") with K_PUMPS. rewrite D. cbn [set_last w_last]. rewrite dget_dset. replace (key_eqb K_PUMPS K_PUMPS) with true by reflexivity.
  rewrite dget_dset. cbn [key_eqb]. destruct (j =? i); reflexivity.
Qed.
Lemma loop_debug n ids : Forall (fun i => 0 <= i < 8) ids -> forall w t w' o, pumps_dict w -> pumps_loop n ids w = (t, w', o) -> pumps_dict w' /\
  forall j, pump_debug j w' = pump_debug j w \/
    (In j ids /\ exists ta t1 tb b, t = ta ++ t1 ++ tb /\ asks_pump j t1 /\ came_in 12584 t1 b /\ pump_debug j w' = Some (VBytes b)).
Proof.
  induction 1 as [|i ids I _ IH]; intros w t w' o PD E.
  - injection E as <- <- <-. auto.
  - apply turn_inv in E; [|lia]. destruct E as [(e & Fl & -> & -> & ->)|(f & Fl & [(B & E)|(B & t1 & w1 & o1 & E1 & G)])].
    + auto.
    + apply IH in E; [|exact PD]. destruct E as (PD' & E). split; [exact PD'|]. intros j. destruct (E j) as [K|(J & K)]; [auto|right; split; [right; exact J|exact K]].
    + pose proof (pump_asks _ _ _ _ _ _ I E1) as A. pose proof (pump_command_key _ _ _ _ _ _ E1) as LK.
      assert (D0 : exists m, dget K_PUMPS (w_last (pumps_entry w)) = Some (VDict m)).
      { unfold pumps_entry, din. destruct PD as [PD|(m & PD)]; change (KS "pumps") with K_PUMPS in PD; rewrite PD; [exists []; cbn [set_last w_last]; rewrite dget_dset; reflexivity|eauto]. }
      assert (D1 : forall j, pump_debug j w1 = pump_debug j w) by (intros j; rewrite <- (entry_debug j w); unfold pump_debug; change (KS "pumps") with K_PUMPS; rewrite LK; reflexivity).
      rewrite <- LK in D0. destruct o1 as [r|e|y].
      * destruct G as (t2 & -> & E2). rewrite (command_pump _ _ _ I) in E1. apply command_stored in E1; [|apply pump_not_connecting|intros; apply ca_pump].
        destruct E1 as (_ & V). assert (PD1 : pumps_dict (match r with Some b => store_pump i b w1 | None => w1 end)).
        { right. destruct r as [b|]; [|exact D0]. destruct D0 as (m & D0). unfold store_pump. rewrite D0. cbn [set_last w_last]. rewrite dget_dset. eexists; reflexivity. }
        apply IH in E2; [|exact PD1]. destruct E2 as (PD' & E2). split; [exact PD'|]. intros j.
        destruct (E2 j) as [K|(J & ta & tx & tb & b & -> & K)].
        -- rewrite K. destruct r as [b|]; [|left; apply D1]. rewrite store_debug by exact D0. destruct (Z.eqb_spec j i) as [->|Nj]; [|left; apply D1].
           right. split; [left; reflexivity|]. exists [], t1, t2, b. destruct (V b eq_refl) as (Nb & V'). repeat split; auto.
        -- right. split; [right; exact J|]. exists (t1 ++ ta), tx, tb, b. rewrite <- app_assoc. auto.
      * destruct G as (-> & -> & ->). split; [right; exact D0|]. intros j. left. apply D1.
      * destruct G as (-> & -> & ->). split; [right; exact D0|]. intros j. left. apply D1.
Qed.
Lemma pumps_debug n w t w' o : pumps_dict w -> async_get_pumps n w = (t, w', o) -> pumps_dict w' /\
  forall j, pump_debug j w' = pump_debug j w \/
    (0 <= j < 8 /\ exists ta t1 tb b, t = ta ++ t1 ++ tb /\ asks_pump j t1 /\ came_in 12584 t1 b /\ pump_debug j w' = Some (VBytes b)).
Proof.
  intros D E. apply loop_debug in E; [|repeat constructor; lia|exact D]. destruct E as (D' & E). split; [exact D'|]. intros j.
  destruct (E j) as [K|(J & K)]; [auto|]. right. split; [|exact K]. clear -J. cbn in J. intuition; subst; lia.
Qed.
