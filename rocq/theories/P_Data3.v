(** Proofs about response collections, part 3: what the decoders store can be exported. *)
From Coq Require Import Permutation.
From Verif Require Import Py F64 Struct Utf Utility Const Enum Decode Spec SpecParse Shape Data SpecData P_Base P_Dict P_Parse P_Data P_Data2.

Definition nottuple (v : pv) : bool := match v with VTuple _ => false | _ => true end.
Definition placed (k : key) (v : pv) : bool :=
  match v with
  | VTuple l => key_eqb k (KS "value") && Nat.eqb (List.length l) 3
  | VList l => negb (key_eqb k (KS "value") && Nat.eqb (List.length l) 3)
  | _ => true
  end.
Definition keyfine (k : key) : bool :=
  match k with
  | KS s => negb (str_isdigit (u s)) && negb (String.eqb s "__type") && negb (String.eqb s "raw") && negb (String.eqb s "decoded")
  | KI _ => true
  end.
Fixpoint nodupk (l : list key) : bool :=
  match l with [] => true | k :: l' => negb (existsb (key_eqb k) l') && nodupk l' end.
Fixpoint portable (v : pv) : bool :=
  match v with
  | VNone | VInt _ | VFloat _ | VStr _ => true
  | VBytes _ => false
  | VList l | VTuple l => forallb (fun x => portable x && nottuple x) l
  | VDict d => nodupk (map fst d) && forallb (fun x => keyfine (fst x) && placed (fst x) (snd x) && portable (snd x)) d
  end.
Definition fine (k : key) (v : pv) : bool := keyfine k && placed k v && portable v.

(** no negative integer key anywhere *)
Fixpoint nonneg (v : pv) : bool :=
  match v with
  | VList l | VTuple l => forallb nonneg l
  | VDict d => forallb (fun x => match fst x with KI z => 0 <=? z | KS _ => true end && nonneg (snd x)) d
  | _ => true
  end.

Lemma pv_ind2 (P : pv -> Prop) :
  P VNone -> (forall z, P (VInt z)) -> (forall f, P (VFloat f)) -> (forall s, P (VStr s)) -> (forall b, P (VBytes b)) ->
  (forall l, Forall P l -> P (VList l)) -> (forall l, Forall P l -> P (VTuple l)) ->
  (forall d, Forall (fun x => P (snd x)) d -> P (VDict d)) -> forall v, P v.
Proof.
  intros Hn Hi Hf Hs Hb Hl Ht Hd. fix IH 1. intros [| | | | |l|l|d].
  1-5: auto.
  - apply Hl. induction l; constructor; auto.
  - apply Ht. induction l; constructor; auto.
  - apply Hd. induction d; constructor; auto.
Qed.

Lemma nodupk_spec l : nodupk l = true -> NoDup l.
Proof.
  induction l as [|k l IH]; cbn; [constructor|]. rewrite andb_true_iff, negb_true_iff. intros [A B]. constructor; [|auto].
  intros I. assert (X : existsb (key_eqb k) l = true) by (apply existsb_exists; exists k; split; [assumption|apply key_eqb_refl]). congruence.
Qed.
Lemma nodupk_of l : NoDup l -> nodupk l = true.
Proof.
  induction 1 as [|k l N _ IH]; [reflexivity|]. cbn. rewrite IH, andb_true_r. apply negb_true_iff.
  destruct (existsb (key_eqb k) l) eqn:E; [|reflexivity]. apply existsb_exists in E as (k' & I & E). apply key_eqb_eq in E. subst. contradiction.
Qed.

Lemma portable_exportable v : portable v = true -> nonneg v = true ->
  (nottuple v = true -> exportable (inj v)) /\ (forall l, v = VTuple l -> Forall exportable (map inj l)).
Proof.
  induction v as [|z|f|s|b|l IH|l IH|d IH] using pv_ind2; intros P N; (split; [intros T|intros l0 E0; try discriminate]).
  1-4: constructor.
  - discriminate.
  - cbn [inj]. constructor. cbn [portable nonneg] in *. rewrite forallb_forall in P, N. rewrite Forall_forall in *.
    intros x I. apply in_map_iff in I as (y & <- & I). specialize (P y I). apply andb_true_iff in P as [P1 P2].
    apply (IH y I); auto.
  - discriminate.
  - injection E0 as <-. cbn [portable nonneg] in *. rewrite forallb_forall in P, N. rewrite Forall_forall in *.
    intros x I. apply in_map_iff in I as (y & <- & I). specialize (P y I). apply andb_true_iff in P as [P1 P2].
    apply (IH y I); auto.
  - cbn [inj portable nonneg] in *. apply andb_true_iff in P as [P1 P2]. rewrite forallb_forall in P2, N. rewrite Forall_forall in IH.
    assert (MF : map fst (map (fun x => (fst x, inj (snd x))) d) = map fst d) by (rewrite map_map; reflexivity).
    assert (KF : forall k, In k (map fst d) -> keyfine k = true).
    { intros k I. apply in_map_iff in I as (x & <- & I). specialize (P2 x I). rewrite !andb_true_iff in P2. tauto. }
    constructor; rewrite ?MF.
    + apply nodupk_spec, P1.
    + apply Forall_forall. intros k I. pose proof (KF k I) as K. apply in_map_iff in I as (x & <- & I).
      specialize (N x I). apply andb_true_iff in N as [N _]. destruct (fst x) as [s|z]; cbn [key_ok].
      * cbn in K. rewrite !andb_true_iff, !negb_true_iff in K. intros E. apply isdigit_numeral in E. destruct K as [[[K _] _] _]. congruence.
      * apply Z.leb_le, N.
    + intros I. apply KF in I. vm_compute in I. discriminate.
    + intros [I _]. apply KF in I. vm_compute in I. discriminate.
    + apply Forall_forall. intros y I. apply in_map_iff in I as (x & <- & I). cbn [fst snd].
      specialize (P2 x I). rewrite !andb_true_iff in P2. destruct P2 as [[_ Pl] Pp].
      specialize (N x I). apply andb_true_iff in N as [_ Nn]. destruct (IH x I Pp Nn) as [A B].
      destruct x as [k v]. cbn [fst snd] in *. destruct (nottuple v) eqn:NT.
      * apply ex_plain; [auto|]. intros -> (a & b & c & E). destruct v; try discriminate. cbn [inj] in E. injection E as E.
        cbn [placed] in Pl. rewrite key_eqb_refl in Pl. assert (L : List.length l = 3%nat) by (rewrite <- (map_length inj), E; reflexivity).
        rewrite L in Pl. discriminate.
      * destruct v as [| | | | | |l|]; try discriminate. cbn [placed] in Pl. apply andb_true_iff in Pl as [Pk PL].
        apply key_eqb_eq in Pk. subst k. specialize (B l eq_refl). apply Nat.eqb_eq in PL.
        destruct l as [|a [|b [|c [|]]]]; try discriminate. cbn [inj map] in *. rewrite !Forall_cons_iff in B.
        apply ex_triple; tauto.
Qed.

(** ** the invariant and the decoders *)
Definition Inv (d : dict) : Prop := portable (VDict d) = true.
Definition stores {A} (R : A -> Prop) (m : DM A) : Prop :=
  forall d, Inv d -> Inv (fst (m d)) /\ forall a, snd (m d) = Ok a -> R a.

Lemma Inv_spec d : Inv d <-> NoDup (map fst d) /\ forall k v, In (k, v) d -> fine k v = true.
Proof.
  unfold Inv. cbn [portable]. rewrite andb_true_iff, forallb_forall. split.
  - intros [A B]. split; [apply nodupk_spec, A|]. intros k v I. exact (B (k, v) I).
  - intros [A B]. split; [apply nodupk_of, A|]. intros [k v] I. exact (B k v I).
Qed.
Lemma dset_keys_in k v d x : In x (map fst (dset k v d)) -> x = k \/ In x (map fst d).
Proof.
  induction d as [|[k' v'] d IH]; cbn; [intros [H|[]]; auto|]. destruct (key_eqb k k') eqn:E; cbn; [auto|]. intros [H|H]; [auto|]. apply IH in H. tauto.
Qed.
Lemma Inv_dset k v d : Inv d -> fine k v = true -> Inv (dset k v d).
Proof.
  rewrite !Inv_spec. intros [N F] X. split.
  - clear F. induction d as [|[k' v'] d IH]; cbn; [repeat constructor; tauto|].
    inversion N as [|? ? N1 N2]; subst. destruct (key_eqb k k') eqn:E; cbn; [constructor; assumption|].
    constructor; [|auto]. intros I. apply dset_keys_in in I as [I|I]; [|contradiction]. subst k'. rewrite key_eqb_refl in E. discriminate.
  - intros a w I. clear N. induction d as [|[k' v'] d IH]; cbn in I.
    + destruct I as [I|[]]. injection I as <- <-. assumption.
    + destruct (key_eqb k k') eqn:E; cbn in I.
      * apply key_eqb_eq in E. subst k'. destruct I as [I|I]; [injection I as <- <-; assumption|]. apply F. right; assumption.
      * destruct I as [I|I]; [apply F; left; assumption|]. apply IH; [|assumption]. intros k1 v1 I1. apply F. right; assumption.
Qed.
Lemma Inv_get k v d : Inv d -> dget k d = Some v -> fine k v = true.
Proof.
  rewrite Inv_spec. intros [_ F] G. apply F. clear F. induction d as [|[k' v'] d IH]; cbn in *; [discriminate|].
  destruct (key_eqb k k') eqn:E; [|auto]. apply key_eqb_eq in E. subst. injection G as <-. auto.
Qed.
Lemma fine_dict k d : fine k (VDict d) = true -> Inv d.
Proof. unfold fine, Inv. rewrite !andb_true_iff. tauto. Qed.
Lemma Inv_fine k d d' : fine k (VDict d) = true -> Inv d' -> fine k (VDict d') = true.
Proof. unfold fine, Inv. rewrite !andb_true_iff. cbn [placed]. tauto. Qed.

Lemma Inv_upd f : (forall d d', Inv d -> f d = Some d' -> Inv d') -> forall p d d', Inv d -> upd_at p f d = Some d' -> Inv d'.
Proof.
  intros Hf. induction p as [|k p IH]; intros d d' H; cbn [upd_at]; [apply Hf, H|].
  destruct (dget k d) as [[| | | | | | |d1]|] eqn:G; try discriminate.
  pose proof (Inv_get _ _ _ H G) as F. destruct (upd_at p f d1) as [d1'|] eqn:E; [|discriminate].
  intros X; injection X as <-. apply Inv_dset; [assumption|]. apply (Inv_fine k d1); [assumption|].
  apply (IH d1); [apply (fine_dict k), F|assumption].
Qed.

Lemma st_assign p k v : fine k v = true -> stores (fun _ => True) (assign p k v).
Proof.
  intros F d H. split; [|auto]. unfold assign. destruct (upd_at p _ d) eqn:E; [|exact H]. cbn [fst].
  refine (Inv_upd _ _ _ _ _ H E). intros d1 d2 H1 X. injection X as <-. apply Inv_dset; assumption.
Qed.
Lemma st_setdef p k v : fine k v = true -> stores (fun _ => True) (setdefault p k v).
Proof.
  intros F d H. split; [|auto]. unfold setdefault. destruct (upd_at p _ d) eqn:E; [|exact H]. cbn [fst].
  refine (Inv_upd _ _ _ _ _ H E). intros d1 d2 H1 X. injection X as <-. destruct (din k d1); [assumption|]. apply Inv_dset; assumption.
Qed.
Lemma st_bind {A B} (R : A -> Prop) (S : B -> Prop) m f : stores R m -> (forall a, R a -> stores S (f a)) -> stores S (dbind m f).
Proof.
  intros M F d H. destruct (M d H) as [H1 H2]. unfold dbind. destruct (m d) as [d' [a|e]]; cbn [fst snd] in *.
  - apply F; [auto|assumption].
  - split; [assumption|discriminate].
Qed.
Lemma st_ret {A} (R : A -> Prop) a : R a -> stores R (dret a).
Proof. intros X d H. split; [exact H|]. cbn. congruence. Qed.
Lemma st_lift {A} (R : A -> Prop) r : (forall a, r = Ok a -> R a) -> stores R (dlift r).
Proof. intros X d H. split; [exact H|]. exact X. Qed.
Lemma st_rdata {A} (R : A -> Prop) f : (forall d a, Inv d -> f d = Ok a -> R a) -> stores R (rdata f).
Proof. intros X d H. split; [exact H|]. intros a. exact (X d a H). Qed.
Lemma st_loop n body : (forall i off, stores (fun _ => True) (body i off)) -> forall i off, stores (fun _ => True) (dloop n i body off).
Proof.
  intros B. induction n as [|n IH]; intros i off; cbn [dloop]; [apply st_ret; exact Logic.I|].
  eapply st_bind; [apply B|]. intros a _. apply IH.
Qed.

Lemma get_unit d a : getTemperatureUnit d = Ok a -> exists s, a = VStr s.
Proof.
  unfold getTemperatureUnit. destruct (py_get (VDict d) _ _) as [x|]; [|discriminate]. cbn [rbind].
  destruct (py_get x _ _) as [y|]; [|discriminate]. cbn [rbind]. destruct (py_get y _ _) as [z|]; [|discriminate]. cbn [rbind].
  destruct (py_get z _ _); [|discriminate]. cbn [rbind]. intros H; injection H as <-. eauto.
Qed.
Lemma py_get_port v k w : portable v = true -> py_get v k (VDict []) = Ok w -> portable w = true.
Proof.
  intros P. destruct v; try discriminate. cbn. destruct (dget k d) eqn:G; intros H; injection H as <-; [|reflexivity].
  pose proof (Inv_get _ _ _ P G) as F. unfold fine in F. rewrite !andb_true_iff in F. tauto.
Qed.
Lemma py_get_none v k w : portable v = true -> py_get v k VNone = Ok w -> portable w = true.
Proof.
  intros P. destruct v; try discriminate. cbn. destruct (dget k d) eqn:G; intros H; injection H as <-; [|reflexivity].
  pose proof (Inv_get _ _ _ P G) as F. unfold fine in F. rewrite !andb_true_iff in F. tauto.
Qed.
Lemma py_item_fine v k w : portable v = true -> py_item v k = Ok w -> fine k w = true.
Proof.
  intros P. destruct v; try discriminate. cbn. destruct (dget k d) eqn:G; intros H; [injection H as <-|discriminate].
  exact (Inv_get _ _ _ P G).
Qed.
Lemma setpoints_port d a : Inv d -> read_body_setpoints d = Ok a -> portable a = true.
Proof.
  intros H. unfold read_body_setpoints. destruct (py_get (VDict d) _ _) as [x|] eqn:E1; [|discriminate]. cbn [rbind].
  destruct (py_get x _ _) as [y|] eqn:E2; [|discriminate]. cbn [rbind]. intros E3.
  eapply py_get_none; [|exact E3]. eapply py_get_port; [|exact E2]. eapply py_get_port; [exact H|exact E1].
Qed.

Lemma fine_list k l : key_eqb k (KS "value") = false -> keyfine k = true ->
  forallb (fun x => portable x && nottuple x) l = true -> fine k (VList l) = true.
Proof. intros A B C. unfold fine. cbn [placed portable]. rewrite A, B, C. reflexivity. Qed.
Lemma equipment_strs flags : forallb (fun x => portable x && nottuple x) (equipment_list flags) = true.
Proof. unfold equipment_list. rewrite forallb_forall. intros x I. apply in_map_iff in I as (m & <- & _). reflexivity. Qed.
Lemma ints_fine l : forallb (fun x => portable x && nottuple x) (map VInt l) = true.
Proof. rewrite forallb_forall. intros x I. apply in_map_iff in I as (m & <- & _). reflexivity. Qed.

Ltac st_ext := fail.
Ltac finish := lazymatch goal with
  | |- fine _ (VList (equipment_list _)) = true => apply fine_list; [lazy; reflexivity|lazy; reflexivity|apply equipment_strs]
  | |- fine _ (VList (map VInt _)) = true => apply fine_list; [lazy; reflexivity|lazy; reflexivity|apply ints_fine]
  | |- fine _ (VList ?l) = true => is_var l; apply fine_list; [lazy; reflexivity|lazy; reflexivity|assumption]
  | |- _ => first [assumption | lazy; reflexivity]
  end.
Ltac st1 := lazymatch goal with
  | |- stores _ (dbind (rdata getTemperatureUnit) _) =>
      eapply (st_bind (fun v => exists s, v = VStr s)); [apply st_rdata; intros ? ? _; apply get_unit|intros ? [? ->]]
  | |- stores _ (dbind (rdata read_body_setpoints) _) =>
      eapply (st_bind (fun v => portable v = true)); [apply st_rdata; apply setpoints_port|intros ? ?]
  | |- stores _ (dbind _ _) => eapply (st_bind (fun _ => True)); [|intros ? _]
  | |- stores _ (assign _ _ _) => apply st_assign; finish
  | |- stores _ (setdefault _ _ _) => apply st_setdef; finish
  | |- stores _ (dlift _) => apply st_lift; auto
  | |- stores _ (rd _ _ _) => apply st_lift; auto
  | |- stores _ (rds _ _) => apply st_lift; auto
  | |- stores _ (rda _ _) => apply st_lift; auto
  | |- stores _ (dret _) => apply st_ret; auto
  | |- stores _ (rdata _) => apply st_rdata; auto
  | |- stores _ (match ?x with pair _ _ => _ end) => destruct x
  | |- stores _ (if ?c then _ else _) => destruct c
  | |- stores _ (dloop _ _ _ _) => apply st_loop; intros ? ?
  | |- _ => st_ext
  end.
Ltac st := cbv zeta; repeat (st1; cbv zeta).
Notation safe m := (stores (fun _ => True) m).

Lemma st_bodysp v bt p : portable v = true -> safe (status_body_setpoints v bt p).
Proof.
  intros P. unfold status_body_setpoints. destruct (truthy v); [|st].
  eapply (st_bind (fun w => portable w = true)); [apply st_lift; intros ?; apply py_get_none, P|]. intros w Pw.
  destruct (truthy w); [|st].
  eapply (st_bind (fun x => fine ATTR_MIN_SETPOINT x = true)); [apply st_lift; intros ?; apply py_item_fine, Pw|]. intros mn Hm. eapply st_bind; [apply st_assign; exact Hm|intros ? _].
  eapply (st_bind (fun x => fine ATTR_MAX_SETPOINT x = true)); [apply st_lift; intros ?; apply py_item_fine, Pw|]. intros mx Hx. apply st_assign; exact Hx.
Qed.
Ltac st_ext ::= apply st_bodysp; assumption.
Lemma st_head b : stores (fun r => exists s, snd r = VStr s) (status_head b).
Proof. unfold status_head. st. cbn [snd]. eauto. Qed.
Lemma st_sbody s v b i off : portable v = true -> safe (status_body (VStr s) v b i off).
Proof. intros P. unfold status_body. st. Qed.
Lemma st_scirc b i off : safe (status_circuit b i off).
Proof. unfold status_circuit, status_circuit_id. st. Qed.
Lemma st_stail b off : safe (status_tail b off).
Proof. unfold status_tail. st. Qed.
Lemma st_status b : safe (decode_pool_status b).
Proof.
  unfold decode_pool_status, dunit, status_body_all. eapply (st_bind (fun _ => True)); [|intros; st].
  eapply st_bind; [apply st_head|]. intros [off tu] [s E]. cbn [snd] in E. subst tu. st.
  - apply st_sbody; assumption.
  - apply st_scirc.
  - apply st_stail.
Qed.

Definition colors_ok (l : list pv) : Prop := forallb (fun x => portable x && nottuple x) l = true.
Lemma st_colors n b : forall off acc, colors_ok acc -> stores (fun r => colors_ok (fst r)) (config_colors n b off acc).
Proof.
  induction n as [|n IH]; intros off acc H; cbn [config_colors]; [st|]. st.
  apply IH. unfold colors_ok. rewrite forallb_app, H. reflexivity.
Qed.
Lemma st_csetp b i off : safe (config_setpoint b i off). Proof. unfold config_setpoint. st. Qed.
Lemma st_ccirc b i off : safe (config_circuit b i off). Proof. unfold config_circuit, color_dict. st. Qed.
Lemma st_cpump b i off : safe (config_pump b i off). Proof. unfold config_pump. st. Qed.
Ltac st_ext ::= first [apply st_csetp|apply st_ccirc|apply st_cpump].
Lemma st_chead b : safe (config_head b). Proof. unfold config_head. st. Qed.
Lemma st_config b : safe (decode_pool_config b).
Proof.
  unfold decode_pool_config, dunit, config_body_all. eapply (st_bind (fun _ => True)); [|intros; st].
  eapply st_bind; [apply st_chead|intros off _].
  eapply (st_bind (fun _ => True)); [st|intros [cc o1] _]. eapply (st_bind (fun _ => True)); [st|intros ? _].
  eapply (st_bind (fun _ => True)); [st|intros ? _]. eapply (st_bind (fun _ => True)); [st|intros ? _].
  eapply (st_bind (fun _ => True)); [st|intros [colc o2] _]. eapply (st_bind (fun _ => True)); [st|intros ? _].
  eapply st_bind; [apply st_colors; reflexivity|intros [cols o3] C]. cbn [fst] in C. unfold colors_ok in C. st.
Qed.
Lemma st_chem b : safe (decode_chemistry b).
Proof. unfold decode_chemistry, dunit, chem_body_all, chem_part1, chem_part2, chem_part3, chem_part4. st. Qed.
Lemma st_presets n b idx : forall i name off, safe (pump_presets n i idx b name off).
Proof. induction n as [|n IH]; intros i name off; cbn [pump_presets]; st. apply IH. Qed.
Ltac st_ext ::= apply st_presets.
Lemma st_pump b idx : safe (decode_pump_status b idx).
Proof. unfold decode_pump_status, dunit, pump_body_all. st. Qed.
Lemma st_scg b : safe (decode_scg_config b).
Proof. unfold decode_scg_config, dunit, scg_body_all. st. Qed.
Lemma st_version fl b : safe (decode_version fl b).
Proof. unfold decode_version. st. Qed.
Lemma st_datetime h b : safe (decode_date_time h b).
Proof. unfold decode_date_time, dunit, datetime_body. st. Qed.
Lemma st_color b : safe (decode_color_update b).
Proof. unfold decode_color_update, dunit, color_body. st. Qed.
Lemma st_equip b : safe (decode_equipment_config b).
Proof. unfold decode_equipment_config, dunit, equipment_body, equip_array. st. Qed.
