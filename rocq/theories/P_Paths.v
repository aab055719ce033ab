(** Proofs about the data access of gateway.py (C43-C45). *)
From Verif Require Import Py F64 Struct Utf Utility Const Enum Decode World Request Gateway Paths P_Base P_Dict.

Lemma key_eqb_eq a b : key_eqb a b = true <-> a = b.
Proof.
  destruct a as [s|x], b as [t|y]; simpl; split; intros H; try discriminate.
  - apply String.eqb_eq in H. congruence.
  - injection H as <-. apply String.eqb_refl.
  - apply Z.eqb_eq in H. congruence.
  - injection H as <-. apply Z.eqb_refl.
Qed.

Lemma entry_dget d k v : entry d k v <-> dget k d = Some v.
Proof.
  split.
  - intros (d1 & d2 & -> & N). induction d1 as [|[a w] d1 IH]; cbn [app dget].
    + replace (key_eqb k k) with true by (symmetry; apply key_eqb_eq; reflexivity). reflexivity.
    + destruct (key_eqb k a) eqn:E.
      * apply key_eqb_eq in E. subst a. exfalso. apply N. left. reflexivity.
      * apply IH. intros I. apply N. right. exact I.
  - induction d as [|[a w] d IH]; cbn [dget]; [discriminate|]. destruct (key_eqb k a) eqn:E; intros H.
    + injection H as <-. apply key_eqb_eq in E. subst a. exists [], d. auto.
    + destruct (IH H) as (d1 & d2 & -> & N). exists ((a, w) :: d1), d2. split; [reflexivity|].
      simpl. intros [I|I]; [|contradiction]. subst a.
      replace (key_eqb k k) with true in E by (symmetry; apply key_eqb_eq; reflexivity). discriminate.
Qed.

Lemma none_dec v : is_none v = true <-> v = VNone.
Proof. destruct v; simpl; split; congruence. Qed.

Lemma next_leads v k p x : leads v (k :: p) x <-> get_next v k <> VNone /\ leads (get_next v k) p x.
Proof.
  split.
  - intros H. inversion H; subst; cbn [get_next].
    + match goal with E : entry _ _ _ |- _ => apply entry_dget in E; rewrite E end. auto.
    + assert (Z.to_nat i < List.length l)%nat by (apply nth_error_Some; congruence).
      replace ((0 <=? i) && (i <? zlen l)) with true by (unfold zlen; lia).
      erewrite nth_error_nth by eassumption. auto.
  - intros [N L]. destruct v; try (exfalso; apply N; reflexivity); cbn [get_next] in *.
    + destruct k as [s|z]; [exfalso; apply N; reflexivity|].
      destruct ((0 <=? z) && (z <? zlen l)) eqn:B; [|exfalso; apply N; reflexivity].
      eapply leads_list; [lia| |exact N|exact L]. apply nth_error_nth'. unfold zlen in B. lia.
    + destruct (dget k d) as [v|] eqn:E; [|exfalso; apply N; reflexivity].
      eapply leads_dict; [apply entry_dget; exact E|exact N|exact L].
Qed.

Lemma walk_leads p : forall v x, leads v p x -> forall s, walk s v p = Ok x.
Proof.
  induction p as [|k p IH]; intros v x H s; cbn [walk].
  - inversion H; subst. reflexivity.
  - apply next_leads in H. destruct H as [N L].
    destruct (is_none (get_next v k)) eqn:E; [apply none_dec in E; contradiction|]. auto.
Qed.
Lemma walk_none p : forall v s, (forall x, ~ leads v p x) -> walk s v p = if s then Err EKey else Ok VNone.
Proof.
  induction p as [|k p IH]; intros v s H; cbn [walk].
  - exfalso. apply (H v). constructor.
  - destruct (is_none (get_next v k)) eqn:E; [reflexivity|]. apply IH. intros x L. apply (H x).
    apply next_leads. split; [|exact L]. intros K. apply none_dec in K. congruence.
Qed.
Lemma leads_dec p : forall v, (exists x, leads v p x) \/ (forall x, ~ leads v p x).
Proof.
  induction p as [|k p IH]; intros v.
  - left. exists v. constructor.
  - destruct (is_none (get_next v k)) eqn:E.
    + right. intros x L. apply next_leads in L. apply none_dec in E. tauto.
    + destruct (IH (get_next v k)) as [(x & L)|N].
      * left. exists x. apply next_leads. split; [|exact L]. intros K. apply none_dec in K. congruence.
      * right. intros x L. apply next_leads in L. apply (N x). tauto.
Qed.
Lemma leads_fun p : forall v x y, leads v p x -> leads v p y -> x = y.
Proof. intros v x y H K. pose proof (walk_leads _ _ _ H true). pose proof (walk_leads _ _ _ K true). congruence. Qed.
Lemma leads_some p : forall v x, p <> [] -> leads v p x -> x <> VNone.
Proof.
  induction p as [|k p IH]; intros v x N H; [congruence|]. apply next_leads in H. destruct H as [K L].
  destruct p as [|k' p]; [inversion L; subst; exact K|]. eapply IH; [discriminate|exact L].
Qed.
Lemma leads_app p : forall v q x, leads v (p ++ q) x <-> exists m, leads v p m /\ leads m q x.
Proof.
  induction p as [|k p IH]; intros v q x; cbn [app].
  - split; [intros H; exists v; split; [constructor|exact H]|intros (m & H & K); inversion H; subst; exact K].
  - rewrite next_leads, IH. split.
    + intros (N & m & H & K). exists m. rewrite next_leads. auto.
    + intros (m & H & K). apply next_leads in H. destruct H as [N H]. eauto.
Qed.

Lemma get_data_iff s p d x : get_data s p d = Ok x <->
  leads (VDict d) p x \/ (s = false /\ x = VNone /\ forall y, ~ leads (VDict d) p y).
Proof.
  unfold get_data. split.
  - intros H. destruct (leads_dec p (VDict d)) as [(y & L)|N].
    + rewrite (walk_leads _ _ _ L) in H. injection H as <-. auto.
    + rewrite (walk_none _ _ _ N) in H. destruct s; [discriminate|]. injection H as <-. auto.
  - intros [L|(-> & -> & N)]; [apply walk_leads; exact L|apply (walk_none _ _ false N)].
Qed.

Lemma walk_app s p : forall q v, walk s v (p ++ q) = rbind (walk s v p) (fun m => if is_none m then match p, q with [], _ | _, [] => walk s m q | _, _ => Ok VNone end else walk s m q).
Proof.
  induction p as [|k p IH]; intros q v; cbn [app walk rbind].
  - destruct (is_none v); reflexivity.
  - destruct (is_none (get_next v k)) eqn:E.
    + destruct s; cbn [rbind is_none]; [reflexivity|]. destruct q; reflexivity.
    + rewrite IH. destruct (walk s (get_next v k) p) as [m|e] eqn:W; [|reflexivity]. cbn [rbind].
      destruct (is_none m) eqn:M; [|reflexivity]. apply none_dec in M. subst m.
      destruct p as [|k' p]; [cbn [walk] in W; injection W as W; apply none_dec in W; congruence|]. reflexivity.
Qed.

Lemma get_attr_eq attr s p d : get_attr attr s p d = get_data s (p ++ [attr]) d \/ (exists z, attr = KI z).
Proof.
  destruct attr as [a|z]; [left|right; eauto]. unfold get_attr, get_data. rewrite walk_app.
  destruct (walk s (VDict d) p) as [v|e] eqn:W; cbn [rbind]; [|reflexivity].
  assert (X : match match v with VDict m => match dget (KS a) m with Some VNone => None | r => r end | _ => None end with
     | Some x => Ok x | None => if s then Err EKey else Ok VNone end = walk s v [KS a]).
  { cbn [walk]. destruct v; try reflexivity. cbn [get_next]. destruct (dget (KS a) d0) as [[]|]; reflexivity. }
  rewrite X. destruct (is_none v) eqn:N; [|reflexivity]. apply none_dec in N. subst v.
  destruct p as [|k p]; [reflexivity|].
  cbn [walk get_next is_none]. destruct s; [|reflexivity].
  (* strict: a path never ends in None *)
  exfalso. assert (L : leads (VDict d) (k :: p) VNone).
  { apply get_data_iff in W. destruct W as [L|(B & _)]; [exact L|discriminate]. }
  apply leads_some in L; [congruence|discriminate].
Qed.
Lemma get_value_eq s p d : get_value s p d = get_data s (p ++ [KS "value"]) d.
Proof. destruct (get_attr_eq (KS "value") s p d) as [H|(z & H)]; [exact H|discriminate]. Qed.
Lemma get_name_eq s p d : get_name s p d = get_data s (p ++ [KS "name"]) d.
Proof. destruct (get_attr_eq (KS "name") s p d) as [H|(z & H)]; [exact H|discriminate]. Qed.

Lemma strict_key p d : get_data true p d = Err EKey <-> (p <> [] /\ get_data false p d = Ok VNone).
Proof.
  unfold get_data. destruct (leads_dec p (VDict d)) as [(y & L)|N].
  - rewrite !(walk_leads _ _ _ L). split; [discriminate|]. intros (P & E). injection E as ->.
    apply leads_some in L; auto. congruence.
  - rewrite (walk_none _ _ true N), (walk_none _ _ false N). split; [|reflexivity]. intros _. split; [|reflexivity].
    intros ->. apply (N (VDict d)). constructor.
Qed.
Lemma strict_same p d : get_data true p d = Err EKey \/ get_data true p d = get_data false p d.
Proof.
  unfold get_data. destruct (leads_dec p (VDict d)) as [(y & L)|N].
  - right. rewrite !(walk_leads _ _ _ L). reflexivity.
  - left. apply (walk_none _ _ true N).
Qed.
