(** Proofs about the enums (C80-C83). *)
From Verif Require Import Py F64 Const Enum SpecEnum.

Lemma u_app a b : u (a ++ b)%string = u a ++ u b.
Proof. induction a as [|c a IH]; cbn; [reflexivity|]. rewrite IH. reflexivity. Qed.

Lemma zassoc_in {A} k (l : list (Z * A)) a : zassoc k l = Some a -> In (k, a) l.
Proof.
  induction l as [|[x y] l IH]; cbn; [discriminate|]. destruct (Z.eqb_spec k x) as [->|N]; [|intros E; right; auto].
  intros E; injection E as ->. left; reflexivity.
Qed.
Lemma zassoc_none {A} k (l : list (Z * A)) : zassoc k l = None -> ~ In k (map fst l).
Proof.
  induction l as [|[x y] l IH]; cbn; [tauto|]. destruct (Z.eqb_spec k x) as [->|N]; [discriminate|].
  intros E [H|H]; [congruence|]. exact (IH E H).
Qed.
Definition flat : list (Z * Z * string) :=
  flat_map (fun x => map (fun y => (fst x, fst y, snd y)) (snd x)) CONTROLLER_HARDWARE_MAP.
Lemma flat_known : flat = known_models. Proof. reflexivity. Qed.
Lemma zassoc_found {A} k (l : list (Z * A)) a : zassoc k l = Some a -> NoDup (map fst l) -> forall b, In (k, b) l -> b = a.
Proof.
  induction l as [|[x y] l IH]; cbn; [discriminate|]. intros E N. inversion N as [|? ? Nx Nl]; subst.
  destruct (Z.eqb_spec k x) as [->|Nk].
  - injection E as ->. intros b [H|H]; [congruence|]. exfalso. apply Nx. apply (in_map fst) in H. exact H.
  - intros b [H|H]; [congruence|]. eauto.
Qed.
Lemma map_nodup : NoDup (map fst CONTROLLER_HARDWARE_MAP).
Proof. repeat constructor; cbn; intuition discriminate. Qed.
Lemma model_spec c h : is_model c h (model_from_type c h).
Proof.
  unfold is_model, model_from_type. rewrite <- flat_known.
  assert (U : forall x y, u "Unknown Model C:" ++ str_of_Z x ++ u " H:" ++ str_of_Z y
    = u ("Unknown Model C:" ++ string_of_Z x ++ " H:" ++ string_of_Z y)%string).
  { intros x y. rewrite !u_app. reflexivity. }
  destruct (zassoc c CONTROLLER_HARDWARE_MAP) as [m|] eqn:E1.
  - destruct (zassoc h m) as [s|] eqn:E2.
    + left. exists s. split; [|reflexivity]. apply zassoc_in in E1, E2. unfold flat. apply in_flat_map.
      exists (c, m). split; [exact E1|]. cbn [fst snd]. apply in_map_iff. exists (h, s). auto.
    + right. split; [|apply U]. intros H. apply in_map_iff in H. destruct H as ([[c' h'] n] & Ef & H).
      cbn [fst] in Ef. injection Ef as -> ->. unfold flat in H. apply in_flat_map in H.
      destruct H as ([c2 m2] & I1 & I2). apply in_map_iff in I2. destruct I2 as ([h2 s2] & E3 & I3).
      cbn [fst snd] in *. injection E3 as -> -> ->. pose proof (zassoc_found c _ m E1 map_nodup _ I1). subst m2.
      apply (zassoc_none _ _ E2). apply in_map_iff. exists (h, n). auto.
  - right. split; [|apply U]. intros H. apply in_map_iff in H. destruct H as ([[c' h'] n] & Ef & H).
    cbn [fst] in Ef. injection Ef as -> ->. unfold flat in H. apply in_flat_map in H.
    destruct H as ([c2 m2] & I1 & I2). apply in_map_iff in I2. destruct I2 as ([h2 s2] & E3 & I3).
    cbn [fst snd] in *. injection E3 as -> -> ->.
    apply (zassoc_none _ _ E1). apply in_map_iff. exists (c, m2). auto.
Qed.
