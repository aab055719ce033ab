(** Facts about operations below a symbolic integer key. *)
From Verif Require Import Py F64 Struct Utf Utility Const Enum Decode Spec Messages Shape P_Base P_Util P_Dict P_Idem P_Shape P_Trace P_Does P_Facts.

(** prefix test that compares the ends first *)
Fixpoint pre' (a b : path) : bool :=
  match a, b with
  | [], _ => true
  | x :: a', y :: b' => pre' a' b' && key_eqb x y
  | _, [] => false
  end.
Lemma pre'_pre a b : pre' a b = pre a b.
Proof. revert b; induction a as [|x a IH]; intros [|y b]; cbn [pre pre']; try reflexivity. rewrite IH. apply andb_comm. Qed.
Definition skips' (q : path) (o : op) : bool :=
  match o with
  | OSet p k v => negb (pre' (p ++ [k]) q) && negb (pre' q (p ++ [k]))
  | ODef p k v => negb (pre' q p)
  end.
Lemma skips'_skips q o : skips' q o = skips q o.
Proof. destruct o; cbn [skips' skips]; unfold incomp; rewrite !pre'_pre; reflexivity. Qed.
Lemma strip_pre_app p s : strip_pre p (p ++ s) = Some s.
Proof. induction p as [|a p IH]; [reflexivity|]. cbn [strip_pre app]. rewrite key_eqb_refl. exact IH. Qed.
Lemma lastw_hit p k v s r q w : q = p ++ k :: s -> pget s v = w -> lastw q (OSet p k v :: r) = w.
Proof.
  intros -> <-. cbn [lastw]. replace (p ++ k :: s) with ((p ++ [k]) ++ s) by (rewrite <- app_assoc; reflexivity).
  rewrite strip_pre_app. reflexivity.
Qed.
Lemma lastw_miss o r q w : skips' q o = true -> lastw q r = w -> lastw q (o :: r) = w.
Proof.
  rewrite skips'_skips. intros S <-. change (o :: r) with ([o] ++ r). apply lastw_app. cbn [forallb]. rewrite S. reflexivity.
Qed.
Ltac lwr := first [ eapply lastw_hit; [reflexivity|reflexivity] | apply lastw_miss; [vm_compute; reflexivity|]; lwr ].
Ltac lw := cbn [fst snd rev app]; lwr.
Ltac sfacts := repeat (first [apply Forall_nil | apply Forall_cons; [lw|]]).

Lemma within_set u p k v s r : p ++ [k] = u ++ s -> within [u] r -> within [u] (OSet p k v :: r).
Proof.
  intros E H. unfold within in *. cbn [forallb within1 existsb]. rewrite E, pre_app. exact H.
Qed.
Lemma within_def u p k v s r : p ++ [k] = u ++ s -> within [u] r -> within [u] (ODef p k v :: r).
Proof.
  intros E H. unfold within in *. cbn [forallb within1 existsb]. rewrite E, pre_app. cbn [orb].
  destruct v; try exact H. destruct d; exact H.
Qed.
Lemma within_def0 u p k s r : u = (p ++ [k]) ++ s -> within [u] r -> within [u] (ODef p k (VDict []) :: r).
Proof.
  intros -> H. unfold within in *. cbn [forallb within1 existsb]. rewrite pre_app, orb_true_r. cbn [orb andb]. exact H.
Qed.
Lemma within_nil u : within u []. Proof. reflexivity. Qed.
Ltac swithin := cbn [app]; repeat lazymatch goal with
  | |- within _ [] => apply within_nil
  | |- within _ (OSet _ _ _ :: _) => eapply within_set; [reflexivity|]
  | |- within _ (ODef _ _ _ :: _) => first [eapply within_def; [reflexivity|] | eapply within_def0; [reflexivity|]]
  end.

(** different integer keys *)
Lemma off_key a b s t k : key_eqb a b = false -> off_all [k :: a :: s] (k :: b :: t) = true.
Proof.
  intros E. unfold off_all, incomp. cbn [forallb pre]. rewrite key_eqb_refl, E, key_eqb_sym, E. reflexivity.
Qed.
