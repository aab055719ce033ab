(** Theorem about the client id (C139). Vocabulary: SpecId.v; [perform n c] is the call [c] of
    the gateway, Api.v. *)
From Verif Require Import Py F64 Struct Utf Utility Const Spec Enum Decode World Request Gateway Traces Api P_Base P_Monad SpecId P_Id Prop_Request Prop_Connect.

(** C139. A call of a client with id [a] and the same call of one with id [b] do the same, [b]
    standing for [a] in the messages with which the client subscribes and unsubscribes, end in
    the same way and leave the same state but for the id. *)
Theorem C139_any_id n call a b w t w1 o : 0 <= a < 2 ^ 32 -> 0 <= b < 2 ^ 32 -> m_id (w_cm w) = a -> perform n call w = (t, w1, o) ->
  exists t', perform n call (with_id b w) = (t', with_id b w1, o) /\ Forall2 (renamed a b) t t'.
Proof. intros A B I E. exact (proj2 (ti_perform a b A B n call w t w1 o I E)). Qed.
Print Assumptions C139_any_id.

(** a first subscription under two ids *)
Definition agreed : list resp := [says (KReply 12523 [])].
Example C139_nonvacuous : exists t w1 o t', perform 2 (Subscribe 7 12500) (with_id 40000 (pool agreed)) = (t, w1, o) /\
  o = Val tt /\ perform 2 (Subscribe 7 12500) (with_id 50000 (pool agreed)) = (t', with_id 50000 w1, Val tt) /\
  In (Send 0 12522 (introduction 40000)) t /\ In (Send 0 12522 (introduction 50000)) t' /\ m_is_client (w_cm w1) = true.
Proof.
  assert (F : forall i, (i = 40000 \/ i = 50000) -> let '(t, w, o) := perform 2 (Subscribe 7 12500) (with_id i (pool agreed)) in
    (sends t, m_is_client (w_cm w), o) = ([(0%nat, 12522, introduction i)], true, Val tt)) by (intros i [->| ->]; vm_compute; reflexivity).
  assert (Sn : forall X p t, In (0%nat, X, p) (sends t) -> In (Send 0 X p) t).
  { clear. intros X p t H. unfold sends in H. apply in_flat_map in H. destruct H as (e & He & H). destruct e; cbn in H; try contradiction.
    destruct H as [H|[]]. injection H as -> -> ->. exact He. }
  pose proof (F 40000 (or_introl eq_refl)) as F1. pose proof (F 50000 (or_intror eq_refl)) as F2. clear F.
  assert (I : m_id (w_cm (with_id 40000 (pool agreed))) = 40000) by reflexivity.
  assert (W : with_id 50000 (pool agreed) = with_id 50000 (with_id 40000 (pool agreed))) by reflexivity.
  rewrite W in *. revert I F1 F2. generalize (with_id 40000 (pool agreed)). intros w I F1 F2. clear W.
  destruct (perform 2 (Subscribe 7 12500) w) as [[t w1] o] eqn:E.
  destruct (C139_any_id _ _ 40000 50000 _ _ _ _ ltac:(lia) ltac:(lia) I E) as (t' & E' & _). rewrite E' in F2.
  injection F1 as S1 M1 ->. injection F2 as S2 _. exists t, w1, (Val tt), t'. repeat split; auto; apply Sn; rewrite ?S1, ?S2; left; reflexivity.
Qed.
