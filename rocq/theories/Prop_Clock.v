(** Theorems about the host's clock (C138). Vocabulary: SpecClock.v; [perform n c] is the call
    [c] of the gateway, Api.v. *)
From Verif Require Import Py F64 Struct Utf Utility Const Spec Enum Decode World Request Gateway Traces Api P_Base P_Monad SpecClock P_Clock Prop_Request Prop_Connect.

(** C138. [w'] is any state [w] at another time of the host's clock, with an adapter that gives
    the same answers at other times: every call sends the same messages and waits for the same
    things in both, ends in the same way, and leaves the same state at another time, except that
    the two may differ in the host time kept with the adapter's time. *)
Theorem C138_any_time n call w w' t w1 o : other_time w w' -> perform n call w = (t, w1, o) ->
  exists t' w1', perform n call w' = (t', w1', o) /\ Forall2 same_ev t t' /\ other_time_data w1 w1'.
Proof. intros R E. destruct (te_perform n call _ _ _ _ _ R E) as (t' & v & M & S & D & _). eauto. Qed.
Print Assumptions C138_any_time.

(** All calls but [async_get_datetime] and [async_update] leave the same data too. *)
Theorem C138_same_data n call w w' t w1 o : call <> GetDatetime -> call <> Update -> other_time w w' -> perform n call w = (t, w1, o) ->
  exists t' w1', perform n call w' = (t', w1', o) /\ Forall2 same_ev t t' /\ other_time w1 w1'.
Proof. intros N1 N2 R E. exact (tc_perform n call N1 N2 _ _ _ _ _ R E). Qed.
Print Assumptions C138_same_data.

(** the adapter's time asked for at two times of the host's clock *)
Definition noon : bytes := [232; 7; 5; 0; 3; 0; 15; 0; 12; 0; 30; 0; 0; 0; 0; 0; 1; 0; 0; 0].
Definition at_time (x : spec_float) : list resp := [mkResp KTimeout [] None x; mkResp KDone [] None x; mkResp (KReply 8111 noon) [] None x].
Definition one : spec_float := S754_finite false 4503599627370496 (-52).
Lemma facts x : (let '(t, w, o) := perform 2 GetDatetime (pool (at_time x)) in (List.length (sends t), dpget host_time (w_data w), dpget [KS "controller"; KS "date_time"; KS "timestamp"] (w_data w), o))
  = (2%nat, Some (VFloat x), Some (VFloat (S754_finite false 7196486978764800 (-22))), Val tt).
Proof. vm_compute. reflexivity. Qed.
Example C138_nonvacuous : exists t w1 t' w1', perform 2 GetDatetime (pool (at_time (S754_zero false))) = (t, w1, Val tt) /\
  other_time (pool (at_time (S754_zero false))) (pool (at_time one)) /\ perform 2 GetDatetime (pool (at_time one)) = (t', w1', Val tt) /\
  List.length (sends t) = 2%nat /\ sends t' = sends t /\ other_time_data w1 w1' /\
  dpget host_time (w_data w1) = Some (VFloat (S754_zero false)) /\ dpget host_time (w_data w1') = Some (VFloat one).
Proof.
  assert (R : other_time (pool (at_time (S754_zero false))) (pool (at_time one))).
  { exists (w_clock (pool (at_time (S754_zero false)))), (at_time one). split; [|reflexivity]. repeat constructor. }
  pose proof (facts (S754_zero false)) as F. pose proof (facts one) as F'.
  assert (Sn : forall a b, Forall2 same_ev a b -> sends b = sends a).
  { clear. induction 1 as [|x y a b S _ IH]; [reflexivity|]. unfold sends in *. cbn [flat_map].
    destruct x; cbn [same_ev] in S; try (subst y; cbn; rewrite ?IH; reflexivity). destruct y; try discriminate S; try destruct S; exact IH. }
  revert R F F'. generalize (pool (at_time (S754_zero false))), (pool (at_time one)). intros w w' R F F'.
  destruct (perform 2 GetDatetime w) as [[t w1] o] eqn:E. destruct (C138_any_time _ _ _ _ _ _ _ R E) as (t' & w1' & E' & S & D). rewrite E' in F'.
  injection F as L H _ ->. injection F' as _ H' _. exists t, w1, t', w1'. auto 12.
Qed.
