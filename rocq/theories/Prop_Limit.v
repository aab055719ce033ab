(** Theorems about the retry setting (C137). Vocabulary: SpecSlow.v; [perform n c] is the call
    [c] of the gateway, Api.v. *)
From Verif Require Import Py F64 Struct Utf Utility Const Spec Enum Decode World Request Gateway Traces Paths Api Hostile
  P_Base P_Monad P_Request SpecSlow P_Slow P_Slow2 P_Limit Prop_Request Prop_Connect Prop_Slow.

(** C137. [w] is any state and [call] any call but the one that changes the setting; [t] is what
    it does when the adapter answers every message at once.  With [k] as the retry setting and
    answers that come late, but not later than [k] allows, the call ends in the same way, and
    leaves the same state but for the setting. *)
Theorem C137_any_setting n call w t w1 o k e t' rest : perform n call w = (t, w1, o) -> (forall y, o <> Stuck y) ->
  (forall q, call <> SetMaxRetries q) -> 0 <= w_retries w -> 0 <= k -> slower (spare (set_retries k w)) t e t' ->
  exists j, perform n call (set_env (e ++ rest) (set_retries k w)) = (t', limits k j (set_env rest w1), o).
Proof.
  intros E N Ns K0 K S. destruct (slower_prompt _ _ _ _ S) as (e0 & S0).
  destruct (tw_perform k K n call Ns _ _ _ _ E N K0) as (_ & _ & T). destruct (T _ _ S0 (m_retries (w_cm w))) as (j & R).
  replace (limits k (m_retries (w_cm w)) w) with (set_retries k w) in R by (destruct w as [? ? ? ? ? ? [] ? ? ? ?]; reflexivity).
  exists j. exact (C135_late_answers _ _ _ _ _ _ _ _ rest R N S).
Qed.
Print Assumptions C137_any_setting.

(** When the adapter answers every message at once ([e] is any account of it), the setting makes
    no difference to what is sent and waited for either. *)
Theorem C137_no_matter n call w t w1 o k e : perform n call w = (t, w1, o) -> (forall y, o <> Stuck y) ->
  (forall q, call <> SetMaxRetries q) -> 0 <= w_retries w -> 0 <= k -> slower (fun _ => 0) t e t ->
  exists j, perform n call (set_retries k w) = (t, limits k j w1, o).
Proof.
  intros E N Ns K0 K S. destruct (tw_perform k K n call Ns _ _ _ _ E N K0) as (_ & _ & T). destruct (T _ _ S (m_retries (w_cm w))) as (j & R).
  replace (limits k (m_retries (w_cm w)) w) with (set_retries k w) in R by (destruct w as [? ? ? ? ? ? [] ? ? ? ?]; reflexivity).
  exists j. exact R.
Qed.
Print Assumptions C137_no_matter.

(** the login of C135, with the answers at once and no retries allowed, and with late answers
    and three retries; late answers and no retries fail *)
Example C137_nonvacuous : exists w1 t' j j', 
  perform 2 (Connect to_adapter) (told (welcome ++ [config_answer])) = (at_once_t, w1, Val tt) /\ is_connected w1 = true /\
  perform 2 (Connect to_adapter) (set_retries 0 (told (welcome ++ [config_answer]))) = (at_once_t, limits 0 j' w1, Val tt) /\
  perform 2 (Connect to_adapter) (set_retries 3 (told late_env)) = (t', limits 3 j w1, Val tt) /\
  snd (perform 2 (Connect to_adapter) (set_retries 0 (told late_env))) = Exc ESLConnection.
Proof.
  destruct C135_nonvacuous as (w1 & t' & E & S & U & Ev & _ & _). exists w1, t'.
  assert (S3 : slower (spare (set_retries 3 (told (welcome ++ [config_answer])))) at_once_t late_env t').
  { eapply slower_more_tries; [|exact S]. intros X i. unfold spare. destruct (_ || _); [clear; lia|].
    change (w_retries (told (welcome ++ [config_answer]))) with 1. change (w_retries (set_retries 3 _)) with 3. clear. lia. }
  destruct (C137_any_setting _ _ _ _ _ _ 3 late_env t' [] E ltac:(discriminate) ltac:(discriminate) ltac:(vm_compute; discriminate) ltac:(lia) S3) as (j & R).
  destruct (slower_prompt _ _ _ _ S) as (e0 & S0).
  destruct (C137_no_matter _ _ _ _ _ _ 0 _ E ltac:(discriminate) ltac:(discriminate) ltac:(vm_compute; discriminate) ltac:(lia) S0) as (j' & R').
  exists j, j'. split; [exact E|]. split; [exact U|]. split; [exact R'|]. split; [|vm_compute; reflexivity].
  rewrite app_nil_r in R. assert (Y : set_env (w_env w1) w1 = w1) by (clear; destruct w1; reflexivity). rewrite Ev in Y. rewrite Y in R. exact R.
Qed.
