(** Theorem about answers that come late (C135). Vocabulary: SpecSlow.v; [perform n c] is the
    call [c] of the gateway, Api.v. *)
From Verif Require Import Py F64 Struct Utf Utility Const Spec Enum Decode World Request Gateway Traces Paths Api Hostile
  P_Base P_Monad P_Request SpecSlow P_Slow P_Slow2 Prop_Request Prop_Connect.

(** C135. [w] is any state and [call] any call; [t] is what it does when the adapter answers
    every message at once, [t'] the same with answers that come late but not too late, [e] what
    the waits of [t'] bring.  Then with [e] the call does [t'], ends in the same way and leaves
    the same state. *)
Theorem C135_late_answers n call w t w1 o e t' rest : perform n call w = (t, w1, o) -> (forall y, o <> Stuck y) ->
  slower (spare w) t e t' -> perform n call (set_env (e ++ rest) w) = (t', set_env rest w1, o).
Proof.
  intros E N S. destruct (is_limit_call call) as [(k & ->)|Ns].
  - cbn [perform] in *. unfold set_max_retries in *. destruct ((0 <? k) && (k <? 6))%bool; cbv [mput mraise] in *; injection E as <- <- <-;
      apply slower_nil in S; destruct S as (-> & ->); reflexivity.
  - pose (lim := fun X => Z.min (spare w X) (w_retries w)).
    assert (A16 : lim 16 <= 0) by (unfold lim, spare; cbn; lia). assert (AR : lim 12524 <= 0) by (unfold lim, spare; cbn; lia).
    assert (K : forall X, lim X <= w_retries w) by (intros X; apply Z.le_min_r).
    eapply (tol_perform lim A16 AR n call Ns w t w1 o E N K). eapply slower_more_tries; [|exact S].
    intros X i I. revert I. unfold lim, spare. clear. destruct ((X =? 12524) || (X =? 16)); intros I; [exfalso; lia|]. rewrite Z.min_id. lia.
Qed.
Print Assumptions C135_late_answers.

(** a gateway that logs in; each of the four answers that settle it comes to the second try,
    after a timeout, a refusal, an answer to some other message, and another timeout *)
Definition no_time : resp := says KTimeout.
Definition refused : resp := says (KReply 31 []).
Definition stray : resp := says (KTimeoutReply 12527 [1; 2]).
Definition at_once_t : trace := fst (fst (perform 2 (Connect to_adapter) (told (welcome ++ [config_answer])))).
Definition late_env : list resp := [ok; ok] ++ [no_time; ok; says (KReply 15 mac_reply)] ++ [refused; ok; says (KReply 28 [])] ++
  [stray; ok; says (KReply 8121 version_reply)] ++ [no_time; ok; config_answer].
Lemma at_once_is : exists m, at_once_t = [Open (Some (u "10.0.0.9")) 80 2000; Got ok; Raw 0 CONNECT_STRING; Sleep 250; Got ok;
  Send 0 14 []; AwaitReply 0 2000; Got (says (KReply 15 mac_reply)); Send 0 27 m; AwaitReply 0 2000; Got (says (KReply 28 []));
  Send 0 8120 []; AwaitReply 0 2000; Got (says (KReply 8121 version_reply));
  Send 0 12532 [0; 0; 0; 0; 0; 0; 0; 0]; AwaitReply 0 2000; Got config_answer].
Proof. exists (match create_login_message with Ok m => m | Err _ => [] end). vm_compute. reflexivity. Qed.
Lemma late_futile X q : quiet q -> (r_kind q = KTimeout \/ exists c b, answer_of q = Some (c, b) /\ c <> X + 1 /\ c <> 13) -> futile X q.
Proof. intros A B. split; assumption. Qed.
Lemma second_try c X b r q a n : 1 <= n -> futile X q -> answer_of r = Some (X + 1, a) ->
  late n c X b r 1 [q; ok; r] [Send c X b; AwaitReply c 2000; Got q; Sleep 1000; Got ok; Send c X b; AwaitReply c 2000; Got r].
Proof. intros L F A. apply (late_more n c X b r 1 q ok [r]); [exact L|exact F|repeat split|apply late_now]. Qed.
Example C135_nonvacuous : exists w1 t', perform 2 (Connect to_adapter) (told (welcome ++ [config_answer])) = (at_once_t, w1, Val tt) /\
  slower (spare (told (welcome ++ [config_answer]))) at_once_t late_env t' /\ is_connected w1 = true /\ w_env w1 = [] /\
  List.length (sends t') = 8%nat /\
  perform 2 (Connect to_adapter) (told late_env) = (t', w1, Val tt).
Proof.
  assert (F : (let '(_, w, o) := perform 2 (Connect to_adapter) (told (welcome ++ [config_answer])) in (is_connected w, w_env w, o)) = (true, [], Val tt)) by (vm_compute; reflexivity).
  destruct (perform 2 (Connect to_adapter) (told (welcome ++ [config_answer]))) as [[t w1] o] eqn:E. injection F as U Ev ->.
  assert (T : t = at_once_t) by (unfold at_once_t; rewrite E; reflexivity). subst t. destruct at_once_is as (m & At).
  assert (R : forall X, (X =? 12524) || (X =? 16) = false -> 1 <= spare (told (welcome ++ [config_answer])) X)
    by (intros X N; unfold spare; rewrite N; vm_compute; discriminate).
  assert (S : exists t', slower (spare (told (welcome ++ [config_answer]))) at_once_t late_env t' /\ List.length (sends t') = 8%nat).
  { rewrite At. eexists. split. unfold late_env. cbn [app]. apply slower_wait; [exact Logic.I|]. apply slower_else; [exact Logic.I|]. apply slower_wait; [exact Logic.I|].
    eapply (slower_ask _ 0 14 [] (says (KReply 15 mac_reply)) mac_reply _ _ _ [no_time; ok; says (KReply 15 mac_reply)]); [reflexivity| |].
    { eapply second_try; [apply R; reflexivity| |reflexivity]. apply late_futile; [split; reflexivity|left; reflexivity]. }
    eapply (slower_ask _ 0 27 m (says (KReply 28 [])) [] _ _ _ [refused; ok; says (KReply 28 [])]); [reflexivity| |].
    { eapply second_try; [apply R; reflexivity| |reflexivity]. apply late_futile; [split; reflexivity|right; exists 31, []; repeat split; discriminate]. }
    eapply (slower_ask _ 0 8120 [] (says (KReply 8121 version_reply)) version_reply _ _ _ [stray; ok; says (KReply 8121 version_reply)]); [reflexivity| |].
    { eapply second_try; [apply R; reflexivity| |reflexivity]. apply late_futile; [split; reflexivity|right; exists 12527, [1; 2]; repeat split; discriminate]. }
    change [no_time; ok; config_answer] with ([no_time; ok; config_answer] ++ []).
    eapply (slower_ask _ 0 12532 [0; 0; 0; 0; 0; 0; 0; 0] config_answer (Messages.wire_config Prop_Decode.some_config) _ _ _ [no_time; ok; config_answer]); [reflexivity| |constructor].
    eapply second_try; [apply R; reflexivity| |reflexivity]. apply late_futile; [split; reflexivity|left; reflexivity]. reflexivity. }
  destruct S as (t' & S & Ln). exists w1, t'. split; [reflexivity|]. split; [exact S|]. split; [exact U|]. split; [exact Ev|]. split; [exact Ln|].
  pose proof (C135_late_answers 2 (Connect to_adapter) _ _ _ _ _ _ [] E ltac:(discriminate) S) as K. rewrite app_nil_r in K.
  assert (Y : set_env (w_env w1) w1 = w1) by (clear; destruct w1; reflexivity). rewrite Ev in Y. rewrite Y in K. exact K.
Qed.
