(** Property theorems C122: the data requests used directly (vocabulary: Asks.v). *)
From Verif Require Import Py F64 Struct Utf Utility Const Spec Enum Decode World Request Gateway Traces Calls Asks P_Base P_Util P_Monad P_Request P_Gw1 P_Gw6 P_Gw8 Prop_Request.
Open Scope m_scope.

(** every data request has the same shape *)
Lemma question_reading q mr c w : askable q -> run_question q mr c w =
  reading (fst (asked q)) (snd (asked q)) (fun w b => run_decoder (reading_of q (h_float (w_host w)) (w_clock w) b)) mr c w \/
  (q = AskVersion /\ run_question q mr c w =
     reading 8120 [] (fun _ => decode_version (h_float (w_host w))) mr c w).
Proof.
  intros A. destruct q; cbn [asked fst snd run_question reading_of run_decoder]; try (left; reflexivity).
  - right. split; [reflexivity|]. unfold request_gateway_version. rewrite bind_get. reflexivity.
  - left. unfold request_pump_status. change [VInt 0; VInt i] with (map VInt [0; i]). rewrite pack_Is_ok.
    + cbn [mlift]. rewrite bind_ret. cbn [map List.concat app]. rewrite app_nil_r. rewrite reading_data. reflexivity.
    + repeat constructor; unfold is_u32; cbn in A |- *; lia.
  - left. rewrite reading_time. reflexivity.
Qed.

Lemma pushed_losses l d : only_losses l -> pushed_data d l = d.
Proof. revert d. induction l as [|e l IH]; intros d H; [reflexivity|]. inversion H; subst. destruct e; try contradiction; apply IH; assumption. Qed.
Lemma pushed_app a : forall d b, pushed_data d (a ++ b) = pushed_data (pushed_data d a) b.
Proof. induction a as [|e a IH]; intros d b; [reflexivity|]. destruct e; cbn [app pushed_data]; apply IH. Qed.
Lemma pushed_sent c code data w d : pushed_data d (sent c code data w) = d.
Proof. unfold sent. destruct (c_open _); reflexivity. Qed.
Lemma interfere_pushed r rest w l w1 : interfere r (set_env rest w) = (l, w1) ->
  w_data w1 = match r_data r with Some d => d | None => w_data w end /\ only_losses l.
Proof.
  intros E. split; [|eapply interfere_l; exact E]. apply interfere_fields in E. destruct E as (_ & _ & _ & _ & _ & _ & _ & _ & _ & E). exact E.
Qed.
Lemma run_pushed c code data mr n a w t w' o : lrun c code data mr n a w t w' o -> w_data w' = pushed_data (w_data w) t.
Proof.
  induction 1; try reflexivity;
    repeat match goal with H : interfere _ (set_env _ _) = _ |- _ => apply interfere_pushed in H; destruct H as [? ?] end;
    rewrite pushed_app, pushed_sent; cbn [pushed_data]; try reflexivity;
    repeat (rewrite ?pushed_app; cbn [pushed_data]; rewrite ?pushed_losses by assumption); try congruence.
  - rewrite H6, H2. reflexivity.
  - rewrite IHlrun, H6, H2. rewrite (pushed_losses l2), (pushed_losses l) by assumption. reflexivity.
Qed.
Lemma losses_asks c l : only_losses l -> only_asks c l.
Proof. apply Forall_impl. intros []; tauto. Qed.
Lemma run_asks c code data mr n a w t w' o : lrun c code data mr n a w t w' o -> only_asks c t.
Proof.
  assert (Q : forall w, only_asks c (sent c code data w)) by (intros w0; unfold sent; destruct (c_open _); repeat constructor).
  induction 1; try constructor;
    repeat match goal with H : interfere _ (set_env _ _) = _ |- _ => apply interfere_pushed in H; destruct H as [? H]; apply (losses_asks c) in H end;
    unfold only_asks in *; repeat first [assumption | apply Q | apply Forall_app; split | constructor].
Qed.

(** C122.  A data request run directly on connection [c] sends only its own message, at most
    [mr] + 1 times, on [c], and does nothing else to any connection. *)
Theorem C122_sends q mr c w t w' o : askable q -> 0 <= mr ->
  run_question q mr c w = (t, w', o) ->
  only_asks c t /\ zlen (sends t) <= mr + 1 /\
  Forall (fun x => x = (c, fst (asked q), snd (asked q))) (sends t).
Proof.
  intros A M E.
  assert (G : exists w1 o1, make_request c (fst (asked q)) (snd (asked q)) mr w = (t, w1, o1)).
  { destruct (question_reading q mr c w A) as [Q|[-> Q]]; rewrite Q in E; apply reading_inv in E; destruct E as (w1 & o1 & E & _); eauto. }
  destruct G as (w1 & o1 & G). destruct (request_timing _ _ _ _ _ _ _ _ G M) as (P1 & P2 & _).
  split; [|split; assumption]. eapply run_asks. exact (request_run _ _ _ _ _ _ _ _ G).
Qed.
Print Assumptions C122_sends.

(** What it returns and what it writes to the data.  Besides what the adapter pushed
    meanwhile, the data are changed only by decoding the answer: a non-empty payload in a
    message with the request's code plus one, the last reply that came.  That payload is
    what is returned, and an error in decoding it is raised. *)
Theorem C122_result q mr c w t w' o : askable q ->
  run_question q mr c w = (t, w', o) ->
  let d := pushed_data (w_data w) t in
  let answers b := exists rs r, replies t = rs ++ [r] /\ answer_of r = Some (fst (asked q) + 1, b) in
  let decoded b := run_decoder (reading_of q (h_float (w_host w)) (w_clock w') b) d in
  match o with
  | Val (Some b) => b <> [] /\ answers b /\ decoded b = (w_data w', Ok tt)
  | Exc e => w_data w' = d /\ (forall b, ~ answers b) \/ exists b, b <> [] /\ answers b /\ decoded b = (w_data w', Err e)
  | Val None => w_data w' = d /\ forall b, answers b -> b = []
  | Stuck _ => w_data w' = d /\ forall b, ~ answers b
  end.
Proof.
  intros A E d answers decoded.
  assert (G : exists w1 o1 fl, make_request c (fst (asked q)) (snd (asked q)) mr w = (t, w1, o1) /\
    fl = h_float (w_host w) /\ match o1 with
     | Val r => match nonempty r with
                | None => w' = w1 /\ o = Val None
                | Some b => let x := run_decoder (reading_of q fl (w_clock w1) b) (w_data w1) in
                            w' = set_data (fst x) w1 /\
                            o = match snd x with Ok _ => Val (Some b) | Err e => Exc e end
                end
     | Exc e => w' = w1 /\ o = Exc e
     | Stuck y => w' = w1 /\ o = Stuck y
     end).
  { destruct (question_reading q mr c w A) as [Q|[-> Q]]; rewrite Q in E; apply reading_inv in E; destruct E as (w1 & o1 & E & F).
    - exists w1, o1, (h_float (w_host w1)). split; [exact E|]. split; [|exact F].
      apply request_run, run_kept in E. unfold kept in E. destruct E as (_ & _ & _ & _ & _ & _ & ->). reflexivity.
    - exists w1, o1, (h_float (w_host w)). split; [exact E|]. split; [reflexivity|exact F]. }
  clear E. destruct G as (w1 & o1 & fl & G & -> & F). apply request_run in G.
  pose proof (run_pushed _ _ _ _ _ _ _ _ _ _ G) as D. fold d in D.
  assert (U : forall b, answers b -> o1 = Val (Some b)).
  { intros b (rs & r & R & B). assert (I : In r (replies t)) by (rewrite R; apply in_or_app; right; left; reflexivity).
    destruct (run_final _ _ _ _ _ _ _ _ _ _ _ G I) as [(x & J)|(J & _)]; apply judge_answer in B; [congruence|].
    unfold ends in J. rewrite B in J. exact J. }
  destruct o1 as [r|e|y].
  - destruct r as [[|x b]|]; cbn [nonempty] in F.
    + destruct F as [-> ->]. split; [exact D|]. intros b B. apply U in B. injection B as B. congruence.
    + assert (B : answers (x :: b)) by exact (run_answer _ _ _ _ _ _ _ _ _ _ G).
      cbn zeta in F. unfold decoded. destruct F as [-> ->]. cbn [set_data w_clock w_data]. rewrite D.
      destruct (run_decoder _ d) as [d' [[]|e]] eqn:X; cbn [fst snd].
      * split; [discriminate|]. split; [exact B|exact X].
      * right. exists (x :: b). rewrite X. split; [discriminate|]. split; [exact B|reflexivity].
    + destruct F as [-> ->]. split; [exact D|]. intros b B. apply U in B. discriminate.
  - destruct F as [-> ->]. left. split; [exact D|]. intros b B. apply U in B. discriminate.
  - destruct F as [-> ->]. split; [exact D|]. intros b B. apply U in B. discriminate.
Qed.
Print Assumptions C122_result.

(** A pump index that does not fit is an error before anything is sent. *)
Theorem C122_pump_index i mr c w : ~ 0 <= i < 4294967296 ->
  run_question (AskPump i) mr c w = ([], w, Exc EStruct).
Proof.
  intros I. unfold run_question, request_pump_status.
  assert (P : pack_Is [VInt 0; VInt i] = Err EStruct).
  { cbn [pack_Is pack_I]. change (pack_u 4 0) with (Ok (le_enc 4 0)). cbn [rbind]. unfold pack_u.
    destruct ((0 <=? i) && (i <? 256 ^ Z.of_nat 4)) eqn:B; [|reflexivity]. exfalso. apply I.
    apply andb_true_iff in B. destruct B as [B1 B2]. apply Z.leb_le in B1. apply Z.ltb_lt in B2. change (256 ^ Z.of_nat 4) with 4294967296 in B2. lia. }
  rewrite P. reflexivity.
Qed.
Print Assumptions C122_pump_index.

(** the equipment request times out once, is asked again, and its answer is read; the data
    gain the equipment section *)
Definition equipment_answer : bytes := [1; 2; 0; 0; 3; 0; 0; 0] ++ repeat 0 2000%nat.
Definition equipment_run := run_question AskEquipment 1 0 (live_world [says KTimeout; says KDone; says (KReply 12567 equipment_answer)]).
Example C122_nonvacuous :
  askable AskEquipment /\
  match equipment_run with
  | (t, w', o) => sends t = [(0%nat, 12566, [0; 0; 0; 0; 0; 0; 0; 0]); (0%nat, 12566, [0; 0; 0; 0; 0; 0; 0; 0])] /\
      match o with Val (Some b) => b = equipment_answer | _ => False end /\
      match w_data w' with [(k, _)] => k = KS "equipment" | _ => False end
  end.
Proof. split; [exact Logic.I|]. vm_compute. auto. Qed.
Example C122_pump_nonvacuous :
  let w := live_world [says (KReply 12585 [1])] in
  askable (AskPump 9) /\
  fst (fst (run_question (AskPump 9) 0 0 w)) =
    [Send 0 12584 [0; 0; 0; 0; 9; 0; 0; 0]; AwaitReply 0 2000; Got (says (KReply 12585 [1]))] /\
  snd (run_question (AskPump 9) 0 0 w) = Exc EStruct /\
  run_question (AskPump (-1)) 0 0 w = ([], w, Exc EStruct).
Proof. cbv zeta. split; [cbn; lia|]. vm_compute. auto. Qed.
