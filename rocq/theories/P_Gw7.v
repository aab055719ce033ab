(** Closure over all gateway calls. *)
From Verif Require Import Py F64 Struct Utf Utility Const Spec Enum Decode World Request Gateway Traces Paths Api P_Base P_Util P_Monad P_Request P_Sat P_Paths P_Gw1 P_Gw6.
Open Scope m_scope.

Lemma sat_ignore {A} ok R (m : M A) : closed ok R -> Sat R m -> Sat R (ignore m).
Proof. intros C K. unfold ignore. eapply sat_bind; [exact C|exact K|]. intros _. eapply sat_ret; exact C. Qed.

(** the debug entries a call writes, besides those of connecting *)
Definition call_keys (c : api_call) : list key :=
  match c with
  | GetConfig => [K_CONFIG] | GetStatus => [K_STATUS] | GetChemistry => [K_CHEMISTRY] | GetScg => [K_SCG]
  | GetDatetime => [K_DATE_TIME] | GetPumps => [K_PUMPS]
  | Update => [K_STATUS; K_PUMPS; K_CHEMISTRY; K_SCG; K_DATE_TIME]
  | _ => []
  end.

Section Api.
Variables (ok : Z -> bytes -> Prop) (R : wrel) (C : closed ok R) (n : nat).
Hypothesis all_ok : forall code p, ok code p.
Definition writes (k : key) : Prop := forall w v, R w [] (set_last (dset k v (w_last w)) w).

Lemma sat_cmd {A} (method : Z -> nat -> M A) delay : (forall mr c, Sat R (method mr c)) -> Sat R (command n method delay).
Proof. intros K. eapply sat_command_api; [exact C|auto|exact K]. Qed.
Lemma sat_pl key (method : Z -> nat -> M (option bytes)) : (forall mr c, Sat R (method mr c)) -> writes key ->
  Sat R (poll (async_connect n no_args) key method).
Proof. intros K W. eapply sat_poll; [exact C|auto|eapply sat_connect_api; [exact C|auto]|exact K|auto]. Qed.
Lemma sat_status : writes K_STATUS -> Sat R (async_get_status n).
Proof. intros W. apply sat_pl; [|exact W]. intros. eapply sat_data_request; eauto. Qed.
Lemma sat_config : writes K_CONFIG -> Sat R (async_get_config n).
Proof. intros W. apply sat_pl; [|exact W]. intros. eapply sat_data_request; eauto. Qed.
Lemma sat_chemistry : writes K_CHEMISTRY -> Sat R (async_get_chemistry n).
Proof. intros W. apply sat_pl; [|exact W]. intros. eapply sat_data_request; eauto. Qed.
Lemma sat_scg : writes K_SCG -> Sat R (async_get_scg n).
Proof. intros W. apply sat_pl; [|exact W]. intros. eapply sat_data_request; eauto. Qed.
Lemma sat_datetime : writes K_DATE_TIME -> Sat R (async_get_datetime n).
Proof. intros W. apply sat_pl; [|exact W]. intros. eapply sat_date_time; eauto. Qed.
Lemma sat_all_pumps ids : writes K_PUMPS -> Sat R (pumps_loop n ids).
Proof. intros W. eapply sat_pumps; eauto. Qed.
Lemma sat_update : (forall k, In k (call_keys Update) -> writes k) -> Sat R (async_update n).
Proof.
  intros W.
  unfold async_update. eapply sat_bind; [exact C|eapply sat_get; exact C|]. intros d. destruct d; [eapply sat_raise; exact C|].
  eapply sat_bind; [exact C|apply sat_status; apply W; cbn; tauto|]. intros _.
  eapply sat_bind; [exact C|apply sat_all_pumps; apply W; cbn; tauto|]. intros _.
  eapply sat_bind; [exact C|apply sat_chemistry; apply W; cbn; tauto|]. intros _.
  eapply sat_bind; [exact C|apply sat_scg; apply W; cbn; tauto|]. intros _. apply sat_datetime; apply W; cbn; tauto.
Qed.
Lemma sat_req code pl delay : Sat R (command n (command_request code pl) delay).
Proof. apply sat_cmd. intros. eapply sat_command; eauto. Qed.
Ltac go := first [apply sat_req|eapply sat_bind; [exact C|first [eapply sat_get; exact C|eapply sat_require; exact C|eapply sat_lift; exact C]|intros ?]].

Lemma sat_perform c :
  (forall x, c = Connect x -> forall w, R w [] (store_args x w)) ->
  (forall k, c = SetMaxRetries k -> forall w, R w [] (set_retries k w)) ->
  (forall k, In k (call_keys c) -> writes k) -> Sat R (perform n c).
Proof.
  intros KX KR W. destruct c; cbn [perform].
  - eapply sat_ignore; [exact C|]. eapply sat_connect_args; eauto.
  - eapply sat_disconnect; eauto.
  - apply sat_config; apply W; left; reflexivity.
  - apply sat_status; apply W; left; reflexivity.
  - apply sat_chemistry; apply W; left; reflexivity.
  - apply sat_scg; apply W; left; reflexivity.
  - apply sat_datetime; apply W; left; reflexivity.
  - apply sat_all_pumps; apply W; left; reflexivity.
  - apply sat_update. exact W.
  - unfold set_max_retries. eapply sat_if; [eapply sat_put; intros; eapply KR; reflexivity|eapply sat_raise; exact C].
  - unfold async_set_circuit. repeat go.
  - unfold async_set_heat_temp. repeat go.
  - unfold async_set_heat_mode. repeat go.
  - unfold async_set_color_lights. repeat go.
  - unfold async_set_scg_config. go. go. destruct a0 as [[[? ?] ?] ?]. apply sat_req.
  - unfold async_set_chem_data. go. go. destruct a0 as [[[[[? ?] ?] ?] ?] ?]. apply sat_req.
  - unfold async_set_date_time. go. go. go. destruct a1 as [? ?]. apply sat_req.
  - unfold async_synchronize_date_time, async_set_date_time. go. go. go. destruct a1 as [? ?]. apply sat_req.
  - eapply sat_ignore; [exact C|]. unfold async_send_message. apply sat_cmd. intros. eapply sat_request; eauto.
  - unfold register_handler. go. destruct a; [|eapply sat_raise; exact C]. eapply sat_put. eapply put_register; exact C.
  - unfold remove_handler. go. destruct a; [|eapply sat_ret; exact C]. eapply sat_put. eapply put_unregister; exact C.
  - eapply sat_ignore; [exact C|]. unfold async_subscribe_client. go. eapply sat_if; [eapply sat_ret; exact C|].
    eapply sat_bind; [exact C|eapply sat_put; eapply put_put_cm; exact C|]. intros _.
    eapply sat_bind; [exact C|eapply sat_mproto; exact C|]. intros c.
    eapply sat_bind; [exact C|eapply sat_put; eapply put_register; exact C|]. intros _.
    go. eapply sat_bind; [exact C| |intros _; eapply sat_ret; exact C].
    eapply sat_if; [|eapply sat_ret; exact C]. eapply sat_subscribe; eauto. eapply sat_connect_api; [exact C|auto].
  - unfold remove_subscription. go. eapply sat_if; [eapply sat_ret; exact C|].
    eapply sat_bind; [exact C|eapply sat_put; eapply put_put_cm; exact C|]. intros _. go. go.
    eapply sat_if; [|eapply sat_ret; exact C]. eapply sat_bind; [exact C|eapply sat_mproto; exact C|]. intros c. eapply sat_put. eapply put_unregister; exact C.
  - eapply sat_unsubscribe; eauto.
  - unfold async_ping. eapply sat_catch; [exact C| |intros; eapply sat_ret; exact C]. eapply sat_bind; [exact C|eapply sat_mproto; exact C|]. intros c. eapply sat_command; eauto.
Qed.
End Api.
