(** A task run alone is the function of the same name in Request.v / Gateway.v. *)
From Verif Require Import Py F64 Struct Utf Utility Const Enum Decode World Request Gateway Api Tasks P_Monad.

(** what a wait for a new connection adds when it succeeds *)
Definition opening (e : ev) (k : kind) (w : world) : world :=
  match e, k with Open _ _ _, KDone => set_conns (w_conns w ++ [new_conn]) w | _, _ => w end.

(** run a task with nothing else running: each await is answered by the script of the world *)
Fixpoint alone {A} (m : task A) : M A :=
  match m with
  | Done o => fun w => ([], w, o)
  | Look k => fun w => alone (k w) w
  | Do f k => fun w => let '(t, w1) := f w in let '(t2, w2, o) := alone k w1 in (t ++ t2, w2, o)
  | Wait e k => mbind (ask e (fun r => opening e (r_kind r))) (fun r => alone (k (r_kind r)))
  | Lock k _ => fun w => if m_locked (w_cm w) then ([], w, Stuck Blocked) else alone k (put_cm (cmset_locked true) w)
  end.

Definition same {A} (m m' : M A) : Prop := forall w, m w = m' w.
Infix "≡" := same (at level 70).
Lemma same_refl {A} (m : M A) : m ≡ m. Proof. intros w. reflexivity. Qed.
Lemma same_sym {A} (m m' : M A) : m ≡ m' -> m' ≡ m. Proof. intros E w. rewrite E. reflexivity. Qed.
Lemma same_trans {A} (a b c : M A) : a ≡ b -> b ≡ c -> a ≡ c. Proof. intros E F w. rewrite E. apply F. Qed.
Lemma same_bind {A B} (m m' : M A) (f f' : A -> M B) : m ≡ m' -> (forall a, f a ≡ f' a) -> mbind m f ≡ mbind m' f'.
Proof. intros E F w. unfold mbind. rewrite E. destruct (m' w) as [[t w1] [a|e|y]]; [rewrite F|..]; reflexivity. Qed.
Lemma same_catch {A} (m m' : M A) p h h' : m ≡ m' -> (forall e, h e ≡ h' e) -> mcatch m p h ≡ mcatch m' p h'.
Proof. intros E F w. unfold mcatch. rewrite E. destruct (m' w) as [[t w1] [a|e|y]]; [|rewrite F|]; reflexivity. Qed.
Lemma same_finally {A} (m m' : M A) f : m ≡ m' -> mfinally m f ≡ mfinally m' f.
Proof. intros E w. unfold mfinally. rewrite E. reflexivity. Qed.

Lemma mbind_ask {A B} e pre (k : resp -> M A) (f : A -> M B) : mbind (mbind (ask e pre) k) f ≡ mbind (ask e pre) (fun r => mbind (k r) f).
Proof. intros w. apply bind_assoc. Qed.
Lemma alone_bind {A B} (m : task A) (f : A -> task B) : alone (tbind m f) ≡ mbind (alone m) (fun a => alone (f a)).
Proof.
  induction m as [[a|e|y]|k IH|g k IH|e k IH|k IH xx IHx]; cbn [tbind alone].
  - intros w. symmetry. apply (bind_ret a (fun a => alone (f a))).
  - apply same_refl.
  - apply same_refl.
  - intros w. exact (IH w w).
  - intros w. unfold mbind. destruct (g w) as [t1 w1]. rewrite (IH w1). unfold mbind.
    destruct (alone k w1) as [[t2 w2] [a|e|y]]; [|reflexivity..]. destruct (alone (f a) w2) as [[t3 w3] o]. rewrite app_assoc. reflexivity.
  - eapply same_trans; [|apply same_sym, mbind_ask]. apply same_bind; [apply same_refl|]. intros r. apply IH.
  - intros w. unfold mbind. destruct (m_locked (w_cm w)); [reflexivity|]. rewrite (IH _). reflexivity.
Qed.
Lemma mcatch_ask {A} e pre (k : resp -> M A) p h : mcatch (mbind (ask e pre) k) p h ≡ mbind (ask e pre) (fun r => mcatch (k r) p h).
Proof.
  intros w. unfold mcatch, mbind, ask. destruct (w_env w); [reflexivity|]. destruct (interfere _ _) as [t w1].
  destruct (k r w1) as [[t2 w2] [a|x|y]]; try reflexivity. destruct (p x); [|reflexivity]. destruct (h x w2) as [[t3 w3] o].
  cbn [app]. rewrite app_assoc. reflexivity.
Qed.
Lemma alone_catch {A} (m : task A) p h : alone (tcatch m p h) ≡ mcatch (alone m) p (fun e => alone (h e)).
Proof.
  induction m as [[a|e|y]|k IH|g k IH|e k IH|k IH xx IHx]; cbn [tcatch alone].
  - apply same_refl.
  - intros w. unfold mcatch. destruct (p e); [destruct (alone (h e) w) as [[t w1] o]|]; reflexivity.
  - apply same_refl.
  - intros w. exact (IH w w).
  - intros w. unfold mcatch. destruct (g w) as [t1 w1]. rewrite (IH w1). unfold mcatch.
    destruct (alone k w1) as [[t2 w2] [a|e|y]]; try reflexivity. destruct (p e); [|reflexivity].
    destruct (alone (h e) w2) as [[t3 w3] o]. rewrite app_assoc. reflexivity.
  - eapply same_trans; [|apply same_sym, mcatch_ask]. apply same_bind; [apply same_refl|]. intros r. apply IH.
  - intros w. unfold mcatch. destruct (m_locked (w_cm w)); [reflexivity|]. rewrite (IH _). reflexivity.
Qed.
Lemma mfinally_ask {A} e pre (k : resp -> M A) f : mfinally (mbind (ask e pre) k) f ≡ mbind (ask e pre) (fun r => mfinally (k r) f).
Proof.
  intros w. unfold mfinally, mbind, ask. destruct (w_env w); [reflexivity|]. destruct (interfere _ _) as [t w1].
  destruct (k r w1) as [[t2 w2] [a|x|y]]; reflexivity.
Qed.
Lemma alone_finally {A} (m : task A) f : alone (tfinally m f) ≡ mfinally (alone m) f.
Proof.
  induction m as [[a|e|y]|k IH|g k IH|e k IH|k IH xx IHx]; cbn [tfinally alone]; try apply same_refl.
  - intros w. exact (IH w w).
  - intros w. unfold mfinally. destruct (g w) as [t1 w1]. rewrite (IH w1). unfold mfinally.
    destruct (alone k w1) as [[t2 w2] [a|e|y]]; reflexivity.
  - eapply same_trans; [|apply same_sym, mfinally_ask]. apply same_bind; [apply same_refl|]. intros r. apply IH.
  - intros w. unfold mfinally. destruct (m_locked (w_cm w)); [reflexivity|]. rewrite (IH _). reflexivity.
Qed.

Lemma alone_ret {A} (a : A) : alone (tret a) ≡ mret a. Proof. apply same_refl. Qed.
Lemma alone_raise {A} e : alone (@traise A e) ≡ mraise e. Proof. apply same_refl. Qed.
Lemma alone_stuck {A} y : alone (@tstuck A y) ≡ mstuck y. Proof. apply same_refl. Qed.
Lemma alone_get {A} (f : world -> A) : alone (tget f) ≡ mget f. Proof. apply same_refl. Qed.
Lemma alone_do f : alone (tdo f) ≡ mput f. Proof. apply same_refl. Qed.
Lemma alone_emit e : alone (temit e) ≡ memit e. Proof. apply same_refl. Qed.
Lemma alone_lift {A} (r : res A) : alone (tlift r) ≡ mlift r. Proof. destruct r; apply same_refl. Qed.
Lemma alone_decode m : alone (tdecode m) ≡ mdecode m.
Proof. intros w. unfold tdecode, mdecode. cbn [alone]. destruct (m (w_data w)) as [d [[]|e]]; reflexivity. Qed.
Lemma alone_lose c : alone (Do (lose c) (tret tt)) ≡ (fun w => let '(t, w') := lose c w in (t, w', Val tt)).
Proof. intros w. cbn [alone]. destruct (lose c w) as [t w1]. unfold tret. cbn [alone]. rewrite app_nil_r. reflexivity. Qed.
Lemma alone_wait {B} e (k : kind -> task B) (f : resp -> M B) : (forall ip port ms, e <> Open ip port ms) -> (forall r, alone (k (r_kind r)) ≡ f r) ->
  alone (tbind (twait e) k) ≡ mbind (ask e nopre) f.
Proof.
  intros N E. cbn [twait tbind tret alone]. intros w. unfold mbind, ask. destruct (w_env w) as [|r rest]; [reflexivity|].
  replace (opening e (r_kind r) (set_env rest w)) with (nopre r (set_env rest w)).
  2:{ unfold opening, nopre. destruct e; try reflexivity. destruct (N _ _ _ eq_refl). }
  destruct (interfere _ _) as [t w1]. rewrite E. reflexivity.
Qed.
Lemma alone_lock {A} (m : task A) (m' : M A) : alone m ≡ m' -> alone (twith_lock m) ≡ with_lock m'.
Proof.
  intros E w. unfold twith_lock, with_lock. cbn [alone]. rewrite bind_get. destruct (m_locked (w_cm w)); [reflexivity|].
  rewrite bind_put. rewrite alone_finally. unfold mfinally. rewrite E. reflexivity.
Qed.
Lemma same_if {A} (b : bool) (x y x' y' : M A) : x ≡ x' -> y ≡ y' -> (if b then x else y) ≡ (if b then x' else y').
Proof. destruct b; auto. Qed.
Lemma alone_if {A} (b : bool) (x y : task A) (x' y' : M A) : alone x ≡ x' -> alone y ≡ y' -> alone (if b then x else y) ≡ (if b then x' else y').
Proof. destruct b; auto. Qed.
Lemma alone_b {A B} (m : task A) (f : A -> task B) m' f' : alone m ≡ m' -> (forall a, alone (f a) ≡ f' a) -> alone (tbind m f) ≡ mbind m' f'.
Proof. intros E F. eapply same_trans; [apply alone_bind|]. apply same_bind; assumption. Qed.
Lemma alone_c {A} (m : task A) p h m' h' : alone m ≡ m' -> (forall e, alone (h e) ≡ h' e) -> alone (tcatch m p h) ≡ mcatch m' p h'.
Proof. intros E F. eapply same_trans; [apply alone_catch|]. apply same_catch; assumption. Qed.

Create HintDb al.
Ltac al1 := first
  [ solve [eauto 1 with al nocore]
  | apply alone_wait; [intros; discriminate|intro]
  | apply alone_b; [|intro]
  | apply alone_c; [|intro]
  | apply alone_lock
  | apply alone_if
  | apply alone_ret | apply alone_raise | apply alone_stuck | apply alone_get | apply alone_do | apply alone_emit | apply alone_lift | apply alone_decode | apply alone_lose
  | match goal with |- alone (match ?x with _ => _ end) ≡ _ => destruct x end ].
Ltac al := repeat al1.

Lemma al_sleep ms : alone (tsleep ms) ≡ msleep ms. Proof. unfold tsleep, msleep. al. Qed.
#[export] Hint Resolve al_sleep : al.
Lemma al_send c code p : alone (tsend c code p) ≡ send c code p. Proof. unfold tsend, send. al. Qed.
#[export] Hint Resolve al_send : al.
Lemma al_loop n : forall a mr c code p, alone (trequest_loop n a mr c code p) ≡ request_loop n a mr c code p.
Proof. induction n as [|n IH]; intros; cbn [trequest_loop request_loop]; cbv zeta; al; apply IH. Qed.
Lemma al_request c code p mr : alone (tmake_request c code p mr) ≡ make_request c code p mr. Proof. apply al_loop. Qed.
#[export] Hint Resolve al_request : al.
Lemma al_data code p dec mr c : alone (tdata_request code p dec mr c) ≡ data_request code p dec mr c.
Proof. unfold tdata_request, data_request. al. Qed.
#[export] Hint Resolve al_data : al.
Lemma al_pump i mr c : alone (trequest_pump_status i mr c) ≡ request_pump_status i mr c.
Proof. unfold trequest_pump_status, request_pump_status. al. Qed.
Lemma al_version mr c : alone (trequest_gateway_version mr c) ≡ request_gateway_version mr c.
Proof. unfold trequest_gateway_version, request_gateway_version. al. Qed.
Lemma al_date mr c : alone (trequest_date_time mr c) ≡ request_date_time mr c.
Proof. unfold trequest_date_time, request_date_time. al. Qed.
#[export] Hint Resolve al_pump al_version al_date : al.
Lemma al_cmd code p mr c : alone (tcommand_request code p mr c) ≡ command_request code p mr c.
Proof. unfold tcommand_request, command_request. al. Qed.
#[export] Hint Resolve al_cmd : al.
Lemma lset_len {A} n (x : A) l : List.length (lset n x l) = List.length l.
Proof. revert n. induction l as [|y l IH]; intros [|n]; cbn [lset List.length]; [reflexivity..|]. f_equal. apply IH. Qed.
Lemma lose_conns c w : List.length (w_conns (snd (lose c w))) = List.length (w_conns w).
Proof. unfold lose. destruct (connected c w); [|reflexivity]. cbn [snd]. unfold upd_conn. cbn [set_conns w_conns]. apply lset_len. Qed.
Lemma interfere_conns r w : List.length (w_conns (snd (interfere r w))) = List.length (w_conns w).
Proof.
  unfold interfere. set (w0 := set_clock _ _). replace (List.length (w_conns w)) with (List.length (w_conns w0)) by (subst w0; destruct (r_data r); reflexivity).
  generalize w0. clear. induction (r_lost r) as [|c cs IH]; intros w; cbn [lose_all]; [reflexivity|].
  pose proof (lose_conns c w). destruct (lose c w) as [t1 w1]. cbn [snd] in *. pose proof (IH w1). destruct (lose_all cs w1) as [t2 w2]. cbn [snd] in *. congruence.
Qed.
Lemma al_create ip port : alone (tcreate_connection ip port) ≡ create_connection ip port.
Proof.
  intros w. unfold tcreate_connection, create_connection. cbn [twait tbind tret alone]. rewrite bind_get. unfold mbind, ask.
  destruct (w_env w) as [|r rest]; [reflexivity|].
  set (w0 := match r_kind r with KDone => _ | _ => _ end).
  replace (opening _ _ _) with w0 by (subst w0; destruct (r_kind r); reflexivity).
  pose proof (interfere_conns r w0) as L. destruct (interfere r w0) as [t w1]. cbn [snd] in L. subst w0.
  destruct (r_kind r); try reflexivity. cbn [set_conns w_conns set_env] in L. rewrite app_length in L. cbn [List.length] in L.
  unfold tget, tret, mret. cbn [alone]. rewrite L, Nat.add_1_r. reflexivity.
Qed.
#[export] Hint Resolve al_create : al.
Lemma al_gconnect c mr : alone (tgateway_connect c mr) ≡ gateway_connect c mr. Proof. unfold tgateway_connect, gateway_connect. al. Qed.
Lemma al_login c mr : alone (tgateway_login c mr) ≡ gateway_login c mr. Proof. unfold tgateway_login, gateway_login. al. Qed.
#[export] Hint Resolve al_gconnect al_login : al.
Lemma al_ctg ip port mr : alone (tconnect_to_gateway ip port mr) ≡ connect_to_gateway ip port mr. Proof. unfold tconnect_to_gateway, connect_to_gateway. al. Qed.
Lemma al_mproto : alone tm_proto_or_fail ≡ m_proto_or_fail. Proof. unfold tm_proto_or_fail, m_proto_or_fail. al. Qed.
Lemma al_proto : alone tproto_or_fail ≡ proto_or_fail. Proof. unfold tproto_or_fail, proto_or_fail. al. Qed.
Lemma al_close c f : alone (tasync_close c f) ≡ async_close c f. Proof. unfold tasync_close, async_close. al. Qed.
#[export] Hint Resolve al_ctg al_mproto al_proto al_close : al.
Lemma al_remove : alone tremove_client ≡ remove_client. Proof. unfold tremove_client, remove_client, request_remove_client. al. Qed.
#[export] Hint Resolve al_remove : al.
Lemma al_unsub : alone tunsubscribe_gateway ≡ unsubscribe_gateway. Proof. unfold tunsubscribe_gateway, unsubscribe_gateway. al. Qed.
#[export] Hint Resolve al_unsub : al.
Lemma al_disconnect f : alone (tasync_disconnect f) ≡ async_disconnect f. Proof. unfold tasync_disconnect, async_disconnect. al. Qed.
#[export] Hint Resolve al_disconnect : al.

Section Connect.
  Variables (tc : task bool) (mc : M bool).
  Hypothesis C : alone tc ≡ mc.
  Lemma al_attempt {A} (tm : Z -> nat -> task A) mm mr : (forall mr c, alone (tm mr c) ≡ mm mr c) -> alone (tattempt_request tc tm mr) ≡ attempt_request mc mm mr.
  Proof. intros H. unfold tattempt_request, attempt_request. al; try exact C; apply H. Qed.
  Lemma al_connected {A} (tm : Z -> nat -> task A) mm d : (forall mr c, alone (tm mr c) ≡ mm mr c) -> alone (tconnected_request tc tm d) ≡ connected_request mc mm d.
  Proof. intros H. unfold tconnected_request, connected_request. al; apply al_attempt; exact H. Qed.
  Lemma al_poll k tm mm : (forall mr c, alone (tm mr c) ≡ mm mr c) -> alone (tpoll tc k tm) ≡ poll mc k mm.
  Proof. intros H. unfold tpoll, poll. apply alone_b; [apply al_connected; exact H|]. intro. al. Qed.
  Lemma al_subg : alone (tsubscribe_gateway tc) ≡ subscribe_gateway mc.
  Proof.
    unfold tsubscribe_gateway, subscribe_gateway, request_add_client.
    apply alone_b; [al|]. intro. apply alone_if; [al|]. apply alone_lock. apply alone_b; [al|]. intro. apply alone_if; [|al].
    apply alone_b; [al|]. intro. apply alone_b; [apply al_connected; intros; apply al_cmd|]. intro. al.
  Qed.
  Lemma al_attach c mr : alone (tattach tc c mr) ≡ attach mc c mr.
  Proof. unfold tattach, attach. al; apply al_subg. Qed.
End Connect.
Lemma al_connect n : forall x, alone (tasync_connect n x) ≡ async_connect n x.
Proof.
  induction n as [|n IH]; intros x; cbn [tasync_connect async_connect]; [al|].
  assert (P := al_poll _ _ (IH no_args) K_CONFIG trequest_pool_config request_pool_config (fun mr c => al_data _ _ _ mr c)).
  assert (T := al_attach _ _ (IH no_args)).
  repeat first [exact P | apply T | al1].
Qed.
Lemma al_command n {A} (tm : Z -> nat -> task A) mm d : (forall mr c, alone (tm mr c) ≡ mm mr c) -> alone (tcommand n tm d) ≡ command n mm d.
Proof. intros H. unfold tcommand, command. apply al_connected; [apply al_connect|exact H]. Qed.
Lemma al_getpoll n k tm mm : (forall mr c, alone (tm mr c) ≡ mm mr c) -> alone (tget_poll n k tm) ≡ poll (async_connect n no_args) k mm.
Proof. intros H. unfold tget_poll. apply al_poll; [apply al_connect|exact H]. Qed.
Lemma al_pumps n ids : alone (tpumps_loop n ids) ≡ pumps_loop n ids.
Proof.
  induction ids as [|i ids IH]; cbn [tpumps_loop pumps_loop]; [al|].
  apply alone_b; [al|]. intro. apply alone_b; [al|]. intro. apply alone_b; [|intro; exact IH]. apply alone_if; [al|].
  apply alone_b; [al|]. intro. apply alone_b; [apply al_command; intros; apply al_pump|]. intro. al.
Qed.
Lemma al_require b : alone (trequire b) ≡ require b. Proof. unfold trequire, require. al. Qed.
#[export] Hint Resolve al_connect al_pumps al_require : al.
Lemma al_update n : alone (tasync_update n) ≡ async_update n.
Proof.
  unfold tasync_update, async_update. apply alone_b; [al|]. intros [|kv d]; [al|].
  apply alone_b; [apply al_getpoll; intros; apply al_data|]. intro.
  apply alone_b; [apply al_pumps|]. intro.
  apply alone_b; [apply al_getpoll; intros; apply al_data|]. intro.
  apply alone_b; [apply al_getpoll; intros; apply al_data|]. intro.
  apply al_getpoll; intros; apply al_date.
Qed.
Lemma al_subscribe n cb code : alone (tasync_subscribe_client n cb code) ≡ async_subscribe_client n cb code.
Proof. unfold tasync_subscribe_client, async_subscribe_client. al; try (apply al_subg; apply al_connect). Qed.
Lemma alone_perform n c : alone (tperform n c) ≡ perform n c.
Proof.
  destruct c; cbn [tperform perform]; unfold ignore.
  - al.
  - al.
  - apply al_getpoll; intros; apply al_data.
  - apply al_getpoll; intros; apply al_data.
  - apply al_getpoll; intros; apply al_data.
  - apply al_getpoll; intros; apply al_data.
  - apply al_getpoll; intros; apply al_date.
  - apply al_pumps.
  - apply al_update.
  - unfold set_max_retries. al.
  - unfold async_set_circuit, request_pool_button_press. do 3 (apply alone_b; [al|intro]). apply al_command; intros; apply al_cmd.
  - unfold async_set_heat_temp, request_set_heat_setpoint. do 3 (apply alone_b; [al|intro]). apply al_command; intros; apply al_cmd.
  - unfold async_set_heat_mode, request_set_heat_mode. do 3 (apply alone_b; [al|intro]). apply al_command; intros; apply al_cmd.
  - unfold async_set_color_lights, request_pool_lights_command. do 1 (apply alone_b; [al|intro]). apply al_command; intros; apply al_cmd.
  - unfold async_set_scg_config, request_set_scg_config. apply alone_b; [al|intro]. apply alone_b; [al|]. intros [[[? ?] ?] ?]. apply al_command; intros; apply al_cmd.
  - unfold async_set_chem_data, request_set_chem_data. apply alone_b; [al|intro]. apply alone_b; [al|]. intros [[[[[? ?] ?] ?] ?] ?]. apply al_command; intros; apply al_cmd.
  - unfold async_set_date_time, request_set_date_time. apply alone_b; [al|intro]. apply alone_b; [al|intro]. apply alone_b; [al|]. intros [? ?]. apply al_command; intros; apply al_cmd.
  - unfold async_synchronize_date_time, async_set_date_time, request_set_date_time. apply alone_b; [al|intro]. apply alone_b; [al|intro]. apply alone_b; [al|]. intros [? ?]. apply al_command; intros; apply al_cmd.
  - apply alone_b; [|intro; al]. unfold async_send_message. apply al_command. intros; apply al_request.
  - unfold register_handler. al.
  - unfold remove_handler. al.
  - apply alone_b; [apply al_subscribe|intro; al].
  - unfold tremove_subscription, remove_subscription. al.
  - apply al_unsub.
  - unfold tasync_ping, async_ping, request_ping. al.
Qed.
