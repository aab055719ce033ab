(** What gateway commands send, and the undisturbed command. *)
From Verif Require Import Py F64 Struct Utf Utility Const Spec Enum Decode World Request Gateway Traces Paths P_Base P_Util P_Monad P_Request P_Sat P_Paths P_Dict.
Open Scope m_scope.

(** every message sent is allowed *)
Definition allowed (ok : Z -> bytes -> Prop) : wrel := fun _ t _ => forall c code p, In (Send c code p) t -> ok code p.
Lemma losses_no_send l c code p : only_losses l -> ~ In (Send c code p) l.
Proof. intros F I. unfold only_losses in F. rewrite Forall_forall in F. exact (F _ I). Qed.
Lemma interfere_only r w l w1 : interfere r w = (l, w1) -> only_losses l.
Proof. intros H. pose proof (interfere_losses r w) as L. rewrite H in L. exact L. Qed.
Lemma lose_only c w l w1 : lose c w = (l, w1) -> only_losses l.
Proof. intros H. pose proof (lose_losses c w) as L. rewrite H in L. exact L. Qed.

Lemma allowed_closed ok : closed ok (allowed ok).
Proof.
  constructor; unfold allowed; try (intros; contradiction).
  - intros w t1 w1 t2 w2 H1 H2 c code p I. apply in_app_or in I. destruct I; eauto.
  - intros w c code p _ K c0 code0 p0 [I|[]]. injection I as <- <- <-. exact K.
  - intros w c b _ c0 code0 p0 [I|[]]. discriminate.
  - intros w c c0 code0 p0 [I|[]]. discriminate.
  - intros w e E P c code p [I|[]]. subst e. contradiction.
  - intros w e r rest l w1 E P I c code p [K|[K|K]]; [subst e; contradiction|discriminate|].
    exfalso. eapply losses_no_send; [eapply interfere_only; exact I|exact K].
  - intros w E c code p [K|[]]. discriminate.
  - intros w r rest l w1 E I c code p [K|[K|K]]; [discriminate|discriminate|].
    exfalso. eapply losses_no_send; [eapply interfere_only; exact I|exact K].
  - intros w c l w1 I c0 code p K. exfalso. eapply losses_no_send; [eapply lose_only; exact I|exact K].
Qed.

(** what a command with code X may send *)
Definition only_this (X : Z) (pl : res bytes) (code : Z) (p : bytes) : Prop :=
  connecting code \/ (code = X /\ pl = Ok p).
Lemma connecting_in code : In code [14; 27; 8120; 12532; 12522; 12524] -> connecting code.
Proof. exact (fun x => x). Qed.
Ltac conn_code := left; apply connecting_in; cbn; tauto.

Lemma sat_command_api {A} ok R n (method : Z -> nat -> M A) delay : closed ok R ->
  (forall code p, connecting code -> ok code p) -> (forall mr c, Sat R (method mr c)) -> Sat R (command n method delay).
Proof.
  intros C K H. apply sat_api with (ok := ok); auto; intros; apply K; apply connecting_in; cbn; tauto.
Qed.
Lemma sat_connect_api ok R n : closed ok R ->
  (forall code p, connecting code -> ok code p) -> Sat R (async_connect n no_args).
Proof.
  intros C K. apply sat_connect with (ok := ok); auto; intros; apply K; apply connecting_in; cbn; tauto.
Qed.

Lemma command_only n X pl delay w t w' o : command n (command_request X pl) delay w = (t, w', o) ->
  forall c code p, In (Send c code p) t -> only_this X pl code p.
Proof.
  intros E. refine ((_ : Sat (allowed (only_this X pl)) _) _ _ _ _ E).
  eapply sat_command_api; [apply allowed_closed|left; assumption|].
  intros mr c. eapply sat_command; [apply allowed_closed|]. intros b K. right. auto.
Qed.
Lemma command_sends n X pl delay w t w' o c p : command n (command_request X pl) delay w = (t, w', o) ->
  ~ connecting X -> In (Send c X p) t -> pl = Ok p.
Proof. intros E N I. destruct (command_only _ _ _ _ _ _ _ _ E _ _ _ I) as [K|[_ K]]; [contradiction|exact K]. Qed.

(** packed integers *)
Lemma pack_Is_inv l : forall b, pack_Is l = Ok b ->
  exists zs, l = map VInt zs /\ Forall is_u32 zs /\ b = List.concat (map u32le zs).
Proof.
  induction l as [|v l IH]; intros b H; cbn [pack_Is] in H.
  - injection H as <-. exists []. auto.
  - destruct v as [|z| | | | | | ]; try discriminate. cbn [pack_I] in H.
    unfold pack_u in H. destruct (_ && _) eqn:B; [|discriminate]. cbn [rbind] in H.
    destruct (pack_Is l) as [b'|] eqn:E; [|discriminate]. cbn [rbind] in H. injection H as <-.
    destruct (IH _ eq_refl) as (zs & -> & F & ->). exists (z :: zs). split; [reflexivity|]. rewrite pow256_4 in B. split.
    + constructor; [unfold is_u32; lia|exact F].
    + cbn [map List.concat]. rewrite u32le_enc. reflexivity.
Qed.
Lemma pack_Is_ok zs : Forall is_u32 zs -> pack_Is (map VInt zs) = Ok (List.concat (map u32le zs)).
Proof.
  induction 1 as [|z zs H F IH]; [reflexivity|]. cbn [map pack_Is pack_I]. unfold pack_u, is_u32 in *.
  rewrite pow256_4. replace (_ && _) with true by lia. cbn [rbind]. rewrite IH. cbn [rbind List.concat].
  rewrite u32le_enc. reflexivity.
Qed.

(** the undisturbed request *)
Definition ready (c : nat) (w : world) : Prop :=
  w_proto w = Some c /\ connected c w = true /\ c_closing (get_conn c w) = false /\ c_open (get_conn c w) = true.
Lemma request_answered c X p mr w r rest l w1 b : 0 <= mr -> connected c w = true ->
  c_closing (get_conn c w) = false -> c_open (get_conn c w) = true ->
  (exists m, makeMessage 0 X p = Ok m) -> w_env w = r :: rest -> interfere r (set_env rest w) = (l, w1) ->
  answer_of r = Some (X + 1, b) ->
  make_request c X p mr w = (Send c X p :: AwaitReply c 2000 :: Got r :: l, w1, Val (Some b)).
Proof.
  intros M C G O (m & P) E I A. apply judge_answer in A.
  destruct (make_request c X p mr w) as [[t w'] o] eqn:Q. apply request_run in Q.
  assert (N : Z.to_nat (mr + 1) <> 0%nat) by lia. destruct (Z.to_nat (mr + 1)) as [|n]; [congruence|].
  assert (S1 : sent c X p w = [Send c X p]) by (unfold sent; rewrite O; reflexivity).
  inversion Q; subst; try congruence;
  match goal with W : w_env w = ?a :: ?b |- _ => rewrite E in W; injection W as <- <- end;
  match goal with J : interfere r (set_env rest w) = _ |- _ => rewrite I in J; injection J as <- <- end; try congruence.
  rewrite A in *. subst o. rewrite S1. reflexivity.
Qed.

Lemma ready_connect c w n x : ready c w -> async_connect (S n) x w = ([], w, Val true).
Proof. intros (P & C & _). cbn [async_connect]. rewrite bind_get. unfold is_connected. rewrite P, C. reflexivity. Qed.

Lemma ready_command {A} c w n (method : Z -> nat -> M A) delay t w1 a : ready c w ->
  method (w_retries w) c w = (t, w1, Val a) -> command (S n) method delay w = (t, w1, Val a).
Proof.
  intros K E. unfold command, connected_request. rewrite bind_get. unfold mcatch, attempt_request.
  rewrite (bind_val _ _ _ _ _ _ (ready_connect c w n no_args K)). cbn [negb].
  unfold proto_or_fail. rewrite bind_assoc, bind_get. destruct K as (P & _). rewrite P. rewrite bind_ret. rewrite E. reflexivity.
Qed.
Lemma ready_command_request c w n X pl b delay r rest l w1 : ready c w -> 0 <= w_retries w ->
  pl = Ok b -> (exists m, makeMessage 0 X b = Ok m) ->
  w_env w = r :: rest -> interfere r (set_env rest w) = (l, w1) -> answer_of r = Some (X + 1, []) ->
  command (S n) (command_request X pl) delay w = (Send c X b :: AwaitReply c 2000 :: Got r :: l, w1, Val tt).
Proof.
  intros K M -> P E I A. eapply ready_command; [exact K|]. unfold command_request. cbn [mlift]. rewrite bind_ret.
  destruct K as (_ & C & G & O).
  rewrite (bind_val _ _ _ _ _ _ (request_answered c X b (w_retries w) w r rest l w1 [] M C G O P E I A)).
  cbn [mret]. rewrite app_nil_r. reflexivity.
Qed.
Lemma small_message X b : is_u16 X -> zlen b < 4294967296 -> exists m, makeMessage 0 X b = Ok m.
Proof. intros H L. rewrite makeMessage_spec. unfold is_u16 in H. replace (_ && _) with true by lia. eauto. Qed.

(** sections *)
Lemma contains_int z m : contains (VInt z) m = Ok (din (KI z) m).
Proof.
  unfold contains. f_equal. unfold din. induction m as [|[k v] m IH]; cbn [existsb dget fst]; [reflexivity|].
  destruct k as [s|y]; cbn [eq_key num_eqb key_eqb]; [exact IH|]. destruct (z =? y); [reflexivity|exact IH].
Qed.
Lemma in_section_int s z d b : in_section s (VInt z) d = Ok b -> (b = true <-> listed d s z).
Proof.
  unfold in_section, listed. destruct (dget s d) as [[]|] eqn:E; try discriminate. rewrite contains_int. intros H. injection H as <-.
  unfold din. split.
  - destruct (dget (KI z) d0) as [v|] eqn:F; [|discriminate]. intros _. exists d0, v. rewrite !entry_dget. auto.
  - intros (m & v & H1 & H2). apply entry_dget in H1, H2. rewrite E in H1. injection H1 as <-. rewrite H2. reflexivity.
Qed.
Lemma in_section_listed s z d : listed d s z -> in_section s (VInt z) d = Ok true.
Proof.
  intros (m & v & H1 & H2). apply entry_dget in H1, H2. unfold in_section. rewrite H1, contains_int. unfold din. rewrite H2. reflexivity.
Qed.

Lemma require_inv {B} b (k : unit -> M B) w t w' o : mbind (require b) k w = (t, w', o) ->
  (b = Ok true /\ k tt w = (t, w', o)) \/ (t = [] /\ w' = w /\ exists e, o = Exc e /\ (b = Err e \/ (b = Ok false /\ e = EValue))).
Proof.
  unfold require. rewrite bind_assoc. destruct b as [[]|e]; cbn [mlift].
  - rewrite bind_ret, bind_ret. auto.
  - rewrite bind_ret, bind_raise. intros H. injection H as <- <- <-. right. repeat split; eauto.
  - rewrite bind_raise. intros H. injection H as <- <- <-. right. repeat split; eauto.
Qed.
Lemma require_true {B} (k : unit -> M B) w : mbind (require (Ok true)) k w = k tt w.
Proof. unfold require. rewrite bind_assoc. cbn [mlift]. rewrite bind_ret, bind_ret. reflexivity. Qed.
Lemma require_bad {B} b (k : unit -> M B) w : b <> Ok true ->
  mbind (require b) k w = ([], w, Exc (match b with Err e => e | Ok _ => EValue end)).
Proof.
  intros N. unfold require. rewrite bind_assoc. destruct b as [[]|e]; cbn [mlift]; [congruence|..].
  - rewrite bind_ret, bind_raise. reflexivity.
  - rewrite bind_raise. reflexivity.
Qed.
