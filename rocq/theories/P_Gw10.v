(** The recursion of async_connect: fuel. *)
From Verif Require Import Py F64 Struct Utf Utility Const Spec Enum Decode World Request Gateway Traces Paths Api P_Base P_Util P_Monad P_Request P_Sat P_Paths P_Gw1 P_Gw6 P_Gw7 P_Calm P_Gw8 P_Gw9.
Open Scope m_scope.

(** [c2] does what [c1] does whenever [c1] does not run out of fuel *)
Definition refines {A} (c1 c2 : M A) : Prop := forall w t w' o, c1 w = (t, w', o) -> o <> Stuck Fuel -> c2 w = (t, w', o).
Lemma ref_refl {A} (m : M A) : refines m m. Proof. intros w t w' o E _. exact E. Qed.
Lemma ref_bind {A B} (m m' : M A) (f f' : A -> M B) : refines m m' -> (forall a, refines (f a) (f' a)) -> refines (mbind m f) (mbind m' f').
Proof.
  intros Hm Hf w t w' o E N. unfold mbind in *. destruct (m w) as [[t1 w1] o1] eqn:E1. destruct o1 as [a|e|y].
  - rewrite (Hm _ _ _ _ E1) by discriminate. destruct (f a w1) as [[t2 w2] o2] eqn:E2. injection E as <- <- <-.
    rewrite (Hf _ _ _ _ _ E2) by congruence. reflexivity.
  - injection E as <- <- <-. rewrite (Hm _ _ _ _ E1) by discriminate. reflexivity.
  - injection E as <- <- <-. rewrite (Hm _ _ _ _ E1) by congruence. reflexivity.
Qed.
Lemma ref_catch {A} (m m' : M A) p h h' : refines m m' -> (forall e, refines (h e) (h' e)) -> refines (mcatch m p h) (mcatch m' p h').
Proof.
  intros Hm Hf w t w' o E N. unfold mcatch in *. destruct (m w) as [[t1 w1] o1] eqn:E1. destruct o1 as [a|e|y].
  - injection E as <- <- <-. rewrite (Hm _ _ _ _ E1) by discriminate. reflexivity.
  - rewrite (Hm _ _ _ _ E1) by discriminate. destruct (p e); [|exact E].
    destruct (h e w1) as [[t2 w2] o2] eqn:E2. injection E as <- <- <-.
    rewrite (Hf _ _ _ _ _ E2) by congruence. reflexivity.
  - injection E as <- <- <-. rewrite (Hm _ _ _ _ E1) by congruence. reflexivity.
Qed.
Lemma ref_finally {A} (m m' : M A) f : refines m m' -> refines (mfinally m f) (mfinally m' f).
Proof.
  intros Hm w t w' o E N. unfold mfinally in *. destruct (m w) as [[t1 w1] o1] eqn:E1. rewrite (Hm _ _ _ _ E1).
  - destruct o1; exact E.
  - intros ->. injection E as <- <- <-. congruence.
Qed.
Section Ref.
Variables (c1 c2 : M bool) (H : refines c1 c2).
Lemma ref_attempt {A} (method : Z -> nat -> M A) mr : refines (attempt_request c1 method mr) (attempt_request c2 method mr).
Proof. unfold attempt_request. apply ref_bind; [exact H|]. intros; apply ref_refl. Qed.
Lemma ref_connected {A} (method : Z -> nat -> M A) delay : refines (connected_request c1 method delay) (connected_request c2 method delay).
Proof.
  unfold connected_request. apply ref_bind; [apply ref_refl|]. intros mr. apply ref_catch; [apply ref_attempt|].
  intros e. apply ref_bind; [apply ref_refl|]. intros _. apply ref_bind; [apply ref_refl|]. intros _. apply ref_attempt.
Qed.
Lemma ref_subscribe : refines (subscribe_gateway c1) (subscribe_gateway c2).
Proof.
  unfold subscribe_gateway. apply ref_bind; [apply ref_refl|]. intros a. destruct (negb a); [apply ref_refl|].
  unfold with_lock. apply ref_bind; [apply ref_refl|]. intros l. destruct l; [apply ref_refl|].
  apply ref_bind; [apply ref_refl|]. intros _. apply ref_finally. apply ref_bind; [apply ref_refl|]. intros b.
  destruct (negb b); [|apply ref_refl]. apply ref_bind; [apply ref_refl|]. intros id. apply ref_bind; [apply ref_connected|].
  intros; apply ref_refl.
Qed.
Lemma ref_attach c mr : refines (attach c1 c mr) (attach c2 c mr).
Proof.
  unfold attach. apply ref_bind; [apply ref_refl|]. intros _. apply ref_bind; [apply ref_refl|]. intros need.
  destruct need; [|apply ref_refl]. apply ref_bind; [apply ref_refl|]. intros _. apply ref_bind; [apply ref_refl|]. intros _. apply ref_subscribe.
Qed.
Lemma ref_poll k method : refines (poll c1 k method) (poll c2 k method).
Proof. unfold poll. apply ref_bind; [apply ref_connected|]. intros; apply ref_refl. Qed.
End Ref.

Definition connect_body (connect : M bool) (x : connect_args) : M bool :=
  up <- mget is_connected ;;
  if up then mret true
  else
    mput (store_args x) ;;;
    no <- mget no_address ;;
    if no then mraise ESLError
    else
      ip <- mget (fun w => a_ip (w_addr w)) ;;
      port <- mget (fun w => a_port (w_addr w)) ;;
      mr <- mget w_retries ;;
      pkg <- connect_to_gateway ip port mr ;;
      match pkg with
      | None => mret false
      | Some (c, mac) =>
          mput (store_connection c mac) ;;;
          mr1 <- mget w_retries ;;
          v <- request_gateway_version mr1 c ;;
          mput (fun w => set_last (dset K_VERSION (match v with Some b => VBytes b | None => VNone end) (w_last w)) w) ;;;
          d <- mget w_data ;;
          if truthy (version d) then
            poll connect K_CONFIG request_pool_config ;;;
            c2 <- proto_or_fail ;;
            mr2 <- mget w_retries ;;
            attach connect c2 mr2 ;;;
            mret true
          else mret false
      end.
Lemma connect_S n x : async_connect (S n) x = connect_body (async_connect n no_args) x.
Proof. reflexivity. Qed.

Lemma fuel_step n : forall x, refines (async_connect n x) (async_connect (S n) x).
Proof.
  induction n as [|n IH]; intros x.
  - intros w t w' o E N. injection E as <- <- <-. congruence.
  - rewrite (connect_S n), (connect_S (S n)). unfold connect_body.
    apply ref_bind; [apply ref_refl|]. intros up. destruct up; [apply ref_refl|].
    apply ref_bind; [apply ref_refl|]. intros _. apply ref_bind; [apply ref_refl|]. intros no. destruct no; [apply ref_refl|].
    apply ref_bind; [apply ref_refl|]. intros ip. apply ref_bind; [apply ref_refl|]. intros port. apply ref_bind; [apply ref_refl|]. intros mr.
    apply ref_bind; [apply ref_refl|]. intros [[c mac]|]; [|apply ref_refl].
    apply ref_bind; [apply ref_refl|]. intros _. apply ref_bind; [apply ref_refl|]. intros mr1. apply ref_bind; [apply ref_refl|]. intros v.
    apply ref_bind; [apply ref_refl|]. intros _. apply ref_bind; [apply ref_refl|]. intros d. destruct (truthy (version d)); [|apply ref_refl].
    apply ref_bind; [apply ref_poll, IH|]. intros _. apply ref_bind; [apply ref_refl|]. intros c2. apply ref_bind; [apply ref_refl|]. intros mr2.
    apply ref_bind; [apply ref_attach, IH|]. intros _. apply ref_refl.
Qed.
Lemma fuel_more n m x w t w' o : (n <= m)%nat -> async_connect n x w = (t, w', o) -> o <> Stuck Fuel -> async_connect m x w = (t, w', o).
Proof.
  intros L. induction L as [|m L IH]; intros E N; [exact E|]. apply fuel_step; auto.
Qed.

Lemma granted_app a b : (granted a + granted b <= granted (a ++ b))%nat.
Proof.
  induction a as [|e a IH]; [cbn; lia|]. cbn [app].
  assert (K : granted (e :: a) = (granted a + match e, a with Open _ _ _, Got r :: _ => match r_kind r with KDone => 1 | _ => 0 end | _, _ => 0 end)%nat).
  { cbn [granted]. destruct e; try lia. destruct a as [|[]]; try lia. destruct (r_kind r); lia. }
  assert (K2 : granted (e :: a ++ b) = (granted (a ++ b) + match e, a ++ b with Open _ _ _, Got r :: _ => match r_kind r with KDone => 1 | _ => 0 end | _, _ => 0 end)%nat).
  { cbn [granted]. destruct e; try lia. destruct (a ++ b) as [|[]]; try lia. destruct (r_kind r); lia. }
  rewrite K, K2. clear K K2. destruct e; try lia. destruct a as [|e2 a2]; [cbn [app granted] in *; lia|]. cbn [app] in *. destruct e2; lia.
Qed.

Definition fuels (k : nat) {A} (m : M A) : Prop := forall w t w', m w = (t, w', Stuck Fuel) -> (k <= granted t)%nat.
Lemma fu_bind k {A B} (m : M A) (f : A -> M B) : fuels k m -> (forall a, fuels k (f a)) -> fuels k (mbind m f).
Proof.
  intros Hm Hf w t w' E. apply bind_inv in E. destruct E as [(t1 & w1 & a & t2 & E1 & E2 & ->)|[(e & E1 & X)|(y & E1 & X)]].
  - apply Hf in E2. pose proof (granted_app t1 t2). lia.
  - discriminate.
  - injection X as <-. eapply Hm; exact E1.
Qed.
Lemma fu_catch k {A} (m : M A) p h : fuels k m -> (forall e, fuels k (h e)) -> fuels k (mcatch m p h).
Proof.
  intros Hm Hf w t w' E. unfold mcatch in E. destruct (m w) as [[t1 w1] [a|e|y]] eqn:E1.
  - discriminate.
  - destruct (p e); [|discriminate]. destruct (h e w1) as [[t2 w2] o2] eqn:E2. injection E as <- <- ->.
    apply Hf in E2. pose proof (granted_app t1 t2). lia.
  - injection E as <- <- ->. eapply Hm; exact E1.
Qed.
Lemma fu_finally k {A} (m : M A) f : fuels k m -> fuels k (mfinally m f).
Proof.
  intros Hm w t w' E. unfold mfinally in E. destruct (m w) as [[t1 w1] [a|e|y]] eqn:E1; try discriminate.
  injection E as <- <- ->. eapply Hm; exact E1.
Qed.
Lemma fu_ret k {A} (a : A) : fuels k (mret a). Proof. intros w t w' E. discriminate. Qed.
Lemma fu_raise k {A} e : fuels k (@mraise A e). Proof. intros w t w' E. discriminate. Qed.
Lemma fu_stuck k {A} y : y <> Fuel -> fuels k (@mstuck A y). Proof. intros N w t w' E. injection E as _ _ E. congruence. Qed.
Lemma fu_get k {A} (f : world -> A) : fuels k (mget f). Proof. intros w t w' E. discriminate. Qed.
Lemma fu_put k f : fuels k (mput f). Proof. intros w t w' E. discriminate. Qed.
Lemma fu_emit k e : fuels k (memit e). Proof. intros w t w' E. discriminate. Qed.
Lemma fu_lift k {A} (r : res A) : fuels k (mlift r). Proof. destruct r; [apply fu_ret|apply fu_raise]. Qed.
Lemma fu_decode k m : fuels k (mdecode m).
Proof. intros w t w' E. unfold mdecode in E. destruct (m (w_data w)) as [d []]; discriminate. Qed.
Lemma fu_ask k e pre : fuels k (ask e pre).
Proof. intros w t w' E. unfold ask in E. destruct (w_env w); [discriminate|]. destruct (interfere _ _). discriminate. Qed.
Lemma fu_lose k c : fuels k (fun w => let '(t, w') := lose c w in (t, w', Val tt)).
Proof. intros w t w' E. destruct (lose c w). discriminate. Qed.
Ltac fu := repeat first
  [ apply fu_bind; [|intros ?] | apply fu_ret | apply fu_raise | apply fu_get | apply fu_put | apply fu_emit | apply fu_lift
  | apply fu_decode | apply fu_ask | apply fu_lose | (apply fu_stuck; discriminate)
  | (apply fu_catch; [|intros ?]) | apply fu_finally
  | match goal with
    | |- fuels _ (if ?c then _ else _) => destruct c
    | |- fuels _ (match ?x with _ => _ end) => destruct x
    end ].
Lemma fu_sleep k ms : fuels k (msleep ms).
Proof. unfold msleep. fu. Qed.
Lemma fu_loop k n : forall a mr c code p, fuels k (request_loop n a mr c code p).
Proof.
  induction n as [|n IH]; intros; cbn [request_loop]; [apply fu_ret|]. unfold send. cbv zeta.
  fu; try apply fu_sleep; try apply IH.
Qed.
Lemma fu_request k c code p mr : fuels k (make_request c code p mr). Proof. apply fu_loop. Qed.
Lemma fu_data k code p dec mr c : fuels k (data_request code p dec mr c).
Proof. unfold data_request. apply fu_bind; [apply fu_request|]. intros r. fu. Qed.
Lemma fu_version k mr c : fuels k (request_gateway_version mr c).
Proof. unfold request_gateway_version. apply fu_bind; [apply fu_get|]. intros. apply fu_data. Qed.
Lemma fu_command k code pl mr c : fuels k (command_request code pl mr c).
Proof. unfold command_request. apply fu_bind; [apply fu_lift|]. intros p. apply fu_bind; [apply fu_request|]. intros r. fu. Qed.
Lemma fu_mproto k : fuels k m_proto_or_fail. Proof. unfold m_proto_or_fail. fu. Qed.
Lemma fu_proto k : fuels k proto_or_fail. Proof. unfold proto_or_fail. fu. Qed.
Lemma fu_close k c force : fuels k (async_close c force).
Proof. unfold async_close. fu. Qed.
Lemma fu_remove k : fuels k remove_client.
Proof. unfold remove_client. apply fu_catch; [|intros; apply fu_ret]. apply fu_bind; [apply fu_mproto|]. intros c. apply fu_bind; [apply fu_get|]. intros. apply fu_command. Qed.
Lemma fu_disconnect k force : fuels k (async_disconnect force).
Proof.
  unfold async_disconnect. apply fu_bind; [apply fu_get|]. intros b. apply fu_bind.
  - destruct b; [|apply fu_ret]. unfold unsubscribe_gateway, with_lock. apply fu_bind; [apply fu_get|]. intros a.
    destruct (negb a); [apply fu_ret|]. apply fu_bind; [apply fu_get|]. intros l. destruct l; [apply fu_stuck; discriminate|].
    apply fu_bind; [apply fu_put|]. intros _. apply fu_finally. apply fu_bind; [apply fu_get|]. intros c. destruct c; [|apply fu_ret].
    apply fu_bind; [apply fu_put|]. intros _. apply fu_bind; [apply fu_mproto|]. intros c. fu.
  - intros _. apply fu_bind; [apply fu_proto|]. intros c. apply fu_close.
Qed.
Section Fu.
Variables (k : nat) (connect : M bool) (H : fuels k connect).
Lemma fu_attempt {A} (method : Z -> nat -> M A) mr : (forall mr c, fuels k (method mr c)) -> fuels k (attempt_request connect method mr).
Proof. intros K. unfold attempt_request. apply fu_bind; [exact H|]. intros b. destruct (negb b); [apply fu_raise|]. apply fu_bind; [apply fu_proto|]. intros; apply K. Qed.
Lemma fu_connected {A} (method : Z -> nat -> M A) delay : (forall mr c, fuels k (method mr c)) -> fuels k (connected_request connect method delay).
Proof.
  intros K. unfold connected_request. apply fu_bind; [apply fu_get|]. intros mr. apply fu_catch; [apply fu_attempt, K|].
  intros e. apply fu_bind; [apply fu_disconnect|]. intros _. apply fu_bind; [apply fu_sleep|]. intros _. apply fu_attempt, K.
Qed.
Lemma fu_poll key method : (forall mr c, fuels k (method mr c)) -> fuels k (poll connect key method).
Proof. intros K. unfold poll. apply fu_bind; [apply fu_connected, K|]. intros r. fu. Qed.
Lemma fu_attach c mr : fuels k (attach connect c mr).
Proof.
  unfold attach. apply fu_bind; [apply fu_put|]. intros _. apply fu_bind; [apply fu_get|]. intros need. destruct need; [|apply fu_ret].
  apply fu_bind; [apply fu_put|]. intros _. apply fu_bind; [apply fu_put|]. intros _.
  unfold subscribe_gateway, with_lock. apply fu_bind; [apply fu_get|]. intros a. destruct (negb a); [apply fu_ret|].
  apply fu_bind; [apply fu_get|]. intros l. destruct l; [apply fu_stuck; discriminate|].
  apply fu_bind; [apply fu_put|]. intros _. apply fu_finally. apply fu_bind; [apply fu_get|]. intros b. destruct (negb b); [|apply fu_ret].
  apply fu_bind; [apply fu_get|]. intros id. apply fu_bind; [apply fu_connected; intros; apply fu_command|]. intros _.
  apply fu_bind; [apply fu_put|]. intros _. apply fu_bind; [apply fu_mproto|]. intros; apply fu_put.
Qed.
End Fu.

Lemma connect_to_granted ip port mr w t w' p : connect_to_gateway ip port mr w = (t, w', Val p) -> (1 <= granted t)%nat.
Proof.
  unfold connect_to_gateway. intros E. apply bind_inv in E.
  destruct E as [(t1 & w1 & a & t2 & E1 & E2 & ->)|[(e & E1 & X)|(y & E1 & X)]]; try discriminate.
  pose proof (granted_app t1 t2). enough (1 <= granted t1)%nat by lia. clear - E1.
  unfold create_connection in E1. rewrite bind_get in E1. unfold mbind, ask in E1. destruct (w_env w) as [|r rest]; [discriminate|].
  destruct (interfere _ _) as [l w2]. destruct (r_kind r) eqn:K; try discriminate. injection E1 as <- <- <-.
  rewrite app_nil_r. cbn [granted]. rewrite K. lia.
Qed.
Lemma fu_connect_to k ip port mr : fuels k (connect_to_gateway ip port mr).
Proof.
  unfold connect_to_gateway. apply fu_bind.
  - unfold create_connection. fu.
  - intros c. apply fu_bind.
    + unfold gateway_connect. apply fu_bind; [apply fu_get|]. intros. apply fu_bind; [fu|]. intros. apply fu_bind; [apply fu_sleep|]. intros.
      apply fu_bind; [apply fu_get|]. intros b. destruct (negb b); [apply fu_raise|]. apply fu_bind; [apply fu_request|]. intros. fu.
    + intros mac. apply fu_bind; [|intros; apply fu_ret]. unfold gateway_login. apply fu_bind; [apply fu_lift|]. intros.
      apply fu_bind; [apply fu_request|]. intros; apply fu_ret.
Qed.
Lemma connect_fuels n : forall x, fuels n (async_connect n x).
Proof.
  induction n as [|n IH]; intros x; [intros w t w' _; lia|]. cbn [async_connect].
  apply fu_bind; [apply fu_get|]. intros up. destruct up; [apply fu_ret|]. apply fu_bind; [apply fu_put|]. intros _.
  apply fu_bind; [apply fu_get|]. intros no. destruct no; [apply fu_raise|].
  apply fu_bind; [apply fu_get|]. intros ip. apply fu_bind; [apply fu_get|]. intros port. apply fu_bind; [apply fu_get|]. intros mr.
  intros w t w' E. apply bind_inv in E. destruct E as [(t1 & w1 & a & t2 & E1 & E2 & ->)|[(e & E1 & X)|(y & E1 & X)]].
  - apply connect_to_granted in E1. pose proof (granted_app t1 t2). enough (n <= granted t2)%nat by lia. revert E2.
    refine ((_ : fuels n _) _ _ _). destruct a as [[c mac]|]; [|apply fu_ret].
    apply fu_bind; [apply fu_put|]. intros _. apply fu_bind; [apply fu_get|]. intros mr1. apply fu_bind; [apply fu_version|]. intros v.
    apply fu_bind; [apply fu_put|]. intros _. apply fu_bind; [apply fu_get|]. intros d. destruct (truthy (version d)); [|apply fu_ret].
    apply fu_bind; [apply fu_poll; [apply IH|intros; apply fu_data]|]. intros _.
    apply fu_bind; [apply fu_proto|]. intros c2. apply fu_bind; [apply fu_get|]. intros mr2.
    apply fu_bind; [apply fu_attach, IH|]. intros _. apply fu_ret.
  - discriminate.
  - injection X as <-. eapply fu_connect_to; exact E1.
Qed.

(** the script is used up, one response for each wait *)
Definition gots (t : trace) : nat := List.length (filter (fun e => match e with Got _ => true | _ => false end) t).
Lemma gots_app a b : gots (a ++ b) = (gots a + gots b)%nat.
Proof. unfold gots. rewrite filter_app, app_length. reflexivity. Qed.
Lemma gots_losses l : only_losses l -> gots l = 0%nat.
Proof. unfold gots. induction 1 as [|e l H F IH]; [reflexivity|]. destruct e; try contradiction; exact IH. Qed.
Lemma granted_gots t : (granted t <= gots t)%nat.
Proof.
  enough (G : (granted t <= gots t)%nat /\ forall r t', t = Got r :: t' -> (S (granted t) <= gots t)%nat) by apply G.
  induction t as [|e t [IH1 IH2]]; [split; [cbn; lia|discriminate]|]. 
  assert (K : gots (e :: t) = (gots t + match e with Got _ => 1 | _ => 0 end)%nat).
  { change (e :: t) with ([e] ++ t). rewrite gots_app. destruct e; cbn; lia. }
  assert (K2 : granted (e :: t) = (granted t + match e, t with Open _ _ _, Got r :: _ => match r_kind r with KDone => 1 | _ => 0 end | _, _ => 0 end)%nat).
  { cbn [granted]. destruct e; try lia. destruct t as [|[]]; try lia. destruct (r_kind r); lia. }
  rewrite K, K2. split.
  - destruct e; try lia. destruct t as [|[]]; try lia. specialize (IH2 _ _ eq_refl). destruct (r_kind r); lia.
  - intros r t' E. injection E as -> ->. cbn. lia.
Qed.
Definition spent : wrel := fun w t w' => List.length (w_env w) = (List.length (w_env w') + gots t)%nat.
Lemma opened_env r w : w_env (opened r w) = w_env w.
Proof. unfold opened. destruct (r_kind r); reflexivity. Qed.
Lemma spent_closed : closed anything spent.
Proof.
  constructor; unfold spent; try (intros; cbn; lia).
  - intros w t1 w1 t2 w2 A B. rewrite gots_app. lia.
  - intros w e E P. destruct e; try contradiction; cbn; lia.
  - intros w e r rest l w1 E P I. pose proof (interfere_only _ _ _ _ I) as L. rewrite (interfere_env _ _ _ _ I), E. cbn [set_env w_env].
    change (e :: Got r :: l) with ([e; Got r] ++ l). rewrite gots_app, (gots_losses _ L). destruct e; try contradiction; cbn; lia.
  - intros w r rest l w1 E I. pose proof (interfere_only _ _ _ _ I) as L. rewrite (interfere_env _ _ _ _ I), opened_env, E. cbn [set_env w_env].
    change (Open (a_ip (w_addr w)) (a_port (w_addr w)) 2000 :: Got r :: l) with ([Open (a_ip (w_addr w)) (a_port (w_addr w)) 2000; Got r] ++ l).
    rewrite gots_app, (gots_losses _ L). cbn. lia.
  - intros w c l w1 L. pose proof (lose_only _ _ _ _ L) as O. apply lose_fields in L. destruct L as (_ & _ & _ & _ & _ & _ & _ & L & _).
    rewrite L, (gots_losses _ O). lia.
Qed.
Lemma args_spent x w : spent w [] (store_args x w).
Proof. unfold spent. cbn. lia. Qed.
Lemma connect_ends n x w t w' o : async_connect n x w = (t, w', o) -> (List.length (w_env w) < n)%nat -> o <> Stuck Fuel.
Proof.
  intros E L ->. assert (S1 : spent w t w').
  { eapply sat_connect_args in E; [exact E|apply spent_closed|..]; try (intros; exact Logic.I). apply args_spent. }
  apply connect_fuels in E. pose proof (granted_gots t). unfold spent in S1. lia.
Qed.
