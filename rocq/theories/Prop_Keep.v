(** C123: what the client manager does by itself, while other calls run: keepalive pings, the task
    that unregisters the client, and the functions that end a subscription. *)
From Verif Require Import Py F64 Struct Utf Utility Const Spec Enum Decode Messages Calls World Request Gateway Traces Paths Api Tasks Pool SpecPool SpecKeep
  P_Base P_Pool P_Moves P_Path P_Tune Hostile Prop_Request Prop_Gateway Prop_Connect Prop_Pool.
From Verif Require P_Gw1 P_Gw11.

Lemma ran_within n id mr rnd h es P : ran n id mr rnd h es = Some P -> within P.
Proof. unfold ran. destruct (new_gateway id mr rnd [] h) as [w|]; [|discriminate]. intros E. injection E as <-. apply within_run. intros i e []. Qed.
Lemma ran_id n id mr rnd h es P : ran n id mr rnd h es = Some P -> m_id (w_cm (p_world P)) = over id rnd.
Proof.
  intros R. assert (K : forall w, new_gateway id mr rnd [] h = Ok w -> m_id (w_cm w) = over id rnd) by (unfold new_gateway; destruct (_ && _); [|discriminate]; intros w E; injection E as <-; reflexivity).
  unfold ran in R. destruct (new_gateway id mr rnd [] h) as [w|] eqn:N; [|discriminate]. injection R as <-. rewrite <- (K _ eq_refl).
  assert (KI : keeps (fun a b => m_id (w_cm b) = m_id (w_cm a))).
  { split; [reflexivity|]. split; [congruence|]. split.
    - intros f w0 P. destruct P; cbn [snd]; try reflexivity.
      + apply H.
      + generalize (codes w0). intros l. revert w0. induction l as [|x l IH]; intros w0; cbn [fold_left]; [reflexivity|]. rewrite IH. reflexivity.
      + unfold lose. destruct (connected c w0); reflexivity.
      + destruct (f w0); reflexivity.
      + unfold store_pump. destruct (dget K_PUMPS (w_last w0)) as [[]|]; reflexivity.
    - repeat split. }
  exact (proj1 (prun_made _ KI n es (start w) (start_made w))).
Qed.

(** A keepalive ping sends one ping message, at most, on the client manager's connection, waits
    once for the answer, and never raises, whatever the answer is and whatever else runs. *)
Theorem C123_ping n id mr rnd h ea eb P0 P c : ran n id mr rnd h ea = Some P0 -> m_proto (w_cm (p_world P0)) = Some c ->
  ran n id mr rnd h (ea ++ Pool.Call Ping :: eb) = Some P ->
  let i := List.length (p_tasks P0) in
  asked_once c 16 [] (own i (p_log P)) /\
  (nth_error (p_tasks P) i = Some (Done (Val tt)) \/ exists k t, nth_error (p_tasks P) i = Some (Wait (AwaitReply c 2000) k) /\ own i (p_log P) = t ++ [AwaitReply c 2000]).
Proof.
  intros R0 PR R. cbv zeta. rewrite (ran_app _ _ _ _ _ _ _ _ R0) in R. injection R as <-.
  destruct (call_path n (over id rnd) P0 Ping eb) as (m & N & T); [eapply ran_within, R0|eapply ran_made, R0|split; [congruence|eapply ran_id, R0]|].
  pose proof (ping_path _ _ _ _ PR _ _ T) as [(-> & S & _)|(s & k & Hs & E & -> & _)]; [auto|]. split; [|right; exists k, s; auto].
  right. exists s. auto.
Qed.
Print Assumptions C123_ping.

(** The task that unregisters the client sends one remove-client message, at most, waits once for
    the answer (and for the lock, before), and never raises, unless it is cancelled while it waits
    for the lock: then it sends nothing. *)
Theorem C123_unregister n id mr rnd h ea eb P0 P : ran n id mr rnd h ea = Some P0 -> m_proto (w_cm (p_world P0)) <> None -> is_u32 (over id rnd) ->
  ran n id mr rnd h (ea ++ Pool.Call Unregister :: eb) = Some P ->
  let i := List.length (p_tasks P0) in
  (nth_error (p_tasks P) i = Some (Done (Exc ECancelled)) /\ exists r, r_kind r = KCancelTask /\ own i (p_log P) = [Got r]) \/
  exists c, asked_once c 12524 (u32le 0 ++ u32le (over id rnd)) (own i (p_log P)) /\
  (nth_error (p_tasks P) i = Some (Done (Val tt)) \/ (exists k x, nth_error (p_tasks P) i = Some (Lock k x) /\ own i (p_log P) = []) \/
   exists k t, nth_error (p_tasks P) i = Some (Wait (AwaitReply c 2000) k) /\ own i (p_log P) = t ++ [AwaitReply c 2000]).
Proof.
  intros R0 PR HI R. cbv zeta. rewrite (ran_app _ _ _ _ _ _ _ _ R0) in R. injection R as <-.
  destruct (call_path n (over id rnd) P0 Unregister eb) as (m & N & T); [eapply ran_within, R0|eapply ran_made, R0|split; [congruence|eapply ran_id, R0]|].
  assert (PK : pack_Is [VInt 0; VInt (over id rnd)] = Ok (u32le 0 ++ u32le (over id rnd))).
  { change [VInt 0; VInt (over id rnd)] with (map VInt [0; over id rnd]). rewrite (P_Gw1.pack_Is_ok [0; over id rnd]); [cbn [map List.concat]; rewrite app_nil_r; reflexivity|]. constructor; [unfold is_u32; lia|]. constructor; [exact HI|constructor]. }
  destruct (unregister_path n (over id rnd) (p_world P0) _ PK) with (t := own (List.length (p_tasks P0)) (p_log (prun n P0 (Pool.Call Unregister :: eb)))) (m := m) as [(E & k & -> & _)|[(-> & r & K & E)|(c & [(-> & S & _)|(s & k & Hs & E & -> & _)])]].
  - eapply P_Gw11.pack2_small; [|exact PK]. unfold is_u16. lia.
  - split; [exact PR|eapply ran_id, R0].
  - exact T.
  - right. exists 0%nat. split; [left; exact E|]. right. left. exists k. eexists. split; [exact N|exact E].
  - left. split; [exact N|]. exists r. auto.
  - right. exists c. auto.
  - right. exists c. split; [right; exists s; auto|]. right. right. exists k, s. auto.
Qed.
Print Assumptions C123_unregister.

(** the table of listeners has one set for a code *)
Definition orderly (w : world) : Prop := NoDup (map fst (m_listeners (w_cm w))).
Lemma add_keys code cb l : map fst (add_listener code cb l) = map fst l \/ (~ In code (map fst l) /\ map fst (add_listener code cb l) = map fst l ++ [code]).
Proof.
  induction l as [|(k, s) l IH]; cbn [add_listener map fst In]; [right; auto|]. destruct (Z.eqb_spec code k) as [->|N]; cbn [map fst]; [left; reflexivity|].
  destruct IH as [->|(J & ->)]; [left; reflexivity|right]. split; [intros [K|K]; [congruence|auto]|reflexivity].
Qed.
Lemma drop_keys code cb l : forall k, In k (map fst (drop_listener code cb l)) -> In k (map fst l).
Proof.
  induction l as [|(k0, s) l IH]; intros k; cbn [drop_listener map fst In]; [auto|]. destruct (Z.eqb_spec code k0) as [->|N].
  - destruct (filter _ s); cbn [map fst In]; auto.
  - cbn [map fst In]. intros [K|K]; auto.
Qed.
Lemma drop_nodup code cb l : NoDup (map fst l) -> NoDup (map fst (drop_listener code cb l)).
Proof.
  induction l as [|(k0, s) l IH]; cbn [drop_listener map fst]; [auto|]. intros D. inversion D as [|x y D1 D2]; subst. destruct (Z.eqb_spec code k0) as [->|N].
  - destruct (filter _ s); cbn [map fst]; auto.
  - cbn [map fst]. constructor; [|auto]. intros J. apply D1. eapply drop_keys, J.
Qed.
Lemma orderly_closed C : closed C (thru orderly).
Proof.
  split; [split|..]; unfold thru; try (intros; match goal with H : orderly _ |- _ => exact H end).
  - intros c w H. generalize (map fst (m_listeners (w_cm w))). intros l. revert w H. induction l as [|x l IH]; intros w H; cbn [fold_left]; [exact H|]. apply IH, H.
  - intros c w H. unfold lose. destruct (connected c w); exact H.
  - intros w H. unfold pumps_entry. destruct (din _ _); exact H.
  - intros i b w H. unfold store_pump. destruct (dget K_PUMPS (w_last w)) as [[]|]; exact H.
  - intros cb code _ w H. unfold orderly in *. cbn [put_cm set_cm w_cm cmset_listeners m_listeners] in *. destruct (add_keys code cb (m_listeners (w_cm w))) as [E|(N & E)]; rewrite E; [exact H|].
    clear - H N. induction (map fst (m_listeners (w_cm w))) as [|x l IH]; cbn [app]; [constructor; [intros []|constructor]|].
    inversion H as [|y z H1 H2]; subst. constructor; [|apply IH; [exact H2|intros J; apply N; right; exact J]]. intros J. apply in_app_or in J. destruct J as [J|[J|[]]]; [auto|]. subst. apply N. left. reflexivity.
  - intros cb code w H. unfold orderly in *. cbn [put_cm set_cm w_cm cmset_listeners m_listeners] in *. apply drop_nodup, H.
Qed.
Lemma ran_orderly n id mr rnd h es P : ran n id mr rnd h es = Some P -> orderly (p_world P).
Proof.
  unfold ran, new_gateway. destruct (_ && _); [|discriminate]. intros E. injection E as <-.
  assert (T : tuned (fun _ => orderly) (prun n (start (mkW (mkAddr None 80 0 0 (u "Unnamed-Screenlogic-Gateway") []) None None [] [] (over mr COM_MAX_RETRIES)
             (mkCM None [] false COM_MAX_RETRIES (over id rnd) false) [] [] (S754_zero false) h)) es)).
  { apply tuned_run; [intros C C' w _ H; exact H|exact orderly_closed|]. apply tuned_start; [intros C C' w _ H; exact H|]. constructor. }
  exact (proj1 T).
Qed.
Lemma has_key X x l : has_listener X x l = true -> In X (map fst l).
Proof. induction l as [|(k, s) l IH]; cbn [has_listener map fst In]; [discriminate|]. destruct (Z.eqb_spec X k); auto. Qed.
Lemma exists_filter x cb s : existsb (Nat.eqb x) (filter (fun y => negb (Nat.eqb y cb)) s) = existsb (Nat.eqb x) s && negb (Nat.eqb x cb).
Proof.
  induction s as [|y s IH]; [reflexivity|]. cbn [filter existsb]. destruct (Nat.eqb_spec y cb) as [->|N]; cbn [negb existsb]; rewrite IH.
  - destruct (Nat.eqb x cb); cbn; [|reflexivity]. rewrite andb_false_r. reflexivity.
  - destruct (Nat.eqb_spec x y) as [->|M]; cbn [orb]; [|reflexivity]. replace (Nat.eqb y cb) with false by (symmetry; apply Nat.eqb_neq; exact N). reflexivity.
Qed.
Lemma has_drop code cb l : NoDup (map fst l) -> forall X x, has_listener X x (drop_listener code cb l) = has_listener X x l && negb ((X =? code) && Nat.eqb x cb).
Proof.
  induction l as [|(k, s) l IH]; intros D X x; [reflexivity|]. cbn [map fst] in D. inversion D as [|y z D1 D2]; subst. cbn [drop_listener has_listener].
  destruct (Z.eqb_spec code k) as [->|N].
  - pose proof (exists_filter x cb s) as F. destruct (filter _ s) as [|y f].
    + destruct (Z.eqb_spec X k) as [->|M]; cbn [andb negb].
      * rewrite <- F. cbn [existsb]. destruct (has_listener k x l) eqn:HL; [|reflexivity]. apply has_key in HL. destruct (D1 HL).
      * rewrite andb_true_r. reflexivity.
    + cbn [has_listener]. destruct (Z.eqb_spec X k) as [->|M]; cbn [andb negb]; [exact F|]. rewrite andb_true_r. reflexivity.
  - cbn [has_listener]. destruct (Z.eqb_spec X k) as [->|M]; [|apply IH, D2]. destruct (Z.eqb_spec k code); [congruence|]. cbn. rewrite andb_true_r. reflexivity.
Qed.
Lemma drop_same code cb l : has_listener code cb l = false -> forall X x, has_listener X x l = has_listener X x l && negb ((X =? code) && Nat.eqb x cb).
Proof.
  intros H X x. destruct (has_listener X x l) eqn:E; [|reflexivity]. destruct (Z.eqb_spec X code) as [->|]; [|reflexivity]. destruct (Nat.eqb_spec x cb) as [->|]; [congruence|reflexivity].
Qed.
Lemma not_listened code l : existsb (fun p => fst p =? code) l = false -> forall x : nat, has_listener code x l = false.
Proof. intros E x. destruct (has_listener code x l) eqn:H; [|reflexivity]. apply has_key in H. apply in_map_iff in H. destruct H as (p & P & J). rewrite <- E. symmetry. apply existsb_exists. exists p. split; [exact J|]. apply Z.eqb_eq, P. Qed.
Lemma filtered code (l : list (Z * handler)) X : find (fun h => fst h =? X) (filter (fun p => negb (fst p =? code)) l) = if X =? code then None else find (fun h => fst h =? X) l.
Proof.
  induction l as [|(k, h) l IH]; cbn [filter find fst]; [destruct (X =? code); reflexivity|]. destruct (Z.eqb_spec k code) as [->|N]; cbn [negb].
  - rewrite IH. destruct (Z.eqb_spec X code) as [Q|M]; [reflexivity|]. destruct (Z.eqb_spec code X); [congruence|reflexivity].
  - cbn [find fst]. destruct (Z.eqb_spec k X) as [Q|M]; [|exact IH]. subst k. destruct (Z.eqb_spec X code); [congruence|reflexivity].
Qed.
Lemma handler_unregister c code w c' X : handler_of c' X (unregister c code w) = handler_of c' X w \/ (X = code /\ c' = c /\ handler_of c' X (unregister c code w) = None).
Proof.
  unfold handler_of, unregister, upd_conn, get_conn. cbn [set_conns w_conns]. rewrite nth_lset. destruct (Nat.eqb_spec c' c) as [->|N]; [|left; reflexivity].
  destruct (Nat.ltb c (List.length (w_conns w))); [|left; reflexivity]. cbn [c_connected c_closing c_handlers]. rewrite filtered.
  destruct (c_connected _ && negb _); [|left; reflexivity]. destruct (Z.eqb_spec X code) as [->|M]; [right; auto|left; reflexivity].
Qed.

Definition dropped (cb : nat) (code : Z) (w : world) : world := put_cm (fun m => cmset_listeners (drop_listener code cb (m_listeners m)) m) w.
Definition unsubscribed (cb : nat) (code : Z) (w : world) : world :=
  if has_listener code cb (m_listeners (w_cm w))
  then if negb (listened code (dropped cb code w)) && attached (dropped cb code w)
       then match m_proto (w_cm w) with Some c => unregister c code (dropped cb code w) | None => w end
       else dropped cb code w
  else w.
Lemma remove_eq cb code w : advance (tremove_subscription cb code) w = ([], unsubscribed cb code w, Done (Val tt)).
Proof.
  unfold tremove_subscription, unsubscribed. cbn [tget tbind tret advance]. destruct (has_listener _ _ _) eqn:HL; cbn [negb tret tbind advance]; rewrite ?HL; cbn [negb].
  2: reflexivity.
  cbn [tdo tbind tret tget advance]. fold (dropped cb code w). destruct (negb (listened code (dropped cb code w)) && attached (dropped cb code w)) eqn:E; rewrite ?E; [|reflexivity].
  cbn [tm_proto_or_fail tget tbind tret advance]. change (m_proto (w_cm (dropped cb code w))) with (m_proto (w_cm w)).
  apply andb_prop in E. destruct E as (_ & E). unfold attached in E. change (m_proto (w_cm (dropped cb code w))) with (m_proto (w_cm w)) in E.
  destruct (m_proto (w_cm w)) as [c|]; [reflexivity|discriminate E].
Qed.

(** The function that ends a subscription takes effect at once: it sends nothing and returns; that
    callback is no longer called for that code, every other callback is; the messages of the code
    have no handler on the client manager's connection any more if that callback was the last one
    for it; get_data() and every other handler stay. *)
Theorem C123_unsubscribe n id mr rnd h es P cb code : ran n id mr rnd h es = Some P ->
  let w := p_world P in let P' := pstep n P (Pool.Call (Unsubscribe cb code)) in let w' := p_world P' in
  p_tasks P' = p_tasks P ++ [Done (Val tt)] /\ p_log P' = p_log P ++ [Started (List.length (p_tasks P)) (Unsubscribe cb code) (w_data w)] /\
  w_data w' = w_data w /\
  (forall X x, has_listener X x (m_listeners (w_cm w')) = has_listener X x (m_listeners (w_cm w)) && negb ((X =? code) && Nat.eqb x cb)) /\
  (forall c X, handler_of c X w' = handler_of c X w \/
     (X = code /\ m_proto (w_cm w) = Some c /\ has_listener code cb (m_listeners (w_cm w)) = true /\ handler_of c X w' = None /\ forall x, has_listener X x (m_listeners (w_cm w')) = false)).
Proof.
  intros R. cbv zeta. pose proof (ran_orderly _ _ _ _ _ _ _ R) as D. destruct P as [w ts g]. cbn [p_world p_tasks p_log] in *.
  cbn [pstep p_world p_tasks p_log tperform]. rewrite remove_eq. cbn [p_world p_tasks p_log map app]. unfold unsubscribed.
  destruct (has_listener code cb (m_listeners (w_cm w))) eqn:HL.
  2: { split; [reflexivity|]. split; [reflexivity|]. split; [reflexivity|]. split; [apply drop_same, HL|]. auto. }
  set (w1 := dropped cb code w).
  assert (L1 : m_listeners (w_cm w1) = drop_listener code cb (m_listeners (w_cm w))) by reflexivity.
  assert (H1 : forall c X, handler_of c X w1 = handler_of c X w) by reflexivity.
  destruct (negb (listened code w1) && attached w1) eqn:E.
  - apply andb_prop in E. destruct E as (E1 & E2). apply negb_true_iff in E1. unfold attached in E2.
    change (m_proto (w_cm w1)) with (m_proto (w_cm w)) in E2. destruct (m_proto (w_cm w)) as [c|] eqn:PR; [|discriminate E2].
    split; [reflexivity|]. split; [reflexivity|]. split; [reflexivity|].
    assert (L2 : m_listeners (w_cm (unregister c code w1)) = drop_listener code cb (m_listeners (w_cm w))) by reflexivity. rewrite L2.
    split; [apply has_drop, D|]. intros c' X. rewrite <- H1. destruct (handler_unregister c code w1 c' X) as [K|(-> & -> & K)]; [left; exact K|right].
    split; [reflexivity|]. split; [reflexivity|]. split; [reflexivity|]. split; [exact K|]. intros x. rewrite <- L1. apply not_listened, E1.
  - split; [reflexivity|]. split; [reflexivity|]. split; [reflexivity|]. rewrite L1. split; [apply has_drop, D|]. auto.
Qed.
Print Assumptions C123_unsubscribe.

(** a subscribed gateway; while a query waits, a ping times out, the subscription ends and the
    client is unregistered, its message being answered by an error *)
Definition kept_alive : list event := [Pool.Call (Connect to_adapter)] ++ login_of 0 ++ [Pool.Call (Subscribe 7 12500); reply 1 12523 []; Pool.Call GetStatus].
Definition leaves : list event :=
  [Pool.Call (Unsubscribe 7 12500); Pool.Call Unregister; Resume 3 KTimeout clk; reply 5 30 []; reply 2 12527 (Messages.wire_status Prop_Decode.some_status)].
Definition kept_facts (P : Pool.pool) := (m_proto (w_cm (p_world P)), m_is_client (w_cm (p_world P)), List.length (p_tasks P), has_listener 12500 7 (m_listeners (w_cm (p_world P)))).
Lemma kept_before : option_map kept_facts (ran 2 (Some 777) None 0 its_host kept_alive) = Some (Some 0%nat, true, 3%nat, true).
Proof. vm_compute. reflexivity. Qed.
Lemma kept_after : option_map (fun P => (outcomes P, skipn 5 (wire (p_log P)), m_is_client (w_cm (p_world P)), handler_of 0 12500 (p_world P)))
  (ran 2 (Some 777) None 0 its_host (kept_alive ++ Pool.Call Ping :: leaves)) =
  Some (repeat (Some (Val tt)) 6, [(2%nat, 0%nat, 12526); (3%nat, 0%nat, 16); (5%nat, 0%nat, 12524)], false, None).
Proof. vm_compute. reflexivity. Qed.
Example C123_nonvacuous : exists P0 P, ran 2 (Some 777) None 0 its_host kept_alive = Some P0 /\ m_proto (w_cm (p_world P0)) = Some 0%nat /\
  ran 2 (Some 777) None 0 its_host (kept_alive ++ Pool.Call Ping :: leaves) = Some P /\ In (3%nat, 0%nat, 16) (wire (p_log P)) /\ In (5%nat, 0%nat, 12524) (wire (p_log P)).
Proof.
  pose proof kept_before as B. pose proof kept_after as A. destruct (ran 2 (Some 777) None 0 its_host kept_alive) as [P0|]; [|discriminate B].
  destruct (ran 2 (Some 777) None 0 its_host (kept_alive ++ Pool.Call Ping :: leaves)) as [P|]; [|discriminate A]. cbn [option_map] in A, B.
  exists P0, P. split; [reflexivity|]. split; [unfold kept_facts in B; congruence|]. split; [reflexivity|].
  assert (W : skipn 5 (wire (p_log P)) = [(2%nat, 0%nat, 12526); (3%nat, 0%nat, 16); (5%nat, 0%nat, 12524)]) by congruence.
  rewrite <- (firstn_skipn 5 (wire (p_log P))), W. split; apply in_or_app; right; cbn; auto.
Qed.
