(** What every task keeps, whatever the others do: the instance of the logic of P_Pool.v. *)
From Verif Require Import Py F64 Struct Utf Utility Const Spec Enum Decode Messages Calls World Request Gateway Traces Paths Api Tasks Pool SpecPool P_Pool.
From Verif Require P_Base.

Definition prefix (g g' : log) : Prop := exists x, g' = g ++ x.
Lemma prefix_refl g : prefix g g. Proof. exists []. rewrite app_nil_r. reflexivity. Qed.
Lemma prefix_trans a b c : prefix a b -> prefix b c -> prefix a c.
Proof. intros (x & ->) (y & ->). exists (x ++ y). rewrite app_assoc. reflexivity. Qed.
Lemma prefix_app a b : prefix a (a ++ b). Proof. exists b. reflexivity. Qed.
Lemma ext_prefix i g g' : ext i g g' -> prefix g g'. Proof. intros (x & -> & _). apply prefix_app. Qed.
Lemma prefix_in g g' x : prefix g g' -> In x g -> In x g'. Proof. intros (y & ->) I. apply in_or_app. auto. Qed.
Lemma accepted_prefix c g g' : prefix g g' -> accepted c g -> accepted c g'.
Proof.
  intros (x & ->) (i & t1 & p & ms & r & b & t2 & E & A). exists i, t1, p, ms, r, b, (t2 ++ own i x). rewrite own_app, E.
  split; [|exact A]. rewrite <- app_assoc. reflexivity.
Qed.
(** the adapter's answer to the challenge on [c] was the MAC address [mac] *)
Definition named (c : nat) (mac : pystr) (g : log) : Prop :=
  exists i t1 ms r b t2, own i g = t1 ++ Send c 14 [] :: AwaitReply c ms :: Got r :: t2 /\ answer_of r = Some (15, b) /\ decodeMessageString b = Ok mac.
Lemma named_prefix c mac g g' : prefix g g' -> named c mac g -> named c mac g'.
Proof.
  intros (x & ->) (i & t1 & ms & r & b & t2 & E & A). exists i, t1, ms, r, b, (t2 ++ own i x). rewrite own_app, E.
  split; [|exact A]. rewrite <- app_assoc. reflexivity.
Qed.
Definition adopted (c : nat) (mac : pystr) (g : log) : Prop := accepted c g /\ named c mac g.
Lemma adopted_prefix c mac g g' : prefix g g' -> adopted c mac g -> adopted c mac g'.
Proof. intros P (A & B). split; [eapply accepted_prefix; eassumption|eapply named_prefix; eassumption]. Qed.
(** task [i] sent (X, p) on [c] and was answered [b] *)
Definition got (i c : nat) (X : Z) (p b : bytes) (g : log) : Prop :=
  exists t1 ms r t2, own i g = t1 ++ Send c X p :: AwaitReply c ms :: Got r :: t2 /\ answer_of r = Some (X + 1, b).
Definition silent (x : entry) : Prop := match x with By _ (Got _) => False | Applied _ _ _ _ => False | _ => True end.
Lemma shows_silent fl d0 g d x : silent x -> shows fl d0 g d -> shows fl d0 (g ++ [x]) d.
Proof. intros H S. apply S_other; [exact S|intros c code b cbs y E; rewrite E in H; destruct H|intros i r c X p b E; rewrite E in H; destruct H]. Qed.
Lemma shows_none fl d0 g d i r : answer_of r = None -> shows fl d0 g d -> shows fl d0 (g ++ [By i (Got r)]) d.
Proof. intros H S. apply S_other; [exact S|discriminate|]. intros j r' c X p b E _ A. injection E as _ <-. congruence. Qed.

(** what the invariant is about *)
Definition flags (k : conn) : bool * bool * bool := (c_connected k, c_closing k, c_open k).
Definition core (w : world) := (w_host w, m_id (w_cm w), w_data w, (w_proto w, m_proto (w_cm w), a_mac (w_addr w)), map flags (w_conns w)).
Lemma core_conn w w' c : map flags (w_conns w) = map flags (w_conns w') -> flags (get_conn c w) = flags (get_conn c w').
Proof. intros E. unfold get_conn. rewrite <- !(map_nth flags). rewrite E. reflexivity. Qed.
Lemma lset_map {X Y} (f : X -> Y) i x l : map f (lset i x l) = lset i (f x) (map f l).
Proof. revert i. induction l as [|z l IH]; intros [|i]; cbn [lset map]; try reflexivity. f_equal. apply IH. Qed.
Lemma lset_same {X} i (x : X) l d : nth i l d = x -> lset i x l = l.
Proof. revert i. induction l as [|z l IH]; intros [|i] E; cbn [lset nth] in *; try reflexivity; [congruence|f_equal; apply IH; exact E]. Qed.
Lemma upd_core c f w : (forall k, flags (f k) = flags k) -> core (upd_conn c f w) = core w.
Proof.
  intros F. unfold core, upd_conn. cbn [set_conns w_host w_cm w_data w_proto w_conns]. f_equal. rewrite lset_map.
  apply lset_same with (d := flags dead_conn). rewrite map_nth, F. reflexivity.
Qed.
Lemma get_upd c c' f w : get_conn c' (upd_conn c f w) = get_conn c' w \/
  (c' = c /\ (c < List.length (w_conns w))%nat /\ get_conn c' (upd_conn c f w) = f (get_conn c w)).
Proof.
  unfold upd_conn, get_conn. cbn [set_conns w_conns]. generalize (f (nth c (w_conns w) dead_conn)) as x. intros x.
  generalize (w_conns w) as l. intros l. revert c c'. induction l as [|z l IH]; intros [|c] [|c']; cbn [lset nth List.length]; auto.
  - right. split; [reflexivity|]. split; [lia|reflexivity].
  - destruct (IH c c') as [H|(-> & L & H)]; [left; exact H|right]. repeat split; auto. lia.
Qed.
Lemma upd_same c f w : (c < List.length (w_conns w))%nat -> get_conn c (upd_conn c f w) = f (get_conn c w).
Proof.
  unfold upd_conn, get_conn. cbn [set_conns w_conns]. generalize (f (nth c (w_conns w) dead_conn)) as x. intros x.
  generalize (w_conns w) as l. intros l. revert c. induction l as [|z l IH]; intros [|c] L; cbn [lset nth List.length] in *; try lia; auto. apply IH. lia.
Qed.
Lemma upd_len c f w : List.length (w_conns (upd_conn c f w)) = List.length (w_conns w).
Proof. unfold upd_conn. cbn [set_conns w_conns]. apply lset_len. Qed.
Lemma conn_in c w : connected c w = true -> (c < List.length (w_conns w))%nat.
Proof.
  intros H. destruct (lt_dec c (List.length (w_conns w))) as [L|L]; [exact L|].
  unfold connected, get_conn in H. rewrite nth_overflow in H by lia. discriminate H.
Qed.

Lemma app_inj_tail_two {X} (l l' : list X) a b a' b' : l ++ [a; b] = l' ++ [a'; b'] -> l = l' /\ a = a' /\ b = b'.
Proof.
  intros E. change [a; b] with ([a] ++ [b]) in E. change [a'; b'] with ([a'] ++ [b']) in E. rewrite !app_assoc in E.
  apply app_inj_tail in E. destruct E as (E & ->). apply app_inj_tail in E. destruct E as (-> & ->). auto.
Qed.

Section Instance.
  Variables (d0 : dict) (h0 : host) (id0 : Z).

  Definition names (c : nat) (e : ev) : Prop := ((exists X p, e = Send c X p) \/ exists b, e = Raw c b) \/ (exists f, e = AwaitFutures c f) \/ e = CloseTransport c.
  Definition is_lost (c : nat) (x : entry) : Prop := x = Env (Lost c) \/ exists j, x = By j (Lost c).
  Record InvD (D : log -> dict -> Prop) (g : log) (w : world) : Prop := {
    I_host : w_host w = h0;
    I_id : m_id (w_cm w) = id0;
    I_data : D g (w_data w);
    I_proto : forall c, w_proto w = Some c -> adopted c (a_mac (w_addr w)) g;
    I_mproto : forall c, m_proto (w_cm w) = Some c -> accepted c g;
    I_open : forall c, connected c w = true -> c_closing (get_conn c w) = false -> c_open (get_conn c w) = true;
    I_known : forall j c e, In (By j e) g -> names c e -> (c < List.length (w_conns w))%nat;
    I_lostk : forall c x, In x g -> is_lost c x -> (c < List.length (w_conns w))%nat;
    I_closing : forall j c f, In (By j (AwaitFutures c f)) g -> c_closing (get_conn c w) = true;
    I_shut : forall j c, In (By j (CloseTransport c)) g -> c_closing (get_conn c w) = true;
    I_lost : forall c x, In x g -> is_lost c x -> connected c w = false }.

  Notation said := (shows (h_float h0) d0).
  Notation Inv := (InvD said).
  (** the answer [b] to (X, p) has just come and is not yet read *)
  Definition fresh (i c : nat) (X : Z) (p b : bytes) (g : log) (d : dict) : Prop :=
    exists g0 r, g = g0 ++ [By i (Got r)] /\ asked i g0 c X p /\ answer_of r = Some (X + 1, b) /\ said g0 d.

  (** the connection is in use: nobody has closed it or is closing it, and it is not lost *)
  Definition in_use (c : nat) (g : log) : Prop :=
    (forall j f, ~ In (By j (AwaitFutures c f)) g) /\ (forall j, ~ In (By j (CloseTransport c)) g) /\ (forall x, In x g -> ~ is_lost c x).
  Definition due (i : nat) (g : log) (X : Z) (p : bytes) : Prop :=
    dialogue id0 X p \/ exists call d, In (Started i call d) g /\ own_message (h_tz h0) call d X p.
  (** who may send: anybody after the login, the one who greeted before *)
  Notation allowed i c X g := (accepted c g%list \/ (X = 14 \/ X = 27) /\ In (By i (Raw c CONNECT_STRING)) g%list).
  Definition ok (i : nat) (g : log) (e : ev) : Prop :=
    match e with
    | Send c X p => due i g X p /\ in_use c g /\ (allowed i c X g)
    | Raw c b => in_use c g /\ b = CONNECT_STRING /\ forall j e, In (By j e) g -> ~ names c e
    | AwaitReply c ms => ms = 2000 /\ exists t X p, own i g = t ++ [Send c X p]
    | Open _ _ ms => ms = 2000
    | _ => True
    end.
  Lemma due_prefix i g g' X p : prefix g g' -> due i g X p -> due i g' X p.
  Proof. intros P [D|(call & d & I & O)]; [left; exact D|right]. exists call, d. split; [eapply prefix_in; eassumption|exact O]. Qed.

  Lemma Inv_core D g w w' : core w = core w' -> InvD D g w -> InvD D g w'.
  Proof.
    intros C I. injection C as C1 C2 C3 C4 C5 CM C6.
    assert (F : forall c, flags (get_conn c w) = flags (get_conn c w')) by (intros c; apply core_conn; exact C6).
    assert (FC : forall c, connected c w = connected c w') by (intros c; specialize (F c); unfold flags in F; unfold connected; congruence).
    assert (FG : forall c, c_closing (get_conn c w) = c_closing (get_conn c w')) by (intros c; specialize (F c); unfold flags in F; congruence).
    assert (FO : forall c, c_open (get_conn c w) = c_open (get_conn c w')) by (intros c; specialize (F c); unfold flags in F; congruence).
    assert (L : List.length (w_conns w) = List.length (w_conns w')) by (rewrite <- (map_length flags (w_conns w)), C6, map_length; reflexivity).
    constructor.
    - rewrite <- C1. apply (I_host _ _ _ I).
    - rewrite <- C2. apply (I_id _ _ _ I).
    - rewrite <- C3. apply (I_data _ _ _ I).
    - rewrite <- C4, <- CM. apply (I_proto _ _ _ I).
    - rewrite <- C5. apply (I_mproto _ _ _ I).
    - intros c. rewrite <- FC, <- FG, <- FO. apply (I_open _ _ _ I).
    - intros. rewrite <- L. eapply (I_known _ _ _ I); eassumption.
    - intros. rewrite <- L. eapply (I_lostk _ _ _ I); eassumption.
    - intros. rewrite <- FG. eapply (I_closing _ _ _ I); eassumption.
    - intros. rewrite <- FG. eapply (I_shut _ _ _ I); eassumption.
    - intros. rewrite <- FC. eapply (I_lost _ _ _ I); eassumption.
  Qed.

  (** the log grows by something harmless *)
  Definition harmless (x : entry) : Prop :=
    match x with
    | By _ (Send _ _ _ | Raw _ _ | AwaitFutures _ _ | CloseTransport _ | Lost _) => False
    | Env (Lost _) => False
    | _ => True
    end.
  Lemma Inv_moreD (D D' : log -> dict -> Prop) g w x : harmless x -> (forall d, D g d -> D' (g ++ [x]) d) -> InvD D g w -> InvD D' (g ++ [x]) w.
  Proof.
    intros H HD I. assert (P : prefix g (g ++ [x])) by apply prefix_app.
    assert (N : forall j e c, In (By j e) (g ++ [x]) -> names c e -> In (By j e) g).
    { intros j e c J K. apply in_app_or in J. destruct J as [J|[->|[]]]; [exact J|]. exfalso. destruct K as [[(? & ? & ->)|(? & ->)]|[(? & ->)| ->]]; exact H. }
    assert (NL : forall c y, In y (g ++ [x]) -> is_lost c y -> In y g).
    { intros c y J K. apply in_app_or in J. destruct J as [J|[->|[]]]; [exact J|]. exfalso. destruct K as [->|(? & ->)]; exact H. }
    constructor; try (apply I; fail).
    - apply HD. apply (I_data _ _ _ I).
    - intros c E. eapply adopted_prefix; [exact P|]. apply (I_proto _ _ _ I). exact E.
    - intros c E. eapply accepted_prefix; [exact P|]. apply (I_mproto _ _ _ I). exact E.
    - intros j c e J K. eapply (I_known _ _ _ I); [|exact K]. eapply N; eassumption.
    - intros c y J K. eapply (I_lostk _ _ _ I); [|exact K]. eapply NL; eassumption.
    - intros j c f J. eapply (I_closing _ _ _ I). eapply N; [exact J|]. right. left. eauto.
    - intros j c J. eapply (I_shut _ _ _ I). eapply N; [exact J|]. right. right. eauto.
    - intros c y J K. eapply (I_lost _ _ _ I); [|exact K]. eapply NL; eassumption.
  Qed.
  Lemma Inv_more g w x : harmless x -> silent x -> Inv g w -> Inv (g ++ [x]) w.
  Proof. intros H S. apply Inv_moreD; [exact H|]. intros d. apply shows_silent. exact S. Qed.
  Lemma Inv_write g w i c e0 : (exists X p, e0 = Send c X p) \/ (exists b, e0 = Raw c b) -> (c < List.length (w_conns w))%nat -> Inv g w -> Inv (g ++ [By i e0]) w.
  Proof.
    intros HE LC I. assert (P : prefix g (g ++ [By i e0])) by apply prefix_app.
    assert (N : forall y, In y (g ++ [By i e0]) -> In y g \/ y = By i e0).
    { intros y J. apply in_app_or in J. destruct J as [J|[->|[]]]; auto. }
    constructor; try (apply I; fail).
    - apply shows_silent; [destruct HE as [(? & ? & ->)|(? & ->)]; exact Logic.I|apply (I_data _ _ _ I)].
    - intros c' E. eapply adopted_prefix; [exact P|]. apply (I_proto _ _ _ I). exact E.
    - intros c' E. eapply accepted_prefix; [exact P|]. apply (I_mproto _ _ _ I). exact E.
    - intros j c' e J K. destruct (N _ J) as [J'|Y]; [eapply (I_known _ _ _ I); eassumption|]. injection Y as _ ->.
      destruct HE as [(? & ? & ->)|(? & ->)]; destruct K as [[(? & ? & K)|(? & K)]|[(? & K)|K]]; try discriminate K; injection K; intros; subst; exact LC.
    - intros c' y J K. destruct (N _ J) as [J'| ->]; [eapply (I_lostk _ _ _ I); eassumption|]. destruct HE as [(? & ? & ->)|(? & ->)]; destruct K as [K|(? & K)]; discriminate K.
    - intros j c' f J. destruct (N _ J) as [J'|Y]; [eapply (I_closing _ _ _ I); eassumption|destruct HE as [(? & ? & ->)|(? & ->)]; discriminate Y].
    - intros j c' J. destruct (N _ J) as [J'|Y]; [eapply (I_shut _ _ _ I); eassumption|destruct HE as [(? & ? & ->)|(? & ->)]; discriminate Y].
    - intros c' y J K. destruct (N _ J) as [J'| ->]; [eapply (I_lost _ _ _ I); eassumption|]. destruct HE as [(? & ? & ->)|(? & ->)]; destruct K as [K|(? & K)]; discriminate K.
  Qed.
  Lemma Inv_send g w i c X p : (c < List.length (w_conns w))%nat -> Inv g w -> Inv (g ++ [By i (Send c X p)]) w.
  Proof. apply Inv_write. eauto. Qed.
  (** a close begins, or the transport is closed *)
  Lemma Inv_close g w i c e : (exists f, e = AwaitFutures c f) \/ e = CloseTransport c -> accepted c g -> c_closing (get_conn c w) = true -> Inv g w -> Inv (g ++ [By i e]) w.
  Proof.
    intros HE AC LC I. assert (P : prefix g (g ++ [By i e])) by apply prefix_app.
    assert (CL : (c < List.length (w_conns w))%nat).
    { destruct AC as (j & t1 & p & ms & r & b & t2 & E & A). eapply (I_known _ _ _ I) with (j := j) (e := Send c 27 p); [|left; eauto].
      assert (J : In (Send c 27 p) (own j g)) by (rewrite E; apply in_or_app; right; left; reflexivity).
      unfold own in J. apply in_flat_map in J. destruct J as (y & J1 & J2). destruct y as [|j' e'| | |]; try contradiction J2.
      destruct (Nat.eqb_spec j' j) as [->|]; [|contradiction J2]. destruct J2 as [->|[]]. exact J1. }
    assert (N : forall y, In y (g ++ [By i e]) -> In y g \/ y = By i e).
    { intros y J. apply in_app_or in J. destruct J as [J|[->|[]]]; auto. }
    constructor; try (apply I; fail).
    - apply shows_silent; [destruct HE as [(f & ->)| ->]; exact Logic.I|apply (I_data _ _ _ I)].
    - intros c' E. eapply adopted_prefix; [exact P|]. apply (I_proto _ _ _ I). exact E.
    - intros c' E. eapply accepted_prefix; [exact P|]. apply (I_mproto _ _ _ I). exact E.
    - intros j c' e' J K. destruct (N _ J) as [J'|Y]; [eapply (I_known _ _ _ I); eassumption|]. injection Y as _ ->.
      destruct HE as [(f & ->)| ->]; destruct K as [[(? & ? & K)|(? & K)]|[(? & K)|K]]; try discriminate K; injection K as <-; try (intros _); exact CL.
    - intros c' y J K. destruct (N _ J) as [J'| ->]; [eapply (I_lostk _ _ _ I); eassumption|]. destruct HE as [(f & ->)| ->]; destruct K as [K|(? & K)]; discriminate K.
    - intros j c' f J. destruct (N _ J) as [J'|Y]; [eapply (I_closing _ _ _ I); eassumption|]. destruct HE as [(f' & ->)| ->]; [|discriminate Y]. injection Y as _ -> _. exact LC.
    - intros j c' J. destruct (N _ J) as [J'|Y]; [eapply (I_shut _ _ _ I); eassumption|]. destruct HE as [(f' & ->)| ->]; [discriminate Y|]. injection Y as _ ->. exact LC.
    - intros c' y J K. destruct (N _ J) as [J'| ->]; [eapply (I_lost _ _ _ I); eassumption|]. destruct HE as [(f & ->)| ->]; destruct K as [K|(? & K)]; discriminate K.
  Qed.
  (** a connection changes: it starts closing, or shuts while closing *)
  Lemma Inv_upd D g w c f : InvD D g w ->
    (c_closing (get_conn c w) = true -> c_closing (f (get_conn c w)) = true) ->
    (c_connected (f (get_conn c w)) = true -> c_connected (get_conn c w) = true) ->
    (c_connected (f (get_conn c w)) = true -> c_closing (f (get_conn c w)) = false -> c_open (f (get_conn c w)) = true) ->
    InvD D g (upd_conn c f w).
  Proof.
    intros I F1 F2 F3. constructor; try (apply I; fail).
    - intros c'. unfold connected. destruct (get_upd c c' f w) as [->|(-> & _ & ->)]; [apply (I_open _ _ _ I)|exact F3].
    - intros. rewrite upd_len. eapply (I_known _ _ _ I); eassumption.
    - intros. rewrite upd_len. eapply (I_lostk _ _ _ I); eassumption.
    - intros j c' b J. destruct (get_upd c c' f w) as [->|(-> & _ & ->)]; [eapply (I_closing _ _ _ I); eassumption|]. apply F1. eapply (I_closing _ _ _ I); eassumption.
    - intros j c' J. destruct (get_upd c c' f w) as [->|(-> & _ & ->)]; [eapply (I_shut _ _ _ I); eassumption|]. apply F1. eapply (I_shut _ _ _ I); eassumption.
    - intros c' y J K. unfold connected. destruct (get_upd c c' f w) as [->|(-> & _ & ->)]; [eapply (I_lost _ _ _ I); eassumption|].
      destruct (c_connected (f (get_conn c w))) eqn:E; [|reflexivity]. rewrite <- (F2 eq_refl). eapply (I_lost _ _ _ I); eassumption.
  Qed.
  Lemma Inv_new D g w : InvD D g w -> InvD D g (set_conns (w_conns w ++ [new_conn]) w).
  Proof.
    intros I. assert (G : forall c, (c < List.length (w_conns w))%nat -> get_conn c (set_conns (w_conns w ++ [new_conn]) w) = get_conn c w).
    { intros c L. unfold get_conn. cbn [set_conns w_conns]. apply app_nth1. exact L. }
    assert (GL : List.length (w_conns (set_conns (w_conns w ++ [new_conn]) w)) = S (List.length (w_conns w))) by (cbn [set_conns w_conns]; rewrite app_length; cbn; lia).
    constructor; try (apply I; fail).
    - intros c. destruct (lt_dec c (List.length (w_conns w))) as [L|L].
      + unfold connected. rewrite (G c L). apply (I_open _ _ _ I).
      + unfold connected, get_conn. cbn [set_conns w_conns]. rewrite app_nth2 by lia. destruct (c - _)%nat as [|[|n]]; cbn; auto; discriminate.
    - intros. rewrite GL. apply Nat.lt_lt_succ_r. eapply (I_known _ _ _ I); eassumption.
    - intros. rewrite GL. apply Nat.lt_lt_succ_r. eapply (I_lostk _ _ _ I); eassumption.
    - intros j c f J. rewrite G; [eapply (I_closing _ _ _ I); eassumption|]. eapply (I_known _ _ _ I); [exact J|]. right. left. eauto.
    - intros j c J. rewrite G; [eapply (I_shut _ _ _ I); eassumption|]. eapply (I_known _ _ _ I); [exact J|]. right. right. eauto.
    - intros c y J K. unfold connected. rewrite G; [eapply (I_lost _ _ _ I); eassumption|]. eapply (I_lostk _ _ _ I); eassumption.
  Qed.
  Lemma Inv_data (D D' : log -> dict -> Prop) g w d : D' g d -> InvD D g w -> InvD D' g (set_data d w).
  Proof. intros B I. destruct I. constructor; assumption. Qed.
  Lemma Inv_usable g w c : Inv g w -> connected c w = true -> c_closing (get_conn c w) = false -> in_use c g.
  Proof.
    intros I C N. split; [|split].
    - intros j f J. apply (I_closing _ _ _ I) in J. congruence.
    - intros j J. apply (I_shut _ _ _ I) in J. congruence.
    - intros x J K. pose proof (I_lost _ _ _ I _ _ J K). congruence.
  Qed.

  (** a connection is lost *)
  Lemma Inv_lost g w c x : is_lost c x -> connected c w = true -> Inv g w ->
    Inv (g ++ [x]) (upd_conn c (fun k => mkConn false (c_closing k) false (c_handlers k) (c_keepalive k)) w).
  Proof.
    intros HX C I0.
    assert (I : Inv g (upd_conn c (fun k => mkConn false (c_closing k) false (c_handlers k) (c_keepalive k)) w)).
    { apply Inv_upd; cbn; auto; discriminate. }
    assert (P : prefix g (g ++ [x])) by apply prefix_app.
    assert (N : forall y, In y (g ++ [x]) -> In y g \/ y = x).
    { intros y J. apply in_app_or in J. destruct J as [J|[->|[]]]; auto. }
    constructor; try (apply I; fail).
    - apply shows_silent; [destruct HX as [->|(j & ->)]; exact Logic.I|apply (I_data _ _ _ I)].
    - intros c' E. eapply adopted_prefix; [exact P|]. apply (I_proto _ _ _ I). exact E.
    - intros c' E. eapply accepted_prefix; [exact P|]. apply (I_mproto _ _ _ I). exact E.
    - intros j c' e J K. destruct (N _ J) as [J'|Y]; [eapply (I_known _ _ _ I); eassumption|]. exfalso.
      destruct HX as [->|(j' & ->)]; [discriminate Y|]. injection Y as _ ->. destruct K as [[(? & ? & K)|(? & K)]|[(? & K)|K]]; discriminate K.
    - intros c' y J K. destruct (N _ J) as [J'| ->]; [eapply (I_lostk _ _ _ I); eassumption|]. rewrite upd_len. apply conn_in.
      destruct HX as [->|(j' & ->)]; destruct K as [K|(? & K)]; try discriminate K; injection K; congruence.
    - intros j c' f J. destruct (N _ J) as [J'|Y]; [eapply (I_closing _ _ _ I); eassumption|]. destruct HX as [->|(j' & ->)]; discriminate Y.
    - intros j c' J. destruct (N _ J) as [J'|Y]; [eapply (I_shut _ _ _ I); eassumption|]. destruct HX as [->|(j' & ->)]; discriminate Y.
    - intros c' y J K. destruct (N _ J) as [J'| ->]; [eapply (I_lost _ _ _ I); eassumption|].
      assert (c' = c) as -> by (destruct HX as [->|(j' & ->)]; destruct K as [K|(? & K)]; try discriminate K; injection K; congruence).
      unfold connected. rewrite upd_same by (apply conn_in; exact C). reflexivity.
  Qed.

  (** ---------------------------------------------------------------- *)
  (** * Rules *)
  Notation sf := (safe Inv ok (fun _ _ => True)).
  Definition keeps {A} (i : nat) (m : task A) (g : log) (w : world) (V : log -> world -> A -> Prop) : Prop :=
    sf i m g w (fun g' w' o => Inv g' w' /\ prefix g g' /\ match o with Val a => V g' w' a | _ => True end).
  Definition any {A} : log -> world -> A -> Prop := fun _ _ _ => True.

  Lemma keeps_mono {A} i (m : task A) g w (V V' : log -> world -> A -> Prop) : keeps i m g w V ->
    (forall g' w' a, prefix g g' -> Inv g' w' -> V g' w' a -> V' g' w' a) -> keeps i m g w V'.
  Proof. intros K H. eapply safe_mono; [exact K|]. cbn. intros g' w' [a|e|y] (I & P & X); auto. Qed.
  Lemma keeps_from {A} i (m : task A) g0 g w (V : log -> world -> A -> Prop) : prefix g0 g -> keeps i m g w V ->
    sf i m g w (fun g' w' o => Inv g' w' /\ prefix g0 g' /\ match o with Val a => V g' w' a | _ => True end).
  Proof. intros P K. eapply safe_mono; [exact K|]. cbn. intros g' w' o (I & P' & X). split; [exact I|]. split; [eapply prefix_trans; eassumption|exact X]. Qed.
  Lemma keeps_bind {A B} i (m : task A) (f : A -> task B) g w V (V2 : log -> world -> B -> Prop) : keeps i m g w V ->
    (forall a g' w', Inv g' w' -> prefix g g' -> V g' w' a -> keeps i (f a) g' w' V2) -> keeps i (tbind m f) g w V2.
  Proof.
    intros K H. apply safe_bind. eapply safe_mono; [exact K|]. cbn. intros g' w' [a|e|y] (I & P & X); auto.
    apply keeps_from; [exact P|]. apply H; assumption.
  Qed.
  Lemma keeps_catch {A} i (m : task A) (p : exn -> bool) (h : exn -> task A) g w (V : log -> world -> A -> Prop) : keeps i m g w V ->
    (forall e g' w', Inv g' w' -> prefix g g' -> keeps i (h e) g' w' V) -> keeps i (tcatch m p h) g w V.
  Proof.
    intros K H. apply safe_catch. eapply safe_mono; [exact K|]. cbn. intros g' w' [a|e|y] (I & P & X); auto.
    destruct (p e); auto. apply keeps_from; [exact P|]. apply H; assumption.
  Qed.
  Lemma keeps_ret {A} i (a : A) g w (V : log -> world -> A -> Prop) : Inv g w -> V g w a -> keeps i (tret a) g w V.
  Proof. intros I X. split; [exact I|]. split; [apply prefix_refl|exact X]. Qed.
  Lemma keeps_stop {A} i (o : out A) g w (V : log -> world -> A -> Prop) : Inv g w -> (forall a, o <> Val a) -> keeps i (Done o) g w V.
  Proof. intros I X. split; [exact I|]. split; [apply prefix_refl|]. destruct o; auto. destruct (X a eq_refl). Qed.
  Lemma keeps_raise {A} i e g w (V : log -> world -> A -> Prop) : Inv g w -> keeps i (traise e) g w V.
  Proof. intros I. apply keeps_stop; [exact I|discriminate]. Qed.
  Lemma keeps_stuck {A} i y g w (V : log -> world -> A -> Prop) : Inv g w -> keeps i (tstuck y) g w V.
  Proof. intros I. apply keeps_stop; [exact I|discriminate]. Qed.
  Lemma keeps_get {A B} i (f : world -> A) (k : A -> task B) g w V : keeps i (k (f w)) g w V -> keeps i (tbind (tget f) k) g w V.
  Proof. intros K. apply safe_get. exact K. Qed.
  Lemma keeps_do {B} i f (k : unit -> task B) g w V : keeps i (k tt) g (f w) V -> keeps i (tbind (tdo f) k) g w V.
  Proof. intros K. apply safe_do. exact K. Qed.
  Lemma keeps_put {B} i f (k : unit -> task B) g w V : core (f w) = core w -> Inv g w -> (forall w', Inv g w' -> keeps i (k tt) g w' V) -> keeps i (tbind (tdo f) k) g w V.
  Proof. intros E I K. apply keeps_do, K. eapply Inv_core; [symmetry; exact E|exact I]. Qed.
  Lemma keeps_put_end i f g w : core (f w) = core w -> Inv g w -> keeps i (tdo f) g w any.
  Proof.
    intros E I. unfold keeps, tdo, tret. cbn [safe fst snd map oks]. rewrite app_nil_r. split; [exact Logic.I|].
    split; [eapply Inv_core; [symmetry; exact E|exact I]|]. split; [apply prefix_refl|exact Logic.I].
  Qed.
  Lemma keeps_finally {A} i (m : task A) f g w V : (forall w, core (f w) = core w) -> keeps i m g w V -> keeps i (tfinally m f) g w (any : log -> world -> A -> Prop).
  Proof.
    intros E K. apply safe_finally. eapply safe_mono; [exact K|]. cbn. intros g' w' [a|e|y] (I & P & X); (split; [|split; [exact P|exact Logic.I]]); try exact I;
      (eapply Inv_core; [symmetry; apply E|exact I]).
  Qed.
  Lemma keeps_lift {A B} i (r : res A) (k : A -> task B) g w V : Inv g w -> (forall a, r = Ok a -> keeps i (k a) g w V) -> keeps i (tbind (tlift r) k) g w V.
  Proof. intros I K. destruct r as [a|e]; cbn [tlift tret traise tbind]; [apply K; reflexivity|]. apply keeps_stop; [exact I|discriminate]. Qed.
  Lemma keeps_emit {B} i e (k : unit -> task B) g w V : ok i g e -> keeps i (k tt) (g ++ [By i e]) w V -> keeps i (tbind (temit e) k) g w V.
  Proof. intros O K. apply safe_emit; [exact O|]. apply keeps_from; [apply prefix_app|exact K]. Qed.
  (** a wait in which nothing arrives *)
  Lemma Inv_gotD (D D' : log -> dict -> Prop) g w i e kd clk : (forall d, D g d -> D' (g ++ [By i (Got (mkResp kd [] None clk))]) d) ->
    InvD D g w -> InvD D' (g ++ [By i (Got (mkResp kd [] None clk))]) (set_clock clk (opened_by e kd w)).
  Proof.
    intros F I. apply Inv_core with (w := opened_by e kd w); [reflexivity|]. apply Inv_moreD with (D := D); [exact Logic.I|exact F|].
    unfold opened_by. destruct e; try exact I. destruct kd; try exact I. apply Inv_new. exact I.
  Qed.
  Definition no_answer (kd : kind) : Prop := match kd with KReply _ _ | KTimeoutReply _ _ => False | _ => True end.
  Lemma Inv_got g w i e kd clk : no_answer kd -> Inv g w -> Inv (g ++ [By i (Got (mkResp kd [] None clk))]) (set_clock clk (opened_by e kd w)).
  Proof. intros N. apply Inv_gotD. intros d. apply shows_none. destruct kd; try reflexivity; destruct N. Qed.
  Lemma keeps_wait {B} i e (k : kind -> task B) g w V : ok i g e -> Inv (g ++ [By i e]) w -> (forall c ms, e <> AwaitReply c ms) ->
    (forall kd g' w', Inv g' w' -> prefix (g ++ [By i e]) g' -> fits e kd = true -> keeps i (k kd) g' w' V) ->
    keeps i (tbind (twait e) k) g w V.
  Proof.
    intros O I NR K. apply safe_wait; [exact O|exact I|]. intros g' w' kd clk E I' _ F.
    assert (N : no_answer kd) by (destruct e; try destruct (NR _ _ eq_refl); destruct kd; try exact Logic.I; discriminate F).
    assert (P : prefix (g ++ [By i e]) g') by (eapply ext_prefix; exact E).
    eapply keeps_from; [|apply K; [apply (Inv_got _ _ i e kd clk N I')|eapply prefix_trans; [exact P|apply prefix_app]|exact F]].
    eapply prefix_trans; [apply prefix_app|]. eapply prefix_trans; [exact P|apply prefix_app].
  Qed.
  Lemma keeps_lock {A} i (body : task A) g w V : Inv g w -> (forall g' w', Inv g' w' -> prefix g g' -> keeps i body g' w' V) -> keeps i (twith_lock body) g w any.
  Proof.
    intros I K. unfold twith_lock, keeps. cbn [safe]. split; [exact I|]. split.
    - intros g' w' E I' _.
      eapply keeps_from; [eapply ext_prefix; exact E|]. eapply keeps_finally; [reflexivity|]. apply K; [|eapply ext_prefix; exact E].
      eapply Inv_core; [|exact I']. reflexivity.
    - intros g' w' clk E I' _. eapply keeps_from; [eapply prefix_trans; [eapply ext_prefix; exact E|apply prefix_app]|].
      apply keeps_stop; [|discriminate]. exact (Inv_got _ _ i (Sleep 0) KCancelTask clk Logic.I I').
  Qed.

  (** ---------------------------------------------------------------- *)
  (** * The request layer *)
  Lemma keeps_sleep i ms g w : Inv g w -> keeps i (tsleep ms) g w any.
  Proof.
    intros I. unfold tsleep. apply keeps_wait; [exact Logic.I|apply Inv_more; [exact Logic.I|exact Logic.I|exact I]|discriminate|].
    intros kd g' w' I' P F. destruct kd; try (apply keeps_stop; [exact I'|discriminate]). apply keeps_ret; [exact I'|exact Logic.I].
  Qed.
  Lemma fits_reply c ms kd : fits (AwaitReply c ms) kd = true ->
    (exists X b, (kd = KReply X b \/ kd = KTimeoutReply X b)) \/ kd = KTimeout \/ kd = KCancelFut \/ kd = KCancelTask.
  Proof. destruct kd; intros F; try discriminate F; eauto 6. Qed.

  (** a request ended: with an answer that is not yet read, or without one *)
  Definition asks (i c : nat) (X : Z) (p : bytes) (m : task (option bytes)) (g : log) (w : world) : Prop :=
    sf i m g w (fun g' w' o => prefix g g' /\ match o with Val (Some b) => InvD (fresh i c X p b) g' w' /\ got i c X p b g' | _ => Inv g' w' end).
  Lemma asks_from i c X p m g0 g w : prefix g0 g -> asks i c X p m g w ->
    sf i m g w (fun g' w' o => prefix g0 g' /\ match o with Val (Some b) => InvD (fresh i c X p b) g' w' /\ got i c X p b g' | _ => Inv g' w' end).
  Proof. intros P K. eapply safe_mono; [exact K|]. cbn. intros g' w' o (P' & Y). split; [eapply prefix_trans; eassumption|exact Y]. Qed.
  Lemma asks_raise i c X p e g w : Inv g w -> asks i c X p (traise e) g w.
  Proof. intros I. split; [apply prefix_refl|exact I]. Qed.
  Lemma asks_none i c X p g w : Inv g w -> asks i c X p (tret None) g w.
  Proof. intros I. split; [apply prefix_refl|exact I]. Qed.
  Lemma asks_loop i c X p : forall left attempt mr g w, Inv g w ->
    ((exists m, makeMessage 0 X p = Ok m) -> due i g X p) -> (allowed i c X g) ->
    asks i c X p (trequest_loop left attempt mr c X p) g w.
  Proof.
    induction left as [|left IH]; intros attempt mr g w I D A; cbn [trequest_loop].
    - apply asks_none. exact I.
    - set (cancelled := tbind (tget (connected c)) (fun ok => if ok : bool then tret (A := option bytes) None else traise ESLConnection)).
      pose (failed := fun e => if attempt =? mr then traise e
        else tbind (tsleep (1000 * (COM_RETRY_WAIT * (attempt + 1)))) (fun _ => trequest_loop left (attempt + 1) mr c X p)).
      assert (KC : forall g' w', Inv g' w' -> asks i c X p cancelled g' w').
      { intros g' w' I'. unfold cancelled. apply safe_get. destruct (connected c w'); [apply asks_none; exact I'|apply asks_raise; exact I']. }
      assert (KF : forall e g' w', prefix g g' -> Inv g' w' -> asks i c X p (failed e) g' w').
      { intros e g' w' P I'. unfold failed. destruct (attempt =? mr); [apply asks_raise; exact I'|].
        apply safe_bind. eapply safe_mono; [apply keeps_sleep; exact I'|]. cbn. intros g2 w2 [[]|e2|y] (I2 & P2 & _); [|split; assumption..].
        apply asks_from; [exact P2|]. apply IH; [exact I2| |].
        - intros M. eapply due_prefix; [|apply D; exact M]. eapply prefix_trans; eassumption.
        - destruct A as [A|(A & A')]; [left; eapply accepted_prefix; [|exact A]|right; split; [exact A|eapply prefix_in; [|exact A']]]; eapply prefix_trans; eassumption. }
      apply safe_get. destruct (connected c w) eqn:C; cbn [negb]; [|apply asks_raise; exact I].
      apply safe_get. destruct (c_closing (get_conn c w)) eqn:G; [apply KC; exact I|].
      pose proof (I_open _ _ _ I c C G) as O. unfold tsend. change (asks i c X p) with (fun m g w => asks i c X p m g w). cbn beta.
      match goal with |- safe _ _ _ i (tbind (tbind (tget (get_conn c)) ?f) ?k) g w ?V => change (safe Inv ok (fun _ _ => True) i (tbind (f (get_conn c w)) k) g w V) end.
      cbn beta. rewrite O. destruct (makeMessage 0 X p) as [m|e] eqn:M; cbn [tlift tret traise tbind]; [|apply asks_raise; exact I].
      match goal with |- safe _ _ _ i ?m g w ?V => change m with (tbind (temit (Send c X p)) (fun _ => tbind (twait (AwaitReply c (1000 * COM_TIMEOUT))) (fun r => 
         match r with
          | KReply rc b | KTimeoutReply rc b => if rc =? X + 1 then tret (Some b)
        else if rc =? CODE_ERROR_LOGIN_REJECTED then traise ESLLogin
        else if (rc =? CODE_ERROR_INVALID_REQUEST) || (rc =? CODE_ERROR_BAD_PARAMETER)
             then failed ESLRequest
        else failed ESLResponse
          | KTimeout => failed ESLConnection
          | KCancelFut | KCancelTask => cancelled
          | KDone | KOSError => tstuck Unfit
          end))) end.
      apply safe_emit. { split; [apply D; eauto|]. split; [eapply Inv_usable; eassumption|exact A]. }
      assert (I1 : Inv (g ++ [By i (Send c X p)]) w) by (apply Inv_send; [apply conn_in; exact C|exact I]).
      set (g1 := g ++ [By i (Send c X p)]) in *. assert (P1 : prefix g g1) by apply prefix_app.
      apply safe_wait; [split; [reflexivity|]; exists (own i g), X, p; unfold g1; rewrite own_app; change [By i (Send c X p)] with (map (By i) [Send c X p]); rewrite own_by; reflexivity|apply Inv_more; [exact Logic.I|exact Logic.I|exact I1]|].
      intros g2 w2 kd clk E2 I2 _ F.
      set (gt := Got (mkResp kd [] None clk)) in *. set (w3 := set_clock clk (opened_by _ kd w2)) in *.
      assert (P3 : prefix g1 (g2 ++ [By i gt])). { eapply prefix_trans; [|apply prefix_app]. eapply prefix_trans; [apply prefix_app|eapply ext_prefix; exact E2]. }
      assert (P4 : prefix g (g2 ++ [By i gt])) by (eapply prefix_trans; eassumption).
      assert (AS : asked i g2 c X p).
      { destruct E2 as (x & -> & OX & _). exists (own i g), 2000. unfold g1. rewrite !own_app, OX. change [By i (Send c X p)] with (map (By i) [Send c X p]).
        change [By i (AwaitReply c (1000 * COM_TIMEOUT))] with (map (By i) [AwaitReply c 2000]). rewrite !own_by. rewrite app_nil_r, <- app_assoc. reflexivity. }
      apply asks_from; [exact P4|].
      assert (AN : forall rc b, kd = KReply rc b \/ kd = KTimeoutReply rc b ->
        asks i c X p (if rc =? X + 1 then tret (Some b) else if rc =? CODE_ERROR_LOGIN_REJECTED then traise ESLLogin
          else if (rc =? CODE_ERROR_INVALID_REQUEST) || (rc =? CODE_ERROR_BAD_PARAMETER) then failed ESLRequest else failed ESLResponse)
          (g2 ++ [By i gt]) w3).
      { intros rc b KD. assert (AO : answer_of (mkResp kd [] None clk) = Some (rc, b)) by (destruct KD as [-> | ->]; reflexivity).
        destruct (rc =? X + 1) eqn:RC.
        - apply Z.eqb_eq in RC. subst rc. split; [apply prefix_refl|]. split.
          + apply Inv_gotD with (D := said); [|exact I2]. intros d S. exists g2, (mkResp kd [] None clk). auto.
          + destruct E2 as (x & -> & OX & _). exists (own i g), 2000, (mkResp kd [] None clk), [].
            split; [|exact AO]. unfold g1. rewrite !own_app, OX. change [By i (Send c X p)] with (map (By i) [Send c X p]).
            change [By i (AwaitReply c (1000 * COM_TIMEOUT))] with (map (By i) [AwaitReply c 2000]). change [By i gt] with (map (By i) [gt]). rewrite !own_by.
            rewrite app_nil_r, <- !app_assoc. reflexivity.
        - assert (I3 : Inv (g2 ++ [By i gt]) w3).
          { apply Inv_gotD with (D := said); [|exact I2]. intros d S. apply S_other; [exact S|discriminate|].
            intros j r c' X' p' b' EQ AS' AO' _. injection EQ as <- <-. exfalso. rewrite AO in AO'. injection AO' as -> ->.
            destruct AS as (t & ms & T). destruct AS' as (t' & ms' & T'). rewrite T in T'. apply app_inj_tail_two in T'. destruct T' as (_ & T' & _). injection T' as _ -> _. rewrite Z.eqb_refl in RC. discriminate RC. }
          destruct (rc =? CODE_ERROR_LOGIN_REJECTED); [apply asks_raise; exact I3|].
          destruct (_ || _); apply KF; assumption. }
      assert (NA : no_answer kd -> Inv (g2 ++ [By i gt]) w3) by (intros N; apply Inv_got; assumption).
      destruct kd; try discriminate F; try (apply KC; apply NA; exact Logic.I); try (apply KF; [exact P4|apply NA; exact Logic.I]); apply AN; auto.
  Qed.
  Lemma asks_request i c X p mr g w : Inv g w ->
    ((exists m, makeMessage 0 X p = Ok m) -> due i g X p) -> (allowed i c X g) ->
    asks i c X p (tmake_request c X p mr) g w.
  Proof. apply asks_loop. Qed.
  Lemma keeps_ask {B} i c X p m (f : option bytes -> task B) g w V : asks i c X p m g w ->
    (forall g' w', prefix g g' -> Inv g' w' -> keeps i (f None) g' w' V) ->
    (forall b g' w', prefix g g' -> InvD (fresh i c X p b) g' w' -> keeps i (f (Some b)) g' w' V) ->
    keeps i (tbind m f) g w V.
  Proof.
    intros K HN HS. apply safe_bind. eapply safe_mono; [exact K|]. cbn. intros g' w' [[b|]|e|y] (P & Y); try (split; [exact Y|split; [exact P|exact Logic.I]]).
    - apply keeps_from; [exact P|]. apply HS; [exact P|apply Y].
    - apply keeps_from; [exact P|]. apply HN; assumption.
  Qed.
  (** an answer that is not read *)
  Definition plain (i : nat) (g : log) (X : Z) : Prop := ~ query X \/ exists m d, In (Started i (SendMessage X m) d) g.
  Lemma fresh_plain i c X p b g w : plain i g X \/ b = [] -> InvD (fresh i c X p b) g w -> Inv g w.
  Proof.
    intros N I. destruct I as [a1 a2 DATA a4 a5 a6 a7 a8 a9 a10 a11]. constructor; try assumption. destruct DATA as (g0 & r & -> & AS & AO & S).
    apply S_other; [exact S|discriminate|]. intros j r' c' X' p' b' EQ AS' AO' Q. injection EQ as <- <-. rewrite AO in AO'. injection AO' as E1 ->.
    assert (X' = X) as -> by lia. destruct N as [[N|(m & d & N)]|N]; [contradiction| |left; exact N]. right. exists m, d.
    apply in_app_or in N. destruct N as [N|[N|[]]]; [exact N|discriminate N].
  Qed.
  Definition answered_login (i c : nat) (X : Z) (p : bytes) (g : log) (r : option bytes) : Prop := forall b, r = Some b -> got i c X p b g.
  Lemma got_prefix i c X p b g g' : prefix g g' -> got i c X p b g -> got i c X p b g'.
  Proof.
    intros (x & ->) (t1 & ms & r & t2 & E & A). exists t1, ms, r, (t2 ++ own i x). rewrite own_app, E. split; [|exact A]. rewrite <- app_assoc. reflexivity.
  Qed.
  Lemma got_accepted i c p b g : got i c 27 p b g -> accepted c g.
  Proof. intros (t1 & ms & r & t2 & E & A). exists i, t1, p, ms, r, b, t2. auto. Qed.
  Lemma got_named i c b mac g : got i c 14 [] b g -> decodeMessageString b = Ok mac -> named c mac g.
  Proof. intros (t1 & ms & r & t2 & E & A) D. exists i, t1, ms, r, b, t2. auto. Qed.
  Lemma keeps_request i c X p mr g w : Inv g w -> plain i g X ->
    ((exists m, makeMessage 0 X p = Ok m) -> due i g X p) -> (allowed i c X g) ->
    keeps i (tmake_request c X p mr) g w (fun g' _ r => answered_login i c X p g' r).
  Proof.
    intros I N D A. eapply safe_mono; [apply asks_request; eassumption|]. cbn. intros g' w' [[b|]|e|y] (P & Y).
    - destruct Y as (Y & L). split; [|split; [exact P|intros b0 E; injection E as <-; exact L]]. eapply fresh_plain; [|exact Y]. left.
      destruct N as [N|(m & d & N)]; [left; exact N|right]. exists m, d. eapply prefix_in; eassumption.
    - split; [exact Y|split; [exact P|]]. intros b E. discriminate E.
    - auto.
    - auto.
  Qed.
End Instance.
