(** Overlapping calls on a connection that stays up and answers (C111). *)
From Verif Require Import Py F64 Struct Utf Utility Const Spec Enum Decode Messages Calls World Request Gateway Traces Paths Api Tasks Pool SpecPool SpecShare.
From Verif Require Import P_Calm P_Pool.
From Verif Require P_Base P_Moves.

(** ** no argument check raises a communication error *)
Definition rq {A} (r : res A) : Prop := match r with Err e => is_comm_error e = false | Ok _ => True end.
Lemma rq_bind {A B} (r : res A) (f : A -> res B) : rq r -> (forall a, rq (f a)) -> rq (rbind r f).
Proof. destruct r; cbn [rbind rq]; auto. Qed.
Lemma rq_calm {A} (r : res A) : rcalm r -> rq r. Proof. destruct r; cbn; auto using foreign_comm. Qed.
Lemma rq_section s x d : rq (in_section s x d).
Proof. unfold in_section. destruct (dget s d) as [[]|]; try reflexivity. unfold contains. destruct x; exact Logic.I || reflexivity. Qed.
Lemma rq_leb a b : rq (num_leb a b). Proof. apply rq_calm, rc_leb. Qed.
Lemma rq_ltb a b : rq (num_ltb a b).
Proof. unfold num_ltb. apply rq_bind; [apply rq_calm, rc_cmp|intros [[]|]; exact Logic.I]. Qed.
Lemma rq_heatmode m : rq (is_valid_heatmode m).
Proof. apply rq_bind; [apply rq_leb|]. intros []; [apply rq_ltb|exact Logic.I]. Qed.
Lemma rq_color m : rq (is_valid_color_mode m).
Proof. apply rq_bind; [apply rq_leb|]. intros []; [apply rq_leb|exact Logic.I]. Qed.
Lemma rq_trunc f : rq (f_trunc f). Proof. destruct f; cbn; auto. Qed.
Lemma rq_int v : rq (py_int v). Proof. destruct v; try reflexivity; try exact Logic.I. apply rq_trunc. Qed.
Lemma rq_heattemp b t d : rq (is_valid_heattemp b t d).
Proof. apply rq_bind; [apply rq_int|]. intros i. cbv zeta. apply rq_bind; [apply rq_leb|]. intros []; [apply rq_leb|exact Logic.I]. Qed.
Lemma rq_walk s p : forall v, rq (walk s v p).
Proof. induction p as [|k p IH]; intros v; cbn [walk]; [exact Logic.I|]. destruct (is_none _); [destruct s; [reflexivity|exact Logic.I]|apply IH]. Qed.
Lemma rq_attr a s p d : rq (get_attr a s p d).
Proof. apply rq_bind; [apply rq_walk|]. intros v. cbv zeta. destruct (match v with VDict m => _ | _ => None end); [exact Logic.I|]. destruct s; [reflexivity|exact Logic.I]. Qed.
Lemma rq_or a p d : rq (or_current a p d). Proof. destruct a; [exact Logic.I|apply rq_attr]. Qed.
Lemma rq_range r v : rq (range_check r v).
Proof.
  unfold range_check. apply rq_bind; [|intros []; [exact Logic.I|reflexivity]]. unfold in_range. apply rq_bind; [apply rq_leb|]. intros []; [apply rq_leb|exact Logic.I].
Qed.
Lemma rq_sl {A} (r : res A) : rq r -> rq (as_sl_error r).
Proof. destruct r as [a|e]; cbn [as_sl_error]; [auto|]. destruct e; cbn; auto. Qed.
Lemma rq_by_value e v : rq (enum_by_value e v).
Proof. induction e as [|[n x] e IH]; cbn [enum_by_value]; [reflexivity|]. destruct (x =? v); [exact Logic.I|exact IH]. Qed.
Lemma rq_by_name e v : rq (enum_by_name e v).
Proof. induction e as [|[n x] e IH]; cbn [enum_by_name]; [reflexivity|]. destruct (pystr_eqb _ _); [exact Logic.I|exact IH]. Qed.
Lemma rq_parse e v o : rq (parse e v o).
Proof.
  assert (D : rq (enum_default e o)) by (unfold enum_default; destruct o as [z|]; [|exact Logic.I]; pose proof (rq_by_value e z); destruct (enum_by_value e z); assumption).
  unfold parse. destruct v; try reflexivity.
  - pose proof (rq_by_value e z) as H. destruct (enum_by_value e z) as [m|x]; [exact Logic.I|]. destruct x; auto.
  - destruct (str_isdigit s).
    + pose proof (rq_by_value e (int_of_digits s)) as H. destruct (enum_by_value e (int_of_digits s)) as [m|x]; [exact Logic.I|]. destruct x; auto.
    + match goal with |- context [enum_by_name e ?x] => pose proof (rq_by_name e x) as H; destruct (enum_by_name e x) as [m|y]; [exact Logic.I|]; destruct y; auto end.
Qed.
Lemma rq_scg a b s t d : rq (scg_args a b s t d).
Proof.
  apply rq_sl. repeat (apply rq_bind; [apply rq_or || apply rq_range || apply rq_parse|intros ?]).
  match goal with |- rq (match ?m with _ => _ end) => destruct m as [[? ?]|]; [|reflexivity] end. apply rq_bind; [apply rq_range|intros; exact Logic.I].
Qed.
Lemma rq_chem a b c e f g d : rq (chem_args a b c e f g d).
Proof.
  apply rq_bind.
  - apply rq_sl. repeat (apply rq_bind; [apply rq_or || apply rq_range|intros ?]). exact Logic.I.
  - intros [[[[[? ?] ?] ?] ?] ?]. apply rq_bind; [|intros; exact Logic.I]. unfold times100. destruct p; try reflexivity; try exact Logic.I.
    apply rq_bind; [apply rq_trunc|intros; exact Logic.I].
Qed.
Lemma rq_datetime t a tz d : rq (datetime_args t a tz d).
Proof.
  assert (H : rq (rbind (match t with Some t => Ok t | None => rbind (get_data true [DEVICE_CONTROLLER; GROUP_DATE_TIME; VALUE_TIMESTAMP] d) (from_timestamp tz) end) (fun t =>
      rbind (or_current a [DEVICE_CONTROLLER; GROUP_DATE_TIME; VALUE_AUTO_DST] d) (fun a => Ok (t, a))))).
  { apply rq_bind.
    - destruct t; [exact Logic.I|]. apply rq_bind; [apply rq_walk|]. intros v. apply rq_bind.
      + unfold micros_of. destruct v; try reflexivity; try exact Logic.I. destruct f; try reflexivity; exact Logic.I.
      + intros us. unfold dt_of_micros. destruct (ord2ymd _) as [[y m] dd]. unfold make_dt. destruct (valid_dt _); [exact Logic.I|reflexivity].
    - intros t1. apply rq_bind; [apply rq_or|intros; exact Logic.I]. }
  unfold datetime_args. destruct t, a; [exact H|exact H|exact H|reflexivity].
Qed.
Lemma rq_pack_u n z : rq (pack_u n z). Proof. unfold pack_u. destruct (_ && _); [exact Logic.I|reflexivity]. Qed.
Lemma rq_pack l : rq (pack_Is l).
Proof.
  induction l as [|v l IH]; [exact Logic.I|]. cbn [pack_Is]. apply rq_bind; [|intros; apply rq_bind; [exact IH|intros; exact Logic.I]].
  destruct v; try reflexivity. apply rq_pack_u.
Qed.
Lemma rq_packHs l : rq (pack_Hs l).
Proof. induction l as [|v l IH]; [exact Logic.I|]. cbn [pack_Hs]. apply rq_bind; [apply rq_pack_u|]. intros. apply rq_bind; [exact IH|intros; exact Logic.I]. Qed.
Lemma rq_time t : rq (encodeMessageTime t).
Proof. apply rq_bind; [apply rq_trunc|]. intros ms. apply rq_packHs. Qed.
Lemma rq_message a b c : rq (makeMessage a b c).
Proof. unfold makeMessage. repeat (apply rq_bind; [apply rq_pack_u|intros ?]). exact Logic.I. Qed.
Lemma rq_flags d : rq (equipment_flags d).
Proof. unfold equipment_flags. destruct (soft _); exact Logic.I || reflexivity. Qed.

(** ** the logic *)
(** a conversation on [c]: requests, each followed by its proper answer *)
Inductive rounds (c : nat) : trace -> list (Z * bytes) -> Prop :=
| R_none : rounds c [] []
| R_more t l X p k clk : rounds c t l -> right_answer X k ->
    rounds c (t ++ [Send c X p; AwaitReply c 2000; Got (mkResp k [] None clk)]) (l ++ [(X, p)]).

Section Steady.
Variable c : nat.
(** who is cancelled while waiting for the lock gives up at once *)
Fixpoint aborts {A} (m : task A) : Prop :=
  match m with
  | Done (Exc ECancelled) => True
  | Do f k => (forall w, healthy c w -> healthy c (snd (f w)) /\ fst (f w) = []) /\ aborts k
  | _ => False
  end.
Fixpoint steady {A} (t : trace) (m : task A) (Q : trace -> out A -> Prop) : Prop :=
  match m with
  | Done o => Q t o
  | Look k => forall w, healthy c w -> steady t (k w) Q
  | Do f k => forall w, healthy c w -> healthy c (snd (f w)) /\ (forall e, In e (fst (f w)) -> exists X p, e = Send c X p) /\ steady (t ++ fst (f w)) k Q
  | Wait e k => e = AwaitReply c 2000 /\ exists t0 l X p, t = t0 ++ [Send c X p] /\ rounds c t0 l /\
      forall kd clk, right_answer X kd -> steady (t ++ [e; Got (mkResp kd [] None clk)]) (k kd) Q
  | Lock k x => (exists l, rounds c t l) /\ steady t k Q /\ aborts x /\ Q t (Exc ECancelled)
  end.
Lemma aborts_bind {A B} (m : task A) (f : A -> task B) : aborts m -> aborts (tbind m f).
Proof. induction m as [[a|[]|y]|k IH|h k IH|e k IH|k IH xx IHx]; cbn [aborts tbind]; try intros []; auto. Qed.
Lemma aborts_catch {A} (m : task A) p (h : exn -> task A) : p ECancelled = false -> aborts m -> aborts (tcatch m p h).
Proof. intros P. induction m as [[a|e|y]|k IH|g k IH|e k IH|k IH xx IHx]; cbn [aborts tcatch]; try intros []; auto. destruct e; cbn [aborts]; try intros []. rewrite P. exact Logic.I. Qed.
Lemma aborts_finally {A} (m : task A) (f : world -> world) : (forall w, healthy c w -> healthy c (f w)) -> aborts m -> aborts (tfinally m f).
Proof.
  intros F. induction m as [[a|e|y]|k IH|g k IH|e k IH|k IH xx IHx]; cbn [aborts tfinally]; try intros []; auto. destruct e; cbn [aborts]; try intros [].
  split; [|exact Logic.I]. intros w W. split; [apply F, W|reflexivity].
Qed.
Lemma aborts_runs {A} (m : task A) : forall w, aborts m -> healthy c w -> exists w', advance m w = ([], w', Done (Exc ECancelled)) /\ healthy c w'.
Proof.
  induction m as [[a|e|y]|k IH|g k IH|e k IH|k IH xx IHx]; intros w H W; cbn [aborts] in H; try destruct H.
  - destruct e; try destruct H. cbn [advance]. eauto.
  - cbn [advance]. destruct (H w W) as (W1 & E). destruct (g w) as [t1 w1]. cbn [fst snd] in *. destruct (IH w1 H0 W1) as (w2 & E2 & W2). rewrite E2, E. eauto.
Qed.

Lemma steady_mono {A} (m : task A) : forall t (Q Q' : trace -> out A -> Prop), steady t m Q -> (forall t' o, Q t' o -> Q' t' o) -> steady t m Q'.
Proof.
  induction m as [o|k IH|f k IH|e k IH|k IH xx IHx]; intros t Q Q' S H; cbn [steady] in *.
  - auto.
  - intros w W. eapply IH; eauto.
  - intros w W. destruct (S w W) as (S1 & S2 & S3). split; [exact S1|]. split; [exact S2|]. eapply IH; eauto.
  - destruct S as (-> & t0 & l & X & p & E & R & S). split; [reflexivity|]. exists t0, l, X, p. split; [exact E|]. split; [exact R|]. intros. eapply IH; eauto.
  - destruct S as (S1 & S2 & S3 & S4). split; [exact S1|]. eauto.
Qed.
Lemma steady_bind {A B} (m : task A) (f : A -> task B) : forall t (Q : trace -> out B -> Prop),
  steady t m (fun t' o => match o with Val a => steady t' (f a) Q | Exc e => Q t' (Exc e) | Stuck y => Q t' (Stuck y) end) -> steady t (tbind m f) Q.
Proof.
  induction m as [[a|e|y]|k IH|h k IH|e k IH|k IH xx IHx]; intros t Q S; cbn [steady tbind] in *; auto.
  - intros w W. destruct (S w W) as (S1 & S2 & S3). auto.
  - destruct S as (-> & t0 & l & X & p & E & R & S). split; [reflexivity|]. exists t0, l, X, p. split; [exact E|]. split; [exact R|]. intros. apply IH. auto.
  - destruct S as (S1 & S2 & S3 & S4). split; [exact S1|]. split; [auto|]. split; [apply aborts_bind, S3|exact S4].
Qed.
Lemma steady_catch {A} (m : task A) (p : exn -> bool) (h : exn -> task A) : forall t (Q : trace -> out A -> Prop),
  steady t m (fun t' o => match o with Exc e => p e = false /\ Q t' (Exc e) | _ => Q t' o end) -> steady t (tcatch m p h) Q.
Proof.
  induction m as [[a|e|y]|k IH|g k IH|e k IH|k IH xx IHx]; intros t Q S; cbn [steady tcatch] in *; auto.
  - destruct S as (-> & S). exact S.
  - intros w W. destruct (S w W) as (S1 & S2 & S3). auto.
  - destruct S as (-> & t0 & l & X & q & E & R & S). split; [reflexivity|]. exists t0, l, X, q. split; [exact E|]. split; [exact R|]. intros. apply IH. auto.
  - destruct S as (S1 & S2 & S3 & (S4 & S5)). split; [exact S1|]. split; [auto|]. split; [apply aborts_catch; assumption|exact S5].
Qed.
Lemma steady_finally {A} (m : task A) (f : world -> world) : (forall w, healthy c w -> healthy c (f w)) -> forall t (Q : trace -> out A -> Prop),
  steady t m Q -> steady t (tfinally m f) Q.
Proof.
  intros F. induction m as [[a|e|y]|k IH|g k IH|e k IH|k IH xx IHx]; intros t Q S; cbn [steady tfinally] in *; auto.
  1, 2: intros w W; cbn [fst snd]; rewrite app_nil_r; split; [auto|]; split; [intros e0 []|exact S].
  - intros w W. destruct (S w W) as (S1 & S2 & S3). auto.
  - destruct S as (-> & t0 & l & X & q & E & R & S). split; [reflexivity|]. exists t0, l, X, q. split; [exact E|]. split; [exact R|]. intros. apply IH. auto.
  - destruct S as (S1 & S2 & S3 & S4). split; [exact S1|]. split; [auto|]. split; [apply aborts_finally; assumption|exact S4].
Qed.

(** [m] asks for [l'], which satisfies [S], and ends as [G] says *)
Definition talks {A} (m : task A) (S : list (Z * bytes) -> Prop) (G : out A -> Prop) : Prop :=
  forall t l, rounds c t l -> steady t m (fun t' o => exists l', rounds c t' (l ++ l') /\ S l' /\ G o).
(** no communication error, and not stuck *)
Definition fine {A} (o : out A) : Prop := match o with Val _ => True | Exc e => is_comm_error e = false | Stuck _ => False end.
Definition none (l : list (Z * bytes)) : Prop := l = [].

Lemma talks_mono {A} (m : task A) (S S' : list (Z * bytes) -> Prop) (G G' : out A -> Prop) : talks m S G -> (forall l, S l -> S' l) -> (forall o, G o -> G' o) -> talks m S' G'.
Proof. intros T HS HG t l R. eapply steady_mono; [apply T; exact R|]. cbv beta. intros t' o (l' & A1 & A2 & A3). exists l'. auto. Qed.
Lemma talks_done {A} (o : out A) (G : out A -> Prop) : G o -> talks (Done o) none G.
Proof. intros H t l R. cbn [steady]. exists []. rewrite app_nil_r. split; [exact R|]. split; [reflexivity|exact H]. Qed.
Lemma talks_bind {A B} (m : task A) (f : A -> task B) (S1 S2 S : list (Z * bytes) -> Prop) (G1 : out A -> Prop) (G2 : out B -> Prop) :
  talks m S1 G1 -> (forall a, G1 (Val a) -> talks (f a) S2 G2) ->
  (forall e l, G1 (Exc e) -> S1 l -> G2 (Exc e) /\ S l) -> (forall y, ~ G1 (Stuck y)) -> (forall l1 l2, S1 l1 -> S2 l2 -> S (l1 ++ l2)) ->
  talks (tbind m f) S G2.
Proof.
  intros M F HE HY H2 t l R. apply steady_bind. eapply steady_mono; [apply M; exact R|]. cbv beta.
  intros t' o (l1 & R1 & A1 & A2). destruct o as [a|e|y].
  - eapply steady_mono; [apply (F a A2); exact R1|]. cbv beta. intros t'' o (l2 & R2 & B1 & B2). exists (l1 ++ l2). rewrite app_assoc. auto.
  - exists l1. destruct (HE e l1 A2 A1). auto.
  - destruct (HY y A2).
Qed.
(** the usual case: all ends are [fine] *)
Lemma talks_seq {A B} (m : task A) (f : A -> task B) (S1 S2 S : list (Z * bytes) -> Prop) :
  talks m S1 fine -> (forall a, talks (f a) S2 fine) -> (forall l, S1 l -> S l) -> (forall l1 l2, S1 l1 -> S2 l2 -> S (l1 ++ l2)) -> talks (tbind m f) S fine.
Proof. intros M F H1 H2. eapply talks_bind; [exact M|intros a _; apply F|auto|intros y H; exact H|exact H2]. Qed.
Lemma talks_look {A} (k : world -> task A) S G : (forall w, healthy c w -> talks (k w) S G) -> talks (Look k) S G.
Proof. intros K t l R w W. apply K; [exact W|exact R]. Qed.
Lemma talks_get {A B} (f : world -> A) (k : A -> task B) S G : (forall w, healthy c w -> talks (k (f w)) S G) -> talks (tbind (tget f) k) S G.
Proof. apply (talks_look (fun w => k (f w))). Qed.
Lemma talks_lift {A B} (r : res A) (k : A -> task B) (S : list (Z * bytes) -> Prop) : S [] -> rq r -> (forall a, r = Ok a -> talks (k a) S fine) -> talks (tbind (tlift r) k) S fine.
Proof.
  intros N H K. destruct r as [a|e]; cbn [tlift tbind tret traise]; [apply K; reflexivity|]. intros t l R. cbn [steady]. exists []. rewrite app_nil_r. auto.
Qed.
Lemma talks_do {A} f (k : unit -> task A) S G : (forall w, healthy c w -> healthy c (f w)) -> talks (k tt) S G -> talks (tbind (tdo f) k) S G.
Proof.
  intros F K t l R. cbn [tdo tbind tret steady fst snd]. intros w W. rewrite app_nil_r. split; [auto|]. split; [intros e []|]. apply K. exact R.
Qed.
Lemma talks_do_end f : (forall w, healthy c w -> healthy c (f w)) -> talks (tdo f) none fine.
Proof.
  intros F t l R. cbn [tdo tret steady fst snd]. intros w W. rewrite app_nil_r. split; [auto|]. split; [intros e []|]. exists []. rewrite app_nil_r. split; [exact R|]. split; [reflexivity|exact Logic.I].
Qed.
Lemma talks_lock {A} (m : task A) (S : list (Z * bytes) -> Prop) (G : out A -> Prop) : S [] -> G (Exc ECancelled) -> talks m S G -> talks (twith_lock m) S G.
Proof.
  intros S0 G0 M t l R. cbn [twith_lock steady traise aborts]. split; [eauto|]. split; [apply steady_finally; [intros w W; exact W|]; apply M; exact R|].
  split; [exact Logic.I|]. exists []. rewrite app_nil_r. auto.
Qed.
End Steady.

(** ** changes that keep the connection healthy *)
Lemma healthy_same c w w' : w_proto w' = w_proto w -> m_proto (w_cm w') = m_proto (w_cm w) -> w_conns w' = w_conns w -> w_retries w' = w_retries w -> healthy c w -> healthy c w'.
Proof. unfold healthy, connected, get_conn. intros -> -> -> ->. auto. Qed.
Lemma healthy_upd c c' f w : P_Moves.inner f -> healthy c w -> healthy c (upd_conn c' f w).
Proof.
  intros I (H1 & H2 & H3 & H4 & H5 & H6 & H7). unfold healthy, connected, get_conn, upd_conn in *. cbn [set_conns w_proto w_cm w_conns w_retries].
  rewrite P_Moves.lset_len. rewrite P_Moves.nth_lset.
  destruct (Nat.eqb_spec c c') as [<-|N]; [destruct (Nat.ltb _ _)|]; [|auto 10..].
  destruct (I (get_conn c w)) as (-> & -> & ->). unfold get_conn. auto 10.
Qed.
Lemma healthy_register c c' code h w : healthy c w -> healthy c (register c' code h w).
Proof. apply healthy_upd. intros k. auto. Qed.
Lemma healthy_unregister c c' code w : healthy c w -> healthy c (unregister c' code w).
Proof. apply healthy_upd. intros k. auto. Qed.
Lemma healthy_unregister_all c c' w : healthy c w -> healthy c (unregister_all c' w).
Proof. apply healthy_upd. intros k. auto. Qed.
Lemma healthy_keepalive c c' b w : healthy c w -> healthy c (keepalive b c' w).
Proof. apply healthy_upd. intros k. auto. Qed.
Lemma healthy_store_pump c i b w : healthy c w -> healthy c (store_pump i b w).
Proof. unfold store_pump. destruct (dget K_PUMPS (w_last w)) as [[]|]; auto. Qed.
Lemma healthy_entry c w : healthy c w -> healthy c (pumps_entry w).
Proof. unfold pumps_entry. destruct (din _ _); auto. Qed.
Lemma healthy_retries c k w : 0 < k < 6 -> healthy c w -> healthy c (set_retries k w).
Proof. intros K (H1 & H2 & H3 & H4 & H5 & H6 & H7). repeat (split; [assumption|]). split; [cbn; lia|exact H7]. Qed.

Section Calls.
Variable c : nat.
Notation talks := (talks c).
Definition one (X : Z) (p : bytes) (l : list (Z * bytes)) : Prop := l = [] \/ l = [(X, p)].
Definition answer_ok (X : Z) (o : out (option bytes)) : Prop :=
  match o with Val (Some b) => In X commands -> b = [] | Val None => False | Exc e => is_comm_error e = false | Stuck _ => False end.
Lemma rounds_snoc t l X p kd clk : rounds c t l -> right_answer X kd -> rounds c ((t ++ [Send c X p]) ++ [AwaitReply c 2000; Got (mkResp kd [] None clk)]) (l ++ [(X, p)]).
Proof. intros R A. rewrite <- app_assoc. cbn [app]. constructor; assumption. Qed.
Lemma talks_request X p mr : 0 <= mr -> talks (tmake_request c X p mr) (one X p) (answer_ok X).
Proof.
  intros M t l R. unfold tmake_request. replace (Z.to_nat (mr + 1)) with (S (Z.to_nat mr)) by lia. cbn [trequest_loop].
  cbn [tget tbind tret steady]. intros w (H1 & H2 & H3 & H4 & H5 & H6 & H7). rewrite H3. cbn [negb tget tbind steady tret].
  intros w1 (A1 & A2 & A3 & A4 & A5 & A6 & A7). rewrite A4. unfold tsend. cbn [tget tbind steady tret].
  intros w2 (B1 & B2 & B3 & B4 & B5 & B6 & B7). rewrite B5. pose proof (rq_message 0 X p) as RM. destruct (makeMessage 0 X p) as [msg|e]; cbn [tlift tbind tret traise temit steady fst snd].
  2: { exists []. rewrite app_nil_r. split; [exact R|]. split; [left; reflexivity|exact RM]. }
  intros w3 W3. split; [exact W3|]. split; [intros e [<-|[]]; eauto|]. split; [reflexivity|]. exists t, l, X, p. split; [reflexivity|]. split; [exact R|].
  intros kd clk A. pose proof (rounds_snoc t l X p kd clk R A) as R2. destruct A as (b & -> & A). unfold tret. cbn [tbind]. cbv beta iota. rewrite Z.eqb_refl. cbn [steady].
  exists [(X, p)]. split; [exact R2|]. split; [right; reflexivity|exact A].
Qed.
Lemma none_any (S : list (Z * bytes) -> Prop) : S [] -> forall l, none l -> S l. Proof. intros H l ->. exact H. Qed.
Lemma talks_end {A} (o : out A) (S : list (Z * bytes) -> Prop) : S [] -> fine o -> talks (Done o) S fine.
Proof. intros N F. eapply talks_mono; [apply talks_done; exact F|apply none_any; exact N|auto]. Qed.
Lemma talks_decode m : calm m -> talks (tdecode m) none fine.
Proof.
  intros C. apply talks_look. intros w W. specialize (C (w_data w)). destruct (m (w_data w)) as [d [x|e]]; cbn [snd rcalm] in C; intros t l R; cbn [steady tret traise fst snd];
    intros w1 W1; rewrite app_nil_r; (split; [exact W1|]); (split; [intros e0 []|]); exists []; rewrite app_nil_r; (split; [exact R|]); (split; [reflexivity|]); cbn; auto using foreign_comm.
Qed.
Lemma one_nil X p : one X p []. Proof. left. reflexivity. Qed.
Lemma one_app X p l1 l2 : one X p l1 -> none l2 -> one X p (l1 ++ l2). Proof. intros O ->. rewrite app_nil_r. exact O. Qed.
Lemma answer_fine X o : answer_ok X o -> fine o. Proof. destruct o as [[b|]|e|y]; cbn; auto. Qed.
Definition le1 (l : list (Z * bytes)) : Prop := (List.length l <= 1)%nat.
Lemma one_le1 X p l : one X p l -> le1 l. Proof. intros [->| ->]; cbn; unfold le1; cbn; lia. Qed.
Lemma talks_data X p dec mr : 0 <= mr -> (forall b, calm (dec b)) -> talks (tdata_request X p dec mr c) (one X p) fine.
Proof.
  intros M D. unfold tdata_request. eapply (talks_bind c _ _ (one X p) none); [apply talks_request; exact M| | |intros y []|apply one_app].
  - intros a _. destruct (nonempty a) as [b|]; [|apply talks_done; exact Logic.I].
    eapply (talks_seq c _ _ none none); [apply talks_decode, D|intros _; apply talks_done; exact Logic.I|auto|intros ? ? -> ->; reflexivity].
  - intros e l H O. split; [exact H|]. eauto using one_le1.
Qed.
Lemma talks_date mr : 0 <= mr -> talks (trequest_date_time mr c) (one 8110 []) fine.
Proof.
  intros M. unfold trequest_date_time. eapply (talks_bind c _ _ (one 8110 []) none); [apply talks_request; exact M| | |intros y []|apply one_app].
  - intros a _. destruct (nonempty a) as [b|]; [|apply talks_done; exact Logic.I]. apply talks_get. intros w W.
    eapply (talks_seq c _ _ none none); [apply talks_decode, ca_datetime|intros _; apply talks_done; exact Logic.I|auto|intros ? ? -> ->; reflexivity].
  - intros e l H O. split; [exact H|]. eauto using one_le1.
Qed.
Lemma le1_nil : le1 []. Proof. unfold le1. cbn. lia. Qed.
Lemma le1_app l1 l2 : le1 l1 -> none l2 -> le1 (l1 ++ l2). Proof. intros O ->. rewrite app_nil_r. exact O. Qed.
Lemma none_le1 l : none l -> le1 l. Proof. intros ->. apply le1_nil. Qed.
Lemma talks_command_request X payload mr : 0 <= mr -> In X commands -> rq payload -> talks (tcommand_request X payload mr c) le1 fine.
Proof.
  intros M C P. unfold tcommand_request. apply talks_lift; [apply le1_nil|exact P|]. intros p _.
  eapply (talks_bind c _ _ (one X p) none); [apply talks_request; exact M| | |intros y []|intros l1 l2 H1 H2; apply le1_app; [eapply one_le1; exact H1|exact H2]].
  - intros [b|] H; [|destruct H]. rewrite (H C). apply talks_done. exact Logic.I.
  - intros e l H O. split; [exact H|]. eauto using one_le1.
Qed.

(** ** gateway.py *)
Variable n : nat.
Lemma talks_connect x : talks (tasync_connect (S n) x) none (fun o => o = Val true).
Proof.
  intros t l R. cbn [tasync_connect tget tbind steady tret]. intros w (H1 & H2 & H3 & _). unfold is_connected. rewrite H1, H3. cbn [steady tret].
  exists []. rewrite app_nil_r. split; [exact R|]. split; reflexivity.
Qed.
Lemma talks_connected {A} x (method : Z -> nat -> task A) delay S : (forall mr, 0 <= mr -> talks (method mr c) S fine) ->
  talks (tconnected_request (tasync_connect (Datatypes.S n) x) method delay) S fine.
Proof.
  intros M. unfold tconnected_request. apply talks_get. intros w (_ & _ & _ & _ & _ & W & _). intros t l R. apply steady_catch.
  assert (T : talks (tattempt_request (tasync_connect (Datatypes.S n) x) method (w_retries w)) S fine).
  { unfold tattempt_request. eapply (talks_bind c _ _ none S); [apply talks_connect| | |discriminate|intros ? ? ->; cbn [app]; auto].
    - intros a E. injection E as ->. cbn [negb]. unfold tproto_or_fail. intros t1 l1 R1. cbn [tget tbind steady tret]. intros w1 (H1 & _). rewrite H1. cbn [tret tbind].
      apply M; [lia|exact R1].
    - discriminate. }
  eapply steady_mono; [apply T; exact R|]. cbv beta. intros t' o (l' & A1 & A2 & A3). destruct o as [a|e|y]; [exists l'; auto| |exists l'; auto].
  split; [exact A3|exists l'; auto].
Qed.
Lemma talks_command {A} (method : Z -> nat -> task A) delay S : (forall mr, 0 <= mr -> talks (method mr c) S fine) ->
  talks (tcommand (Datatypes.S n) method delay) S fine.
Proof. apply talks_connected. Qed.
Lemma talks_get_poll k method X p : (forall mr, 0 <= mr -> talks (method mr c) (one X p) fine) -> talks (tget_poll (S n) k method) (one X p) fine.
Proof.
  intros M. unfold tget_poll, tpoll. eapply (talks_seq c _ _ (one X p) none); [apply talks_connected; exact M| |auto|apply one_app].
  intros [b|]; [apply talks_do_end; intros w W; exact W|apply talks_done; exact Logic.I].
Qed.

(** a part of the list, in the same order *)
Inductive part {X} : list X -> list X -> Prop :=
| part_nil l : part [] l
| part_skip x l l' : part l l' -> part l (x :: l')
| part_take x l l' : part l l' -> part (x :: l) (x :: l').
Lemma part_app {X} (a b : list X) : part a b -> forall a' b', part a' b' -> part (a ++ a') (b ++ b').
Proof.
  induction 1; intros a' b' P; cbn [app].
  - induction l as [|y l IH]; [exact P|constructor; exact IH].
  - apply part_skip. auto.
  - apply part_take. auto.
Qed.
Lemma part_in {X} (a b : list X) x : part a b -> In x a -> In x b.
Proof. induction 1; intros J; cbn [In] in *; [destruct J|right; auto|destruct J; auto]. Qed.
Lemma part_nodup {X} (a b : list X) : part a b -> NoDup b -> NoDup a.
Proof. induction 1; intros N; [constructor|inversion N; auto|]. inversion N; subst. constructor; [|auto]. intros J. apply H2. eapply part_in; eassumption. Qed.
Lemma one_part X p l : one X p l -> part l [(X, p)].
Proof. intros [->| ->]; [apply part_nil|apply part_take, part_nil]. Qed.

Definition pump_plan (ids : list Z) : list (Z * bytes) := map (fun i => (12584, u32le 0 ++ u32le i)) ids.
Lemma talks_pumps ids : Forall (fun i => 0 <= i < 8) ids -> talks (tpumps_loop (S n) ids) (fun l => part l (pump_plan ids)) fine.
Proof.
  induction ids as [|i ids IH]; intros F; [apply talks_end; [constructor|exact Logic.I]|]. inversion F as [|? ? Hi F']; subst. cbn [tpumps_loop].
  apply talks_get. intros w W. apply talks_lift; [constructor|apply rq_flags|]. intros flags _.
  assert (T : talks (tcommand (S n) (trequest_pump_status i) 1) (one 12584 (u32le 0 ++ u32le i)) fine).
  { apply talks_command. intros mr M. unfold trequest_pump_status. assert (PI : pack_Is [VInt 0; VInt i] = Ok (u32le 0 ++ u32le i)).
    { destruct i as [|q|q]; [reflexivity| |lia]. do 3 (destruct q as [q|q|]; try reflexivity; try lia). }
    rewrite PI. cbn [tlift tbind tret]. apply talks_data; [exact M|]. intros b. apply ca_pump. }
  eapply (talks_seq c _ _ (one 12584 (u32le 0 ++ u32le i)) (fun l => part l (pump_plan ids))).
  - destruct (Z.land _ _ =? 0); [apply talks_end; [apply one_nil|exact Logic.I]|]. apply talks_do; [apply healthy_entry|].
    eapply (talks_seq c _ _ (one 12584 (u32le 0 ++ u32le i)) none); [exact T| |auto|apply one_app].
    intros [b|]; [apply talks_do_end; intros w1; apply healthy_store_pump|apply talks_done; exact Logic.I].
  - intros _. apply IH. exact F'.
  - intros l O. apply one_part in O. cbn [pump_plan map]. change (part l ([(12584, u32le 0 ++ u32le i)] ++ pump_plan ids)). rewrite <- (app_nil_r l). apply part_app; [exact O|constructor].
  - intros l1 l2 O P. apply one_part in O. exact (part_app _ _ O _ _ P).
Qed.
Definition update_plan : list (Z * bytes) :=
  [(12526, u32le 0)] ++ pump_plan [0; 1; 2; 3; 4; 5; 6; 7] ++ [(12592, u32le 0); (12572, u32le 0); (8110, [])].
Lemma talks_update : talks (tasync_update (S n)) (fun l => part l update_plan) fine.
Proof.
  unfold tasync_update. apply talks_get. intros w W. destruct (w_data w); [apply talks_end; [constructor|reflexivity]|].
  assert (ST : forall A B (m : task A) (f : A -> task B) a b, talks m (fun l => part l a) fine -> (forall x, talks (f x) (fun l => part l b) fine) -> talks (tbind m f) (fun l => part l (a ++ b)) fine).
  { intros A B m f a b HM HF. eapply (talks_seq c m f (fun l => part l a) (fun l => part l b)); [exact HM|exact HF| |].
    - intros l' P. rewrite <- (app_nil_r l'). apply part_app; [exact P|constructor].
    - intros l1 l2 P1 P2. apply part_app; assumption. }
  assert (O : forall X q (m : task unit), talks m (one X q) fine -> talks m (fun l => part l [(X, q)]) fine) by (intros; eapply talks_mono; [eassumption|apply one_part|auto]).
  unfold update_plan. apply ST; [apply O, talks_get_poll; intros; apply talks_data; [assumption|apply ca_status]|]. intros _.
  apply ST; [apply talks_pumps; repeat constructor; lia|]. intros _.
  change [(12592, u32le 0); (12572, u32le 0); (8110, [])] with ([(12592, u32le 0)] ++ [(12572, u32le 0)] ++ [(8110, @nil Z)]).
  apply ST; [apply O, talks_get_poll; intros; apply talks_data; [assumption|apply ca_chem]|]. intros _.
  apply ST; [apply O, talks_get_poll; intros; apply talks_data; [assumption|apply ca_scg]|]. intros _.
  apply O, talks_get_poll. intros. apply talks_date. assumption.
Qed.
Lemma plan_data l X p : part l update_plan -> In (X, p) l -> In X commands -> False.
Proof.
  intros P J C. pose proof (part_in _ _ _ P J) as J'. assert (FA : forallb (fun x => negb (existsb (Z.eqb (fst x)) commands)) update_plan = true) by (vm_compute; reflexivity).
  rewrite forallb_forall in FA. specialize (FA _ J'). cbn [fst] in FA. apply negb_true_iff in FA. rewrite <- not_true_iff_false, existsb_exists in FA. apply FA. exists X. split; [exact C|apply Z.eqb_refl].
Qed.
Lemma talks_require {A} (r : res bool) (k : unit -> task A) (S : list (Z * bytes) -> Prop) : S [] -> rq r -> talks (k tt) S fine -> talks (tbind (trequire r) k) S fine.
Proof.
  intros N R K. unfold trequire. destruct r as [[|]|e]; cbn [tlift tbind tret traise]; [exact K|apply talks_end; [exact N|reflexivity]|apply talks_end; [exact N|exact R]].
Qed.

(** ** what has been asked for and how the call ended, together *)
(** [m] asks for [l] and ends in [o], with [J l o] *)
Definition deals {A} (m : task A) (J : list (Z * bytes) -> out A -> Prop) : Prop :=
  forall t l, rounds c t l -> steady c t m (fun t' o => exists l', rounds c t' (l ++ l') /\ J l' o).
(** it asks for nothing, or for one thing and returns *)
Definition settles {A} (l : list (Z * bytes)) (o : out A) : Prop := (l = [] /\ fine o) \/ (exists x a, l = [x] /\ o = Val a).
Definition returned {A} (o : out A) : Prop := exists a, o = Val a.
Lemma deals_mono {A} (m : task A) (J J' : list (Z * bytes) -> out A -> Prop) : deals m J -> (forall l o, J l o -> J' l o) -> deals m J'.
Proof. intros D H t l R. eapply steady_mono; [apply D; exact R|]. cbv beta. intros t' o (l' & A1 & A2). exists l'. auto. Qed.
Lemma talks_deals {A} (m : task A) S G : talks m S G -> deals m (fun l o => S l /\ G o).
Proof. intros H. exact H. Qed.
Lemma deals_none {A} (m : task A) : talks m none fine -> deals m settles.
Proof. intros H. eapply deals_mono; [apply talks_deals; exact H|]. intros l o (-> & F). left. auto. Qed.
Lemma deals_end {A} (o : out A) : fine o -> deals (Done o) settles.
Proof. intros F. apply deals_none, talks_done. exact F. Qed.
Lemma deals_then {A B} (m : task A) (f : A -> task B) : deals m settles -> (forall a, talks (f a) none returned) -> deals (tbind m f) settles.
Proof.
  intros M F t l R. apply steady_bind. eapply steady_mono; [apply M; exact R|]. cbv beta. intros t' o (l1 & R1 & A1).
  destruct A1 as [(-> & A1)|(x & a & -> & ->)].
  - destruct o as [a|e|y]; [|exists []; split; [exact R1|left; auto]|destruct A1].
    eapply steady_mono; [apply (F a); exact R1|]. cbv beta. intros t'' o (l2 & R2 & -> & b & ->). exists []. rewrite !app_nil_r in R2. rewrite app_nil_r. split; [exact R2|]. left. split; [reflexivity|exact Logic.I].
  - eapply steady_mono; [apply (F a); exact R1|]. cbv beta. intros t'' o (l2 & R2 & -> & b & ->). exists [x]. rewrite app_nil_r in R2. split; [exact R2|]. right. eauto.
Qed.
Lemma deals_look {A} (k : world -> task A) J : (forall w, healthy c w -> deals (k w) J) -> deals (Look k) J.
Proof. intros K t l R w W. apply K; [exact W|exact R]. Qed.
Lemma deals_get {A B} (f : world -> A) (k : A -> task B) J : (forall w, healthy c w -> deals (k (f w)) J) -> deals (tbind (tget f) k) J.
Proof. apply (deals_look (fun w => k (f w))). Qed.
Lemma deals_lift {A B} (r : res A) (k : A -> task B) : rq r -> (forall a, r = Ok a -> deals (k a) settles) -> deals (tbind (tlift r) k) settles.
Proof. intros H K. destruct r as [a|e]; cbn [tlift tbind tret traise]; [apply K; reflexivity|apply deals_end; exact H]. Qed.
Lemma deals_do {A} f (k : unit -> task A) J : (forall w, healthy c w -> healthy c (f w)) -> deals (k tt) J -> deals (tbind (tdo f) k) J.
Proof. intros F K t l R. cbn [tdo tbind tret steady fst snd]. intros w W. rewrite app_nil_r. split; [auto|]. split; [intros e []|]. apply K. exact R. Qed.
Lemma deals_lock {A} (m : task A) : deals m settles -> deals (twith_lock m) settles.
Proof.
  intros M t l R. cbn [twith_lock steady traise aborts]. split; [eauto|]. split; [apply steady_finally; [intros w W; exact W|]; apply M; exact R|].
  split; [exact Logic.I|]. exists []. rewrite app_nil_r. split; [exact R|]. left. split; reflexivity.
Qed.
Lemma deals_require {A} (r : res bool) (k : unit -> task A) : rq r -> deals (k tt) settles -> deals (tbind (trequire r) k) settles.
Proof.
  intros R K. unfold trequire. destruct r as [[|]|e]; cbn [tlift tbind tret traise]; [exact K|apply deals_end; reflexivity|apply deals_end; exact R].
Qed.
Lemma deals_catch {A} (m : task A) (h : exn -> task A) : deals m settles -> deals (tcatch m is_comm_error h) settles.
Proof.
  intros K t l R. apply steady_catch. eapply steady_mono; [apply K; exact R|]. cbv beta. intros t' o (l' & A1 & A2).
  destruct o as [a|e|y]; [exists l'; auto| |exists l'; auto]. destruct A2 as [(-> & A2)|(x & a & _ & A2)]; [|discriminate A2]. split; [exact A2|]. exists []. split; [exact A1|]. left. auto.
Qed.
Lemma deals_request X p mr : 0 <= mr -> deals (tmake_request c X p mr) (fun l o => answer_ok X o /\ settles l o).
Proof.
  intros M t l R. unfold tmake_request. replace (Z.to_nat (mr + 1)) with (S (Z.to_nat mr)) by lia. cbn [trequest_loop].
  cbn [tget tbind tret steady]. intros w (H1 & H2 & H3 & H4 & H5 & H6 & H7). rewrite H3. cbn [negb tget tbind steady tret].
  intros w1 (A1 & A2 & A3 & A4 & A5 & A6 & A7). rewrite A4. unfold tsend. cbn [tget tbind steady tret].
  intros w2 (B1 & B2 & B3 & B4 & B5 & B6 & B7). rewrite B5. pose proof (rq_message 0 X p) as RM. destruct (makeMessage 0 X p) as [msg|e]; cbn [tlift tbind tret traise temit steady fst snd].
  2: { exists []. rewrite app_nil_r. split; [exact R|]. split; [exact RM|]. left. split; [reflexivity|exact RM]. }
  intros w3 W3. split; [exact W3|]. split; [intros e [<-|[]]; eauto|]. split; [reflexivity|]. exists t, l, X, p. split; [reflexivity|]. split; [exact R|].
  intros kd clk A. pose proof (rounds_snoc t l X p kd clk R A) as R2. destruct A as (b & -> & A). unfold tret. cbn [tbind]. cbv beta iota. rewrite Z.eqb_refl. cbn [steady].
  exists [(X, p)]. split; [exact R2|]. split; [exact A|]. right. eauto.
Qed.
Lemma deals_command_request X payload mr : 0 <= mr -> In X commands -> rq payload -> deals (tcommand_request X payload mr c) settles.
Proof.
  intros M C P. unfold tcommand_request. apply deals_lift; [exact P|]. intros p _ t l R. apply steady_bind.
  eapply steady_mono; [apply deals_request; [exact M|exact R]|]. cbv beta. intros t' o (l1 & R1 & A1 & A2). destruct o as [[b|]|e|y].
  - cbn [answer_ok] in A1. rewrite (A1 C). cbn [steady tret]. exists l1. split; [exact R1|]. destruct A2 as [(-> & _)|(x & a & -> & _)]; [left; split; [reflexivity|exact Logic.I]|right; eauto].
  - destruct A1.
  - exists l1. split; [exact R1|]. destruct A2 as [(-> & H)|(x & a & _ & H)]; [left; auto|discriminate H].
  - destruct A1.
Qed.
Lemma deals_connected {A} x (method : Z -> nat -> task A) delay : (forall mr, 0 <= mr -> deals (method mr c) settles) ->
  deals (tconnected_request (tasync_connect (Datatypes.S n) x) method delay) settles.
Proof.
  intros M. unfold tconnected_request. apply deals_get. intros w (_ & _ & _ & _ & _ & W & _). apply deals_catch.
  unfold tattempt_request. intros t l R. apply steady_bind. eapply steady_mono; [apply talks_connect; exact R|]. cbv beta. intros t' o (l' & R' & -> & ->).
  cbn [negb]. unfold tproto_or_fail. cbn [tget tbind steady tret]. intros w1 (H1 & _). rewrite H1. cbn [tret tbind]. rewrite app_nil_r in R'. apply M; [lia|exact R'].
Qed.

(** ** every call but a disconnect *)
(** the messages sent are one, or some of those of an update; no call ends in a communication
    error, and none that has sent a command ends but by returning *)
Definition wanted {A} (l : list (Z * bytes)) (o : out A) : Prop :=
  (le1 l \/ part l update_plan) /\ fine o /\ forall X p, In (X, p) l -> In X commands -> returned o.
Lemma settles_wanted {A} l (o : out A) : settles l o -> wanted l o.
Proof.
  intros [(-> & F)|(x & a & -> & ->)]; (split; [left; unfold le1; cbn; lia|]); split; [exact F|intros X p []|exact Logic.I|]. intros X p _ _. exists a. reflexivity.
Qed.
Theorem deals_perform call : (forall force, call <> Disconnect force) -> deals (tperform (S n) call) wanted.
Proof.
  intros ND.
  assert (L : forall m : task unit, deals m settles -> deals m wanted) by (intros m H; eapply deals_mono; [exact H|apply settles_wanted]).
  assert (O : forall X q (m : task unit), existsb (Z.eqb X) commands = false -> talks m (one X q) fine -> deals m wanted).
  { intros X q m NC H. eapply deals_mono; [apply talks_deals; exact H|]. cbv beta. intros l o (S & F). split; [left; eapply one_le1; exact S|]. split; [exact F|].
    intros Y p J C. exfalso. destruct S as [->| ->]; [destruct J|]. destruct J as [J|[]]. injection J as -> _.
    rewrite <- not_true_iff_false, existsb_exists in NC. apply NC. exists Y. split; [exact C|apply Z.eqb_refl]. }
  assert (CM : forall X p, In X commands -> rq p -> deals (tcommand (S n) (tcommand_request X p) 0) settles).
  { intros X p C P. apply deals_connected. intros mr M. apply deals_command_request; assumption. }
  assert (RT : forall f, (forall w, healthy c w -> healthy c (f w)) -> talks (tdo f) none returned).
  { intros f H t l R. cbn [tdo tret steady fst snd]. intros w W. rewrite app_nil_r. split; [auto|]. split; [intros e []|]. exists []. rewrite app_nil_r. split; [exact R|]. split; [reflexivity|exists tt; reflexivity]. }
  assert (MR : forall k : nat -> task unit, talks (k c) none returned -> talks (tbind tm_proto_or_fail k) none returned).
  { intros k K t l R. unfold tm_proto_or_fail. cbn [tget tbind steady tret]. intros w (_ & H & _). rewrite H. cbn [tret tbind]. apply K. exact R. }
  assert (RD : talks (Done (Val tt)) none returned) by (apply talks_done; exists tt; reflexivity).
  assert (SG : deals (tsubscribe_gateway (tasync_connect (S n) no_args)) settles).
  { unfold tsubscribe_gateway. apply deals_get. intros w W. destruct (negb (attached w)); [apply deals_end; exact Logic.I|]. apply deals_lock.
    apply deals_get. intros w1 W1. destruct (negb (is_client w1)); [|apply deals_end; exact Logic.I]. apply deals_get. intros w2 W2.
    apply deals_then; [apply CM; [cbn; auto 20|apply rq_pack]|]. intros _.
    apply talks_do; [intros w3 W3; exact W3|]. apply MR. apply RT. intros w4; apply healthy_keepalive. }
  assert (MP : forall k : nat -> task unit, deals (k c) settles -> deals (tbind tm_proto_or_fail k) settles).
  { intros k K t l R. unfold tm_proto_or_fail. cbn [tget tbind steady tret]. intros w (_ & H & _). rewrite H. cbn [tret tbind]. apply K. exact R. }
  assert (UP : forall m : task unit, talks m (fun l => part l update_plan) fine -> deals m wanted).
  { intros m H. eapply deals_mono; [apply talks_deals; exact H|]. cbv beta. intros l o (P & F). split; [right; exact P|]. split; [exact F|]. intros X p J C. destruct (plan_data l X p P J C). }
  destruct call; cbn [tperform].
  - apply L, deals_none. eapply (talks_bind c _ _ none none); [apply talks_connect|intros; apply talks_done; exact Logic.I|discriminate|discriminate|intros ? ? -> ->; reflexivity].
  - destruct (ND force eq_refl).
  - eapply O; [|apply talks_get_poll; intros; apply talks_data; [assumption|apply ca_config]]. reflexivity.
  - eapply O; [|apply talks_get_poll; intros; apply talks_data; [assumption|apply ca_status]]. reflexivity.
  - eapply O; [|apply talks_get_poll; intros; apply talks_data; [assumption|apply ca_chem]]. reflexivity.
  - eapply O; [|apply talks_get_poll; intros; apply talks_data; [assumption|apply ca_scg]]. reflexivity.
  - eapply O; [|apply talks_get_poll; intros; apply talks_date; assumption]. reflexivity.
  - apply UP. eapply talks_mono; [apply talks_pumps; repeat constructor; lia| |auto]. intros l P. unfold update_plan. cbn [app]. apply part_skip.
    rewrite <- (app_nil_r l). apply part_app; [exact P|constructor].
  - apply UP, talks_update.
  - destruct ((0 <? k) && (k <? 6)) eqn:B; [|apply L, deals_end; reflexivity].
    apply L, deals_none, (talks_do_end c (set_retries k)). intros w. apply healthy_retries. lia.
  - apply L, deals_get. intros w W. apply deals_require; [apply rq_section|]. apply deals_require; [exact Logic.I|]. apply CM; [cbn; auto 20|apply rq_pack].
  - apply L, deals_get. intros w W. apply deals_require; [apply rq_section|]. apply deals_require; [apply rq_heattemp|]. apply CM; [cbn; auto 20|apply rq_pack].
  - apply L, deals_get. intros w W. apply deals_require; [apply rq_section|]. apply deals_require; [apply rq_heatmode|]. apply CM; [cbn; auto 20|apply rq_pack].
  - apply L. apply deals_require; [apply rq_color|]. apply CM; [cbn; auto 20|apply rq_pack].
  - apply L, deals_get. intros w W. apply deals_lift; [apply rq_scg|]. intros [[[? ?] ?] ?] _. apply CM; [cbn; auto 20|apply rq_pack].
  - apply L, deals_get. intros w W. apply deals_lift; [apply rq_chem|]. intros [[[[[? ?] ?] ?] ?] ?] _. apply CM; [cbn; auto 20|apply rq_pack].
  - apply L, deals_get. intros w W. apply deals_get. intros w1 W1. apply deals_lift; [apply rq_datetime|]. intros [? ?] _. apply CM; [cbn; auto 20|].
    apply rq_bind; [apply rq_time|]. intros. apply rq_bind; [apply rq_pack|intros; exact Logic.I].
  - apply L, deals_get. intros w W. apply deals_get. intros w1 W1. apply deals_lift; [apply rq_datetime|]. intros [? ?] _. apply CM; [cbn; auto 20|].
    apply rq_bind; [apply rq_time|]. intros. apply rq_bind; [apply rq_pack|intros; exact Logic.I].
  - apply L. apply deals_then; [|intros; exact RD]. apply deals_connected. intros mr M. eapply deals_mono; [apply deals_request; exact M|]. intros l o (_ & H). exact H.
  - apply L. intros t l R. cbn [tget tbind steady tret]. intros w (H & _). rewrite H. cbn [tdo tret steady fst snd]. intros w1 W1. rewrite app_nil_r. split; [apply healthy_register; exact W1|].
    split; [intros e []|]. exists []. rewrite app_nil_r. split; [exact R|]. left. split; [reflexivity|exact Logic.I].
  - apply L. intros t l R. cbn [tget tbind steady tret]. intros w (H & _). rewrite H. cbn [tdo tret steady fst snd]. intros w1 W1. rewrite app_nil_r. split; [apply healthy_unregister; exact W1|].
    split; [intros e []|]. exists []. rewrite app_nil_r. split; [exact R|]. left. split; [reflexivity|exact Logic.I].
  - apply L. apply deals_then; [|intros; exact RD]. unfold tasync_subscribe_client. apply deals_get. intros w W.
    destruct (negb (attached w)); [apply deals_end; exact Logic.I|]. apply deals_do; [intros w1 W1; exact W1|].
    intros t l R. unfold tm_proto_or_fail. cbn [tget tbind steady tret]. intros w1 (_ & H & _). rewrite H. cbn [tret tbind].
    revert t l R. match goal with |- forall t l, rounds c t l -> steady c t ?m _ => change (deals m settles) end.
    apply deals_do; [intros w2; apply healthy_register|]. apply deals_get. intros w2 W2.
    apply deals_then; [|intros; apply talks_done; eexists; reflexivity].
    destruct (client_needed w2); [exact SG|apply deals_end; exact Logic.I].
  - apply L, deals_none. unfold tremove_subscription. apply talks_get. intros w W. destruct (negb _); [apply talks_done; exact Logic.I|]. apply talks_do; [intros w1 W1; exact W1|].
    apply talks_get. intros w1 W1. apply talks_get. intros w2 W2. destruct (_ && _); [|apply talks_done; exact Logic.I].
    eapply talks_mono; [apply MR, RT; intros w3; apply healthy_unregister|auto|]. intros o (a & ->). exact Logic.I.
  - apply L. unfold tunsubscribe_gateway. apply deals_get. intros w W. destruct (negb _); [apply deals_end; exact Logic.I|]. apply deals_lock.
    apply deals_get. intros w1 W1. destruct (m_is_client _); [|apply deals_end; exact Logic.I]. apply deals_do; [intros w2 W2; exact W2|].
    apply MP. apply deals_do; [intros w2; apply healthy_keepalive|]. apply deals_do; [intros w2; apply healthy_unregister_all|].
    unfold tremove_client. apply deals_catch, MP. apply deals_get. intros w2 W2. apply deals_command_request; [lia|cbn; auto 20|apply rq_pack].
  - apply L. unfold tasync_ping. apply deals_catch, MP. apply deals_command_request; [lia|cbn; auto 20|exact Logic.I].
Qed.
End Calls.

(** ** along a schedule *)
Definition goal (c : nat) (t : trace) (o : out unit) : Prop := exists l, rounds c t l /\ wanted l o.
Definition allowed (c : nat) (e : ev) : Prop := (exists X p, e = Send c X p) \/ e = AwaitReply c 2000 \/ (exists r, e = Got r).
Definition parks (c : nat) (m : task unit) (t : trace) : Prop :=
  match m with
  | Done o => goal c t o \/ (o = Exc ECancelled /\ exists t0 r, t = t0 ++ [Got r] /\ goal c t0 o)
  | Wait e k => exists t0 l X p, t = t0 ++ [Send c X p; AwaitReply c 2000] /\ rounds c t0 l /\
      forall kd clk, right_answer X kd -> steady c (t ++ [Got (mkResp kd [] None clk)]) (k kd) (goal c)
  | Lock k x => (exists l, rounds c t l) /\ steady c t k (goal c) /\ aborts c x /\ goal c t (Exc ECancelled)
  | _ => False
  end.
Lemma advance_steady c (m : task unit) : forall t w tr w' m', steady c t m (goal c) -> healthy c w -> advance m w = (tr, w', m') ->
  healthy c w' /\ Forall (allowed c) tr /\ parks c m' (t ++ tr).
Proof.
  induction m as [o|k IH|f k IH|e k IH|k IH xx IHx]; intros t w tr w' m' S W A; cbn [steady advance] in *.
  - injection A as <- <- <-. cbn [parks]. rewrite app_nil_r. auto.
  - eapply IH; [apply S; exact W|exact W|exact A].
  - destruct (S w W) as (S1 & S2 & S3). destruct (f w) as [t1 w1]. cbn [fst snd] in *. destruct (advance k w1) as [[t2 w2] m2] eqn:A2. injection A as <- <- <-.
    destruct (IH _ _ _ _ _ S3 S1 A2) as (I1 & I2 & I3). rewrite app_assoc. split; [exact I1|]. split; [|exact I3]. apply Forall_app. split; [|exact I2].
    apply Forall_forall. intros e J. left. auto.
  - injection A as <- <- <-. destruct S as (-> & t0 & l & X & p & -> & R & S). split; [exact W|]. split; [repeat constructor; right; left; reflexivity|].
    cbn [parks]. exists t0, l, X, p. rewrite <- app_assoc. cbn [app]. split; [reflexivity|]. split; [exact R|]. intros kd clk H. specialize (S kd clk H).
    rewrite <- !app_assoc in *. exact S.
  - destruct S as (R & S & SX). destruct (m_locked (w_cm w)).
    + injection A as <- <- <-. cbn [parks]. rewrite app_nil_r. auto.
    + eapply IH; [exact S| |exact A]. exact W.
Qed.

Section Along.
  Variables (c n n0 : nat) (g0 : log).
  Definition sharing (P : pool) : Prop :=
    exists g, p_log P = g0 ++ g /\ healthy c (p_world P) /\ (n0 <= List.length (p_tasks P))%nat /\
      (forall i e, In (By i e) g -> allowed c e) /\
      (forall i m, nth_error (p_tasks P) i = Some m -> ((i < n0)%nat -> exists o, m = Done o) /\ ((n0 <= i)%nat -> parks c m (own i g))) /\
      (forall i, (List.length (p_tasks P) <= i)%nat -> own i g = []).
  Lemma own_started i j call d g : own i (g ++ [Started j call d]) = own i g.
  Proof. rewrite own_app. cbn [own flat_map]. apply app_nil_r. Qed.
  Lemma in_by_map i e j t : In (By i e) (map (By j) t) -> In e t.
  Proof. intros J. apply in_map_iff in J. destruct J as (x & J & K). injection J as _ <-. exact K. Qed.
  Lemma sharing_step P e : sharing P -> serves c P e -> sharing (pstep (S n) P e).
  Proof.
    intros (g & L & W & N & A & T & O) V. destruct P as [w ts lg]. cbn [p_world p_tasks p_log] in *. subst lg.
    assert (Same : sharing (mkPool w ts (g0 ++ g))) by (exists g; cbn [p_world p_tasks p_log]; auto 10).
    destruct e as [call|i k clk|i|c'|c' code b|]; [cbn [pstep p_world p_tasks p_log serves] in *..|].
    - destruct (advance (tperform (S n) call) w) as [[tr w'] m] eqn:E. set (i := List.length ts) in *.
      assert (ND : forall force, call <> Disconnect force) by (intros f ->; exact V).
      assert (Oi : own i g = []) by (apply O; reflexivity).
      assert (S : steady c [] (tperform (Datatypes.S n) call) (goal c)).
      { eapply steady_mono; [apply (deals_perform c n call ND [] []); constructor|]. cbv beta. intros t' o (l' & H1 & H2). exists l'. auto. }
      destruct (advance_steady c _ _ _ _ _ _ S W E) as (W' & F & K). cbn [app] in K.
      exists (g ++ Started i call (w_data w) :: map (By i) tr). cbn [p_world p_tasks p_log]. rewrite app_assoc. split; [reflexivity|]. split; [exact W'|].
      rewrite app_length. split; [cbn [List.length]; lia|]. split; [|split].
      + intros j e J. apply in_app_or in J. destruct J as [J|[J|J]]; [eapply A; exact J|discriminate J|]. apply in_by_map in J. rewrite Forall_forall in F. auto.
      + intros j m' J. assert (OW : own j (g ++ Started i call (w_data w) :: map (By i) tr) = own j g ++ own j (map (By i) tr)) by (rewrite own_app; reflexivity).
        destruct (Nat.eq_dec j i) as [->|D].
        * subst i. rewrite nth_error_app2, Nat.sub_diag in J by lia. injection J as <-. split; [lia|]. intros _. rewrite OW, Oi, own_by. exact K.
        * assert (J' : (j < List.length ts)%nat). { assert (X : nth_error (ts ++ [m]) j <> None) by congruence. apply nth_error_Some in X. rewrite app_length in X. cbn [List.length] in X. subst i. lia. }
          rewrite nth_error_app1 in J by exact J'. rewrite OW, own_other, app_nil_r by congruence. apply T. exact J.
      + intros j J. cbn [List.length] in J. rewrite own_app. cbn [own flat_map]. fold (own j (map (By i) tr)). rewrite own_other by (subst i; lia). rewrite O by (subst i; lia). reflexivity.
    - assert (Put : forall gt tr w' m, (n0 <= i)%nat -> (exists r, gt = Got r) -> healthy c w' -> Forall (allowed c) tr -> nth_error ts i <> None -> parks c m (own i g ++ gt :: tr) ->
        sharing (mkPool w' (lset i m ts) ((g0 ++ g) ++ [By i gt] ++ map (By i) tr))).
      { intros gt tr w' m Hi (r & Hr) W' FA X0 K. exists (g ++ map (By i) (gt :: tr)). cbn [p_world p_tasks p_log map app]. rewrite app_assoc. split; [reflexivity|]. split; [exact W'|].
        rewrite P_Moves.lset_len. split; [exact N|]. split; [|split].
        + intros j e' J. apply in_app_or in J. destruct J as [J|J]; [eapply A; exact J|]. apply (in_by_map j e' i (gt :: tr)) in J. destruct J as [<-|J]; [right; right; exists r; exact Hr|]. rewrite Forall_forall in FA. auto.
        + intros j m' J. change (By i gt :: map (By i) tr) with (map (By i) (gt :: tr)). rewrite own_app. apply (P_Pool.nth_lset i m ts) in J. destruct J as [(-> & ->)|(D & J)].
          * split; [lia|]. intros _. rewrite own_by. exact K.
          * rewrite own_other, app_nil_r by congruence. apply T. exact J.
        + intros j J. change (By i gt :: map (By i) tr) with (map (By i) (gt :: tr)). rewrite own_app. assert (D : j <> i) by (apply nth_error_Some in X0; lia).
          rewrite own_other by congruence. rewrite O by exact J. reflexivity. }
      destruct (nth_error ts i) as [m|] eqn:E; [|exact Same]. destruct m as [| | |e k0|k0 x0]; try exact Same; [destruct (fits e k) eqn:F; [|exact Same]|destruct k; try exact Same].
      2: { destruct (T i _ E) as (T1 & T2). assert (Hi : (n0 <= i)%nat). { destruct (Nat.lt_ge_cases i n0) as [H|H]; [|exact H]. destruct (T1 H) as (o & H'). discriminate H'. }
        destruct (T2 Hi) as (_ & _ & SX & SG). destruct (aborts_runs c x0 (set_clock clk w) SX W) as (w' & EA & W'). rewrite EA.
        apply Put; [exact Hi|eexists; reflexivity|exact W'|constructor|congruence|]. right. split; [reflexivity|]. eexists. eexists. split; [reflexivity|exact SG]. }
      destruct (T i _ E) as (T1 & T2). assert (Hi : (n0 <= i)%nat). { destruct (Nat.lt_ge_cases i n0) as [H|H]; [|exact H]. destruct (T1 H) as (o & H'). discriminate H'. }
      destruct (T2 Hi) as (t0 & l & X & p & OW & R & S).
      assert (RA : right_answer X k). { apply V. exists (own i g0 ++ t0), c, p, 2000. rewrite own_app, OW, app_assoc. reflexivity. }
      specialize (S k clk RA). assert (W1 : healthy c (set_clock clk (opened_by e k w))).
      { destruct RA as (b & -> & _). destruct e; exact W. }
      destruct (advance _ _) as [[tr w'] m] eqn:EA. destruct (advance_steady c _ _ _ _ _ _ S W1 EA) as (W' & FA & K).
      apply Put; [exact Hi|eexists; reflexivity|exact W'|exact FA|congruence|]. rewrite <- app_assoc in K. exact K.
    - destruct (nth_error ts i) as [m|] eqn:E; [|exact Same]. destruct m as [| | | |k0 x0]; try exact Same.
      destruct (T i _ E) as (T1 & T2). assert (Hi : (n0 <= i)%nat). { destruct (Nat.lt_ge_cases i n0) as [H|H]; [|exact H]. destruct (T1 H) as (o & H'). discriminate H'. }
      assert (S : steady c (own i g) (Lock k0 x0) (goal c)) by exact (T2 Hi).
      destruct (advance (Lock k0 x0) w) as [[tr w'] m] eqn:EA. destruct (advance_steady c _ _ _ _ _ _ S W EA) as (W' & FA & K).
      exists (g ++ map (By i) tr). cbn [p_world p_tasks p_log map app]. rewrite app_assoc. split; [reflexivity|]. split; [exact W'|].
      rewrite P_Moves.lset_len. split; [exact N|]. split; [|split].
      + intros j e' J. apply in_app_or in J. destruct J as [J|J]; [eapply A; exact J|]. apply in_by_map in J. rewrite Forall_forall in FA. auto.
      + intros j m' J. rewrite own_app. apply (P_Pool.nth_lset i m ts) in J. destruct J as [(-> & ->)|(D & J)].
        * split; [lia|]. intros _. rewrite own_by. exact K.
        * rewrite own_other, app_nil_r by congruence. apply T. exact J.
      + intros j J. rewrite own_app. assert (D : j <> i). { assert (X0 : nth_error ts i <> None) by congruence. apply nth_error_Some in X0. lia. }
        rewrite own_other by congruence. rewrite O by exact J. reflexivity.
    - destruct (lose c' w) as [tr w'] eqn:E. assert (OE : forall j, own j (map Env tr) = []) by (intros j; clear; induction tr; [reflexivity|assumption]).
      exists (g ++ map Env tr). cbn [p_world p_tasks p_log]. rewrite app_assoc. split; [reflexivity|]. split.
      { unfold lose in E. destruct (connected c' w); injection E as _ <-; [|exact W]. destruct W as (H1 & H2 & H3 & H4 & H5 & H6 & H7).
        unfold healthy, connected, get_conn, upd_conn in *. cbn [set_conns w_proto w_cm w_conns w_retries]. rewrite P_Moves.lset_len, P_Moves.nth_lset.
        destruct (Nat.eqb_spec c c'); [congruence|]. auto 10. }
      split; [exact N|]. split; [|split].
      + intros j e J. apply in_app_or in J. destruct J as [J|J]; [eapply A; exact J|]. apply in_map_iff in J. destruct J as (x & J & _). discriminate J.
      + intros j m J. rewrite own_app, OE, app_nil_r. apply T. exact J.
      + intros j J. rewrite own_app, OE, app_nil_r. auto.
    - destruct (handler_of c' code w) as [[h|h]|]; [|exact Same..].
      exists (g ++ [Pushed c' code b]). cbn [p_world p_tasks p_log]. rewrite app_assoc. split; [reflexivity|]. split; [exact W|]. split; [exact N|].
      assert (OE : forall j, own j [Pushed c' code b] = []) by reflexivity. split; [|split].
      + intros j e J. apply in_app_or in J. destruct J as [J|[J|[]]]; [eapply A; exact J|discriminate J].
      + intros j m J. rewrite own_app, OE, app_nil_r. apply T. exact J.
      + intros j J. rewrite own_app, OE, app_nil_r. auto.
    - destruct (pstep_handle (S n) w ts (g0 ++ g)) as [->|(c' & code & b & l0 & cbs & _ & _ & ->)]; [exact Same|].
      exists (g ++ [Applied c' code b cbs]). cbn [p_world p_tasks p_log]. rewrite app_assoc. split; [reflexivity|]. split; [exact W|]. split; [exact N|].
      assert (OE : forall j, own j [Applied c' code b cbs] = []) by reflexivity. split; [|split].
      + intros j e J. apply in_app_or in J. destruct J as [J|[J|[]]]; [eapply A; exact J|discriminate J].
      + intros j m J. rewrite own_app, OE, app_nil_r. apply T. exact J.
      + intros j J. rewrite own_app, OE, app_nil_r. auto.
  Qed.
End Along.
Lemma update_plan_nodup : NoDup update_plan.
Proof. repeat (constructor; [cbn; intuition discriminate|]). constructor. Qed.
Lemma rounds_sends c t l : rounds c t l -> sends t = map (fun x => (c, fst x, snd x)) l.
Proof. induction 1; [reflexivity|]. unfold sends in *. rewrite flat_map_app, map_app, IHrounds. reflexivity. Qed.
Lemma goal_nodup c t o : goal c t o -> NoDup (sends t).
Proof.
  intros (l & R & P & _). rewrite (rounds_sends _ _ _ R). assert (N : NoDup l).
  { destruct P as [P|P]; [|eapply part_nodup; [exact P|apply update_plan_nodup]]. destruct l as [|x [|y l]]; [constructor|repeat constructor; intros []|unfold le1 in P; cbn in P; lia]. }
  clear - N. induction N as [|[X p] l NI N IH]; cbn [map]; constructor; [|exact IH]. intros J. apply in_map_iff in J. destruct J as ([X' p'] & E & J). cbn [fst snd] in E. injection E as -> ->. contradiction.
Qed.
