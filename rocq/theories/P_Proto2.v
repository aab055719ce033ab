(** Request futures, message ids and routing: the invariant of every reachable state. *)
From Verif Require Import Py F64 Struct Utf Utility Spec P_Base P_Util Protocol P_Proto1.

(** ** projections of the observable log *)
Definition requests_of (log : list pout) : list (nat * Z) :=
  flat_map (fun o => match o with OutRequest f id _ _ => [(f, id)] | _ => [] end) log.
Definition completions_of (log : list pout) : list (nat * message) :=
  flat_map (fun o => match o with OutCompleted f m => [(f, m)] | _ => [] end) log.
Definition messages_of (log : list pout) : list message :=
  flat_map (fun o => match o with
    | OutCompleted _ m | OutHandler _ m | OutDropped m => [m] | _ => [] end) log.

(** ** dictionary and future-table lemmas *)
Lemma zget_zset {A} k (v : A) d k' : zget k' (zset k v d) = if k' =? k then Some v else zget k' d.
Proof.
  induction d as [|[k0 v0] d IH]; cbn [zset zget].
  - destruct (k' =? k) eqn:E; reflexivity.
  - destruct (k =? k0) eqn:E0; cbn [zget].
    + destruct (k' =? k0) eqn:E1; destruct (k' =? k) eqn:E2; try reflexivity; lia.
    + destruct (k' =? k0) eqn:E1; [|exact IH]. destruct (k' =? k) eqn:E2; [lia|reflexivity].
Qed.
Lemma zget_zpop_other {A} k (d : list (Z * A)) k' : k' <> k -> zget k' (zpop k d) = zget k' d.
Proof.
  intros N. induction d as [|[k0 v0] d IH]; cbn [zpop zget]; [reflexivity|].
  destruct (k =? k0) eqn:E; cbn [zget].
  - destruct (k' =? k0) eqn:E1; [lia|reflexivity].
  - destruct (k' =? k0); [reflexivity|exact IH].
Qed.
Lemma zget_zpop_same {A} k (d : list (Z * A)) : NoDup (map fst d) -> zget k (zpop k d) = None.
Proof.
  induction d as [|[k0 v0] d IH]; cbn [zpop zget map fst]; intros N; [reflexivity|].
  inversion N as [|? ? N1 N2]; subst. destruct (k =? k0) eqn:E.
  - assert (k = k0) as -> by lia. clear -N1. induction d as [|[k1 v1] d IH]; cbn [zget]; [reflexivity|].
    destruct (k0 =? k1) eqn:E; [exfalso; apply N1; left; cbn; lia|]. apply IH. intros H. apply N1. right. exact H.
  - cbn [zget]. rewrite E. apply IH. exact N2.
Qed.
Lemma zset_keys {A} k (v : A) d : NoDup (map fst d) -> NoDup (map fst (zset k v d)).
Proof.
  assert (K : forall x d, In x (map fst (zset k v d)) -> x = k \/ In x (map fst d)).
  { intros x d0. induction d0 as [|[k0 v0] d0 IH]; cbn; [intuition|].
    destruct (k =? k0); cbn [map fst In]; [tauto|]. intros [H|H]; [tauto|]. destruct (IH H); tauto. }
  induction d as [|[k0 v0] d IH]; cbn [zset map fst]; intros N; [constructor; [cbn; tauto|constructor]|].
  inversion N as [|? ? N1 N2]; subst. destruct (k =? k0) eqn:E; cbn [map fst]; [constructor; assumption|].
  constructor; [|apply IH; exact N2]. intros H. apply K in H. destruct H; [lia|tauto].
Qed.
Lemma zpop_in {A} k (d : list (Z * A)) x : In x (map fst (zpop k d)) -> In x (map fst d).
Proof.
  induction d as [|[k0 v0] d IH]; cbn [zpop map fst In]; [tauto|].
  destruct (k =? k0); cbn [map fst In]; tauto.
Qed.
Lemma zpop_keys {A} k (d : list (Z * A)) : NoDup (map fst d) -> NoDup (map fst (zpop k d)).
Proof.
  induction d as [|[k0 v0] d IH]; cbn [zpop map fst]; intros N; [constructor|].
  inversion N as [|? ? N1 N2]; subst. destruct (k =? k0); [exact N2|]. cbn [map fst]. constructor; [|auto].
  intros H. apply N1. apply zpop_in in H. exact H.
Qed.
Lemma zget_in {A} k (v : A) d : zget k d = Some v -> In (k, v) d.
Proof.
  induction d as [|[k0 v0] d IH]; cbn [zget]; [discriminate|]. destruct (k =? k0) eqn:E.
  - intros H. injection H as ->. left. f_equal. lia.
  - intros H. right. auto.
Qed.
Lemma zget_nodup {A} k (v : A) d : NoDup (map fst d) -> In (k, v) d -> zget k d = Some v.
Proof.
  induction d as [|[k0 v0] d IH]; cbn [zget map fst]; intros N H; [destruct H|].
  inversion N as [|? ? N1 N2]; subst. destruct H as [H|H].
  - injection H as -> ->. rewrite Z.eqb_refl. reflexivity.
  - destruct (k =? k0) eqn:E; [|auto]. exfalso. apply N1. assert (k = k0) as <- by lia.
    change k with (fst (k, v)). apply in_map. exact H.
Qed.

Lemma fset_length f x l : List.length (fset f x l) = List.length l.
Proof. revert f. induction l as [|y l IH]; intros [|f]; cbn; auto. Qed.
Lemma fget_fset f x l g : (f < List.length l)%nat -> fget g (fset f x l) = if Nat.eqb g f then x else fget g l.
Proof.
  unfold fget. revert f g. induction l as [|y l IH]; intros [|f] g L; cbn in L; try lia.
  - destruct g; reflexivity.
  - destruct g; cbn [fset nth Nat.eqb]; [reflexivity|]. apply IH. lia.
Qed.
Lemma fcancel_length f l : List.length (fcancel f l) = List.length l.
Proof. unfold fcancel. destruct (is_pending _); [apply fset_length|reflexivity]. Qed.
Lemma fget_over f l : (List.length l <= f)%nat -> fget f l = FCancelled.
Proof. intros. unfold fget. apply nth_overflow. lia. Qed.
Lemma fget_fcancel f l g : fget g (fcancel f l) =
  if Nat.eqb g f then (if is_pending (fget g l) then FCancelled else fget g l) else fget g l.
Proof.
  unfold fcancel. destruct (Nat.eqb_spec g f) as [->|N].
  - destruct (is_pending (fget f l)) eqn:E; [|reflexivity].
    destruct (Nat.lt_ge_cases f (List.length l)) as [L|G].
    + rewrite fget_fset by exact L. rewrite Nat.eqb_refl. reflexivity.
    + rewrite fget_over in E by exact G. discriminate.
  - destruct (is_pending (fget f l)) eqn:E; [|reflexivity].
    destruct (Nat.lt_ge_cases f (List.length l)) as [L|G].
    + rewrite fget_fset by exact L. destruct (Nat.eqb_spec g f); [contradiction|reflexivity].
    + rewrite fget_over in E by exact G. discriminate.
Qed.
Lemma fcancel_all_length fs : forall l, List.length (fcancel_all fs l) = List.length l.
Proof. unfold fcancel_all. induction fs as [|f fs IH]; intros l; cbn [fold_left]; [reflexivity|]. rewrite IH. apply fcancel_length. Qed.
Lemma fget_fcancel_all fs : forall l g, fget g (fcancel_all fs l) =
  if existsb (Nat.eqb g) fs then (if is_pending (fget g l) then FCancelled else fget g l) else fget g l.
Proof.
  unfold fcancel_all. induction fs as [|f fs IH]; intros l g; cbn [fold_left existsb]; [reflexivity|].
  rewrite IH, fget_fcancel. destruct (Nat.eqb g f) eqn:E; cbn [orb]; [|reflexivity].
  destruct (existsb (Nat.eqb g) fs); destruct (is_pending (fget g l)) eqn:P; cbn [is_pending]; try rewrite P; reflexivity.
Qed.

(** ** the k-th request: future k, message id k mod 32767 *)
Definition kth_id (k : nat) : Z := Z.of_nat k mod 32767.

Record InvF (coll : list (Z * nat)) (futs : list fstate) (next : Z) (log : list pout) : Prop := {
  if_requests : requests_of log = map (fun k => (k, kth_id k)) (seq 0 (List.length futs));
  if_next : next = kth_id (List.length futs);
  if_nodup : NoDup (map fst coll);
  if_coll : forall i f, zget i coll = Some f ->
      (f < List.length futs)%nat /\ i = kth_id f /\ (forall m, fget f futs <> FDone m);
  if_done : forall f m, fget f futs = FDone m <-> In (f, m) (completions_of log);
  if_once : NoDup (map fst (completions_of log));
  if_id : forall f m, In (f, m) (completions_of log) -> msg_id m = kth_id f /\ (f < List.length futs)%nat;
  if_pending : forall f, fget f futs = FPending ->
      zget (kth_id f) coll = Some f \/
      exists g, (f < g < List.length futs)%nat /\ kth_id g = kth_id f
}.

Definition invF (s : pstate) : Prop := InvF (p_coll s) (p_futs s) (p_next s) (p_log s).

Lemma requests_app a b : requests_of (a ++ b) = requests_of a ++ requests_of b.
Proof. apply flat_map_app. Qed.
Lemma completions_app a b : completions_of (a ++ b) = completions_of a ++ completions_of b.
Proof. apply flat_map_app. Qed.
Lemma messages_app a b : messages_of (a ++ b) = messages_of a ++ messages_of b.
Proof. apply flat_map_app. Qed.

(** log entries without requests or completions do not matter *)
Lemma InvF_log coll futs next log o : InvF coll futs next log ->
  requests_of o = [] -> completions_of o = [] -> InvF coll futs next (log ++ o).
Proof.
  intros [R Nx Nd Cl Dn Oc Id Pe] HR HC. constructor; auto;
    rewrite ?requests_app, ?completions_app, ?HR, ?HC, ?app_nil_r; auto.
Qed.

Lemma InvF_cancel_all coll futs next log fs : InvF coll futs next log -> InvF coll (fcancel_all fs futs) next log.
Proof.
  intros [R Nx Nd Cl Dn Oc Id Pe]. constructor; rewrite ?fcancel_all_length; auto.
  - intros i f H. destruct (Cl i f H) as (A & B & C). repeat split; auto. intros m.
    rewrite fget_fcancel_all. destruct (existsb _ _); [|apply C]. destruct (is_pending _); [discriminate|apply C].
  - intros f m. rewrite <- Dn, fget_fcancel_all. destruct (existsb _ _); [|tauto].
    destruct (fget f futs) eqn:E; cbn [is_pending]; split; intros H; try discriminate; auto.
  - intros f H. rewrite fget_fcancel_all in H. apply Pe. destruct (existsb _ _); [|exact H].
    destruct (fget f futs); cbn [is_pending] in H; try discriminate; auto.
Qed.
Lemma InvF_cancel coll futs next log f : InvF coll futs next log -> InvF coll (fcancel f futs) next log.
Proof. exact (InvF_cancel_all coll futs next log [f]). Qed.

(** forgetting collection entries whose futures are no longer pending *)
Lemma InvF_clear coll futs next log : InvF coll futs next log -> InvF [] (fcancel_all (map snd coll) futs) next log.
Proof.
  intros H. pose proof (InvF_cancel_all _ _ _ _ (map snd coll) H) as H'.
  destruct H' as [R Nx Nd Cl Dn Oc Id Pe]. constructor; auto.
  - constructor.
  - intros i f; discriminate.
  - intros f P. destruct (Pe f P) as [G|G]; [|right; exact G]. exfalso.
    rewrite fget_fcancel_all in P. 
    assert (E : existsb (Nat.eqb f) (map snd coll) = true).
    { apply existsb_exists. exists f. split; [|apply Nat.eqb_refl]. apply zget_in in G.
      change f with (snd (kth_id f, f)). apply in_map. exact G. }
    rewrite E in P. destruct (fget f futs); discriminate.
Qed.

Lemma kth_next k : next_id (kth_id k) = kth_id (S k).
Proof. unfold next_id, kth_id, MSG_IDS. destruct (_ =? _) eqn:E; lia. Qed.

Lemma InvF_request coll futs next log code data : InvF coll futs next log ->
  InvF (zset next (List.length futs) coll) (futs ++ [FPending]) (next_id next)
       (log ++ [OutRequest (List.length futs) next code data]).
Proof.
  intros [R Nx Nd Cl Dn Oc Id Pe]. set (n := List.length futs) in *.
  assert (G : forall f, fget f (futs ++ [FPending]) = if Nat.eqb f n then FPending else fget f futs).
  { intros f. unfold fget. destruct (Nat.eqb_spec f n) as [->|N].
    - rewrite app_nth2 by lia. replace (n - List.length futs)%nat with 0%nat by (unfold n; lia). reflexivity.
    - destruct (Nat.lt_ge_cases f (List.length futs)).
      + apply app_nth1. lia.
      + rewrite app_nth2 by lia. rewrite (nth_overflow futs) by lia. apply nth_overflow. cbn. unfold n in *. lia. }
  assert (L : List.length (futs ++ [FPending]) = S n) by (rewrite app_length; cbn; unfold n; lia).
  constructor; rewrite ?L, ?requests_app, ?completions_app.
  - cbn [requests_of flat_map app]. rewrite R, seq_S, map_app. cbn [map Nat.add]. rewrite Nx. reflexivity.
  - rewrite Nx. apply kth_next.
  - apply zset_keys. exact Nd.
  - intros i f. rewrite zget_zset. destruct (i =? next) eqn:E.
    + intros H. injection H as <-. split; [lia|]. split; [lia|]. intros m. rewrite G, Nat.eqb_refl. discriminate.
    + intros H. destruct (Cl i f H) as (A & B & C). split; [lia|]. split; [exact B|]. intros m. rewrite G.
      destruct (Nat.eqb_spec f n); [lia|apply C].
  - intros f m. cbn [completions_of flat_map app]. rewrite app_nil_r, G. destruct (Nat.eqb_spec f n) as [->|N]; [|apply Dn].
    split; [discriminate|]. intros H. apply Id in H. lia.
  - cbn [completions_of flat_map app]. rewrite app_nil_r. exact Oc.
  - intros f m. cbn [completions_of flat_map app]. rewrite app_nil_r. intros H. apply Id in H. destruct H. split; [assumption|lia].
  - intros f. rewrite G. destruct (Nat.eqb_spec f n) as [->|N].
    + intros _. left. rewrite zget_zset, Nx, Z.eqb_refl. reflexivity.
    + intros H. rewrite zget_zset. destruct (kth_id f =? next) eqn:E.
      * right. exists n. assert (f < n)%nat.
        { destruct (Nat.lt_ge_cases f n); [assumption|]. rewrite fget_over in H by (unfold n in *; lia). discriminate. }
        split; [lia|]. lia.
      * destruct (Pe f H) as [P|(g & P & Q)]; [left; exact P|right]. exists g. split; [lia|exact Q].
Qed.

(** delivering one message *)
Lemma InvF_mark_done s m : invF s -> exists s' b, mark_done m s = Some (s', b) /\ invF s' /\
  p_cbs s' = p_cbs s /\
  (b = true -> exists f, p_log s' = p_log s ++ [OutCompleted f m] /\ kth_id f = msg_id m /\ fget f (p_futs s) = FPending
     /\ zget (msg_id m) (p_coll s) = Some f) /\
  (b = false -> p_log s' = p_log s /\ p_futs s' = p_futs s /\ (forall f, zget (msg_id m) (p_coll s) = Some f -> fget f (p_futs s) = FCancelled)).
Proof.
  unfold invF. intros H. unfold mark_done. destruct (zget (msg_id m) (p_coll s)) as [f|] eqn:E.
  2:{ exists s, false. split; [reflexivity|]. split; [exact H|]. split; [reflexivity|].
      split; [discriminate|]. intros _. split; [reflexivity|]. split; [reflexivity|]. discriminate. }
  pose proof H as [R Nx Nd Cl Dn Oc Id Pe].
  destruct (Cl _ _ E) as (Lf & Ef & Nf). cbn [up_futs p_futs p_coll].
  destruct (fget f (p_futs s)) as [|m0|] eqn:F; [|exfalso; eapply Nf; reflexivity|].
  - exists (up_log [OutCompleted f m] (up_futs (zpop (msg_id m) (p_coll s)) (fset f (FDone m) (p_futs s))
        (up_futs (zpop (msg_id m) (p_coll s)) (p_futs s) s))), true.
    split; [reflexivity|]. cbn [up_log up_futs p_coll p_futs p_next p_log p_cbs].
    assert (Fresh : forall x, ~ In (f, x) (completions_of (p_log s))).
    { intros x Hx. apply Dn in Hx. congruence. }
    split; [|split; [reflexivity|split; [intros _; exists f; auto | discriminate]]].
    constructor; rewrite ?fset_length, ?requests_app, ?completions_app; cbn [requests_of completions_of flat_map app]; rewrite ?app_nil_r; auto.
    + apply zpop_keys. exact Nd.
    + intros i g Hg. destruct (Z.eq_dec i (msg_id m)) as [->|Ni].
      { rewrite zget_zpop_same in Hg by exact Nd. discriminate. }
      rewrite zget_zpop_other in Hg by exact Ni. destruct (Cl i g Hg) as (A & B & C). repeat split; auto.
      intros x. rewrite fget_fset by exact Lf. destruct (Nat.eqb_spec g f) as [->|]; [congruence|apply C].
    + intros g x. rewrite fget_fset by exact Lf. rewrite in_app_iff. destruct (Nat.eqb_spec g f) as [->|Ng].
      * split; [intros Hx; injection Hx as <-; right; left; reflexivity|].
        intros [Hx|[Hx|[]]]; [exfalso; eapply Fresh; exact Hx | injection Hx as <-; reflexivity].
      * rewrite Dn. split; [tauto|]. intros [Hx|[Hx|[]]]; [exact Hx|]. injection Hx as -> ->. congruence.
    + rewrite map_app. cbn [map fst]. apply NoDup_Add with (a := f) (l := map fst (completions_of (p_log s))).
      { rewrite <- (app_nil_r (map fst (completions_of (p_log s)))) at 1. apply Add_app. }
      split; [exact Oc|]. intros Hi. apply in_map_iff in Hi. destruct Hi as ((f0 & x) & <- & Hx). eapply Fresh. exact Hx.
    + intros g x. rewrite in_app_iff. intros [Hx|[Hx|[]]]; [apply Id; exact Hx|]. injection Hx as <- <-. auto.
    + intros g. rewrite fget_fset by exact Lf. destruct (Nat.eqb_spec g f) as [Eg|Ng]; [discriminate|]. intros Hg.
      destruct (Pe g Hg) as [P|P]; [|right; exact P].
      destruct (Z.eq_dec (kth_id g) (msg_id m)) as [Eq|Ne]; [exfalso; congruence|].
      left. rewrite zget_zpop_other by exact Ne. exact P.
  - exists (up_futs (zpop (msg_id m) (p_coll s)) (p_futs s) s), false.
    split; [reflexivity|]. cbn [up_log up_futs p_coll p_futs p_next p_log p_cbs].
    split; [|split; [reflexivity|split; [discriminate | intros _; repeat split; auto; congruence]]].
    constructor; auto.
    + apply zpop_keys. exact Nd.
    + intros i g Hg. destruct (Z.eq_dec i (msg_id m)) as [->|Ni].
      { rewrite zget_zpop_same in Hg by exact Nd. discriminate. }
      rewrite zget_zpop_other in Hg by exact Ni. apply Cl. exact Hg.
    + intros g Hg. destruct (Pe g Hg) as [P|P]; [|right; exact P].
      destruct (Z.eq_dec (kth_id g) (msg_id m)) as [Eq|Ne]; [exfalso; congruence|].
      left. rewrite zget_zpop_other by exact Ne. exact P.
Qed.

(** what delivering one message does: exactly one of three *)
Inductive delivered (s : pstate) (m : message) : pout -> Prop :=
| D_reply f : zget (msg_id m) (p_coll s) = Some f -> fget f (p_futs s) = FPending ->
    delivered s m (OutCompleted f m)
| D_handler h : (forall f, zget (msg_id m) (p_coll s) = Some f -> fget f (p_futs s) = FCancelled) ->
    zget (msg_code m) (p_cbs s) = Some h -> delivered s m (OutHandler h m)
| D_dropped : (forall f, zget (msg_id m) (p_coll s) = Some f -> fget f (p_futs s) = FCancelled) ->
    zget (msg_code m) (p_cbs s) = None -> delivered s m (OutDropped m).

Lemma deliver_spec s m : invF s -> invF (deliver s m) /\ p_cbs (deliver s m) = p_cbs s /\
  exists o, p_log (deliver s m) = p_log s ++ [o] /\ delivered s m o.
Proof.
  intros H. destruct (InvF_mark_done s m H) as (s' & b & E & I & C & T & F). unfold deliver. rewrite E.
  destruct b.
  - destruct (T eq_refl) as (f & L & _ & P & G). split; [exact I|]. split; [exact C|].
    exists (OutCompleted f m). split; [exact L|]. constructor; assumption.
  - destruct (F eq_refl) as (L & _ & Cn). rewrite C. destruct (zget (msg_code m) (p_cbs s)) as [h|] eqn:K.
    + split; [apply (InvF_log _ _ _ _ [OutHandler h m] I); reflexivity|]. split; [exact C|].
      exists (OutHandler h m). cbn [up_log p_log]. rewrite L. split; [reflexivity|]. constructor; assumption.
    + split; [apply (InvF_log _ _ _ _ [OutDropped m] I); reflexivity|]. split; [exact C|].
      exists (OutDropped m). cbn [up_log p_log]. rewrite L. split; [reflexivity|]. constructor; assumption.
Qed.

Lemma delivered_msg s m o : delivered s m o -> messages_of [o] = [m].
Proof. intros []; reflexivity. Qed.

Lemma delivers_spec ms : forall s, invF s -> invF (fold_left deliver ms s) /\ p_cbs (fold_left deliver ms s) = p_cbs s
  /\ exists os, p_log (fold_left deliver ms s) = p_log s ++ os /\ messages_of os = ms
     /\ List.length os = List.length ms.
Proof.
  induction ms as [|m ms IH]; intros s H; cbn [fold_left].
  - split; [exact H|]. split; [reflexivity|]. exists []. rewrite app_nil_r. auto.
  - destruct (deliver_spec s m H) as (I & C & o & L & D). destruct (IH _ I) as (I2 & C2 & os & L2 & M & N).
    split; [exact I2|]. split; [congruence|]. exists (o :: os). rewrite L2, L, <- app_assoc. split; [reflexivity|].
    split; [|cbn; congruence]. change (o :: os) with ([o] ++ os). rewrite messages_app, M, (delivered_msg _ _ _ D). reflexivity.
Qed.

(** ** helpers that leave the request part alone *)
Lemma stop_keepalive_frame s : p_coll (stop_keepalive s) = p_coll s /\ p_futs (stop_keepalive s) = p_futs s
  /\ p_next (stop_keepalive s) = p_next s /\ p_log (stop_keepalive s) = p_log s /\ p_cbs (stop_keepalive s) = p_cbs s
  /\ p_buff (stop_keepalive s) = p_buff s /\ p_closing (stop_keepalive s) = p_closing s
  /\ p_transport (stop_keepalive s) = p_transport s.
Proof. unfold stop_keepalive. destruct (p_stop s); repeat split. Qed.
Lemma set_keepalive_frame s : p_coll (set_keepalive s) = p_coll s /\ p_futs (set_keepalive s) = p_futs s
  /\ p_next (set_keepalive s) = p_next s /\ p_log (set_keepalive s) = p_log s /\ p_cbs (set_keepalive s) = p_cbs s
  /\ p_buff (set_keepalive s) = p_buff s /\ p_closing (set_keepalive s) = p_closing s
  /\ p_transport (set_keepalive s) = p_transport s.
Proof. unfold set_keepalive. destruct (stop_keepalive_frame s) as (A & B & C & D & E & F & G & H).
  cbn [up_timers p_coll p_futs p_next p_log p_cbs p_buff p_closing p_transport]. repeat split; assumption. Qed.

(** send_message appends at most one write and touches nothing of the request part *)
Lemma send_message_frame id code data s :
  let s' := fst (send_message id code data s) in
  p_coll s' = p_coll s /\ p_futs s' = p_futs s /\ p_next s' = p_next s /\ p_cbs s' = p_cbs s
  /\ p_buff s' = p_buff s /\ p_closing s' = p_closing s /\ p_transport s' = p_transport s
  /\ (p_log s' = p_log s \/ (p_transport s = TUp /\ exists b, makeMessage id code data = Ok b /\ p_log s' = p_log s ++ [OutWrite b])).
Proof.
  cbv zeta. unfold send_message. destruct (p_transport s) eqn:T; cbn [fst].
  - rewrite T. repeat split; auto.
  - destruct (makeMessage id code data) as [b|e] eqn:M; cbn [fst]; [|rewrite T; repeat split; auto].
    destruct (p_ka (up_last _ _)); [match goal with |- context [set_keepalive ?x] => destruct (set_keepalive_frame x) as (A & B & C & D & E & F & G & H) end; rewrite A, B, C, D, E, F, G, H|];
    cbn [up_last up_log p_coll p_futs p_next p_log p_cbs p_buff p_closing p_transport]; rewrite ?T; repeat split; right; split; auto; exists b; auto.
  - destruct (p_ka (up_last _ _)); [match goal with |- context [set_keepalive ?x] => destruct (set_keepalive_frame x) as (A & B & C & D & E & F & G & H) end; rewrite A, B, C, D, E, F, G, H|];
    cbn [up_last up_log p_coll p_futs p_next p_log p_cbs p_buff p_closing p_transport]; rewrite ?T; repeat split; left; reflexivity.
  - destruct (p_ka (up_last _ _)); [match goal with |- context [set_keepalive ?x] => destruct (set_keepalive_frame x) as (A & B & C & D & E & F & G & H) end; rewrite A, B, C, D, E, F, G, H|];
    cbn [up_last up_log p_coll p_futs p_next p_log p_cbs p_buff p_closing p_transport]; rewrite ?T; repeat split; left; reflexivity.
Qed.

Lemma invF_same s s' : invF s -> p_coll s' = p_coll s -> p_futs s' = p_futs s -> p_next s' = p_next s ->
  p_log s' = p_log s -> invF s'.
Proof. unfold invF. intros H -> -> -> ->. exact H. Qed.

Lemma invF_write s s' b : invF s -> p_coll s' = p_coll s -> p_futs s' = p_futs s -> p_next s' = p_next s ->
  p_log s' = p_log s ++ [OutWrite b] -> invF s'.
Proof. unfold invF. intros H -> -> -> ->. apply InvF_log; auto. Qed.

Lemma invF_send id code data s : invF s -> invF (fst (send_message id code data s)).
Proof.
  intros H. destruct (send_message_frame id code data s) as (A & B & C & D & E & F & G & [L|(_ & b & _ & L)]).
  - eapply invF_same; eauto.
  - eapply invF_write; eauto.
Qed.

Lemma data_received_spec s b : invF s -> wf_bytes (p_buff s) -> wf_bytes b ->
  invF (data_received b s) /\ p_cbs (data_received b s) = p_cbs s /\ wf_bytes (p_buff (data_received b s)) /\
  exists os, p_log (data_received b s) = p_log s ++ os /\
  List.length (messages_of os) = List.length os /\
  (p_closing s = true -> os = [] /\ data_received b s = s) /\
  (p_closing s = false -> p_buff s ++ b = frames (messages_of os) ++ p_buff (data_received b s)
     /\ Forall wf_msg (messages_of os) /\ incomplete (p_buff (data_received b s))).
Proof.
  intros H Wb W. destruct (p_closing s) eqn:C.
  - unfold data_received. rewrite C. split; [exact H|]. split; [reflexivity|]. split; [exact Wb|].
    exists []. rewrite app_nil_r. repeat split; discriminate.
  - assert (Wa : wf_bytes (p_buff s ++ b)) by (apply wf_app; auto).
    destruct (cm_spec _ Wa) as (ms & r & _ & E & Wm & I & Wr).
    rewrite (data_received_frames s b ms r C Wa E Wm I).
    destruct (delivers_spec ms s H) as (I2 & C2 & os & L & M & N).
    split; [eapply invF_same; [exact I2|reflexivity..]|]. split; [exact C2|]. cbn [up_buff p_buff p_log].
    split; [exact Wr|]. exists os. split; [exact L|]. split; [congruence|]. split; [discriminate|].
    intros _. rewrite M. auto.
Qed.

(** events carry bytes *)
Definition wf_event (e : pevent) : Prop := match e with EvData b => wf_bytes b | _ => True end.

Lemma invF_step s e : invF s -> wf_bytes (p_buff s) -> wf_event e -> invF (pstep s e).
Proof.
  intros H Wb We. destruct e; cbn [pstep].
  - destruct (p_transport s); [eapply invF_same; [exact H|reflexivity..]|exact H..].
  - destruct (p_transport s); try exact H; apply data_received_spec; assumption.
  - assert (G : invF (fst (connection_lost s))).
    { unfold connection_lost. destruct (stop_keepalive_frame (up_conn false TGone s)) as (A & B & C & D & _).
      cbn [up_conn p_coll p_futs p_next p_log] in *.
      set (s1 := up_tasks _ _) in *.
      assert (H1 : invF s1) by (eapply invF_same; [exact H|exact A|exact B|exact C|exact D]).
      destruct (p_closed s1); cbn [fst]; try exact H1.
      destruct (p_cb _); [|exact H1]. apply (InvF_log _ _ _ _ [OutLost] H1); reflexivity. }
    destruct (p_transport s); assumption.
  - destruct (p_lost_tasks s); [exact H|]. unfold all_done_start. cbn [fst].
    apply InvF_clear. exact H.
  - unfold await_send_message.
    match goal with |- context [up_log [OutRequest ?f ?i ?c ?d] ?x] => set (s1 := up_log [OutRequest f i c d] x) end.
    assert (H1 : invF s1) by (apply InvF_request; exact H).
    destruct (p_closing s1).
    + cbn [fst]. apply (InvF_cancel _ _ _ _ (List.length (p_futs s))) in H1. exact H1.
    + pose proof (invF_send (p_next s) code data s1 H1) as G.
      destruct (send_message (p_next s) code data s1) as [s2 [u0|e0]]; exact G.
  - apply invF_send. exact H.
  - apply (InvF_cancel _ _ _ _ f H).
  - assert (G : invF (close_start force s)).
    { unfold close_start, all_done_start. destruct force; cbn [up_closing up_futs up_closers p_coll p_futs].
      - apply (InvF_clear _ _ _ _ H).
      - exact H. }
    destruct (p_transport s); assumption.
  - unfold close_resume. destruct (nth i (p_closers s) CDone).
    + destruct (gather_done fs (p_futs s)); [|exact H]. unfold close_transport.
      destruct (p_transport s); try exact H. apply (InvF_log _ _ _ _ [OutClosedTransport] H); reflexivity.
    + destruct (p_closed s); exact H.
    + exact H.
    + exact H.
  - unfold close_cancel. destruct (nth i (p_closers s) CDone).
    + apply (InvF_cancel_all _ _ _ _ fs H).
    + destruct (p_closed s); exact H.
    + exact H.
    + exact H.
  - exact H.
  - exact H.
  - exact H.
  - destruct (set_keepalive_frame (up_ka (Some a) interval s)) as (A & B & C & D & _). eapply invF_same; [exact H|exact A|exact B|exact C|exact D].
  - destruct (stop_keepalive_frame (up_ka None (p_interval s) s)) as (A & B & C & D & _). eapply invF_same; [exact H|exact A|exact B|exact C|exact D].
  - destruct (0 <=? dt); exact H.
  - destruct (p_timers s) as [|[n due] ts]; [exact H|]. destruct (due <=? p_now s); [|exact H].
    cbn [up_timers p_ka]. destruct (p_ka s); [|exact H]. apply (InvF_log _ _ _ _ [OutKeepalive n0] H); reflexivity.
Qed.
