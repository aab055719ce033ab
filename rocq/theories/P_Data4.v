(** Proofs about response collections, part 4: taking apart what was built. *)
From Coq Require Import Permutation.
From Verif Require Import Py F64 Struct Utf Utility Const Enum Decode Calls Data SpecData P_Base P_Dict P_Data P_Data2 P_Data3.

Lemma dget_in k v d : dget k d = Some v -> In (k, v) d.
Proof.
  induction d as [|[k' v'] d IH]; [discriminate|]. cbn [dget]. destruct (key_eqb k k') eqn:E.
  - intros [= ->]. apply key_eqb_eq in E. subst. left. reflexivity.
  - intros H. right. apply IH, H.
Qed.

(** what one request contributes *)
Definition field_of (a : option ov) : ov := match a with Some v => v | None => ONone end.

Lemma args_kwarg fl h raw args : build_args raw (REQUEST_DECODE_FUNCS fl h) = Ok args ->
  forall n dec, In (n, dec) (REQUEST_DECODE_FUNCS fl h) ->
  exists a, build_one raw n dec = Ok a /\ kwarg args n = field_of a.
Proof.
  assert (G : forall t args, NoDup (map fst t) -> build_args raw t = Ok args ->
    (forall n, ~ In n (map fst t) -> kwarg args n = ONone) /\
    forall n dec, In (n, dec) t -> exists a, build_one raw n dec = Ok a /\ kwarg args n = field_of a).
  { intros t. induction t as [|[n0 dec0] t IH]; intros ar N E.
    - injection E as <-. split; [reflexivity|contradiction].
    - cbn [build_args] in E. destruct (build_one raw n0 dec0) as [a|e] eqn:B; [|discriminate]. cbn [rbind] in E.
      destruct (build_args raw t) as [r|e] eqn:B2; [|discriminate]. cbn [rbind] in E. injection E as <-.
      inversion N as [|? ? N1 N2]; subst. destruct (IH r N2 eq_refl) as [I1 I2]. split.
      + intros n Hn. cbn [map fst In] in Hn. destruct a as [v|]; [|apply I1; tauto].
        unfold kwarg. cbn [find fst]. destruct (String.eqb_spec n0 n) as [->|]; [tauto|]. apply I1. tauto.
      + intros n dec [[= <- <-]|I].
        * exists a. split; [exact B|]. destruct a as [v|]; cbn [field_of].
          -- unfold kwarg. cbn [find fst]. rewrite String.eqb_refl. reflexivity.
          -- apply I1. exact N1.
        * destruct (I2 n dec I) as (a' & E1 & E2). exists a'. split; [exact E1|]. rewrite <- E2. destruct a as [v|]; [|reflexivity].
          unfold kwarg. cbn [find fst]. destruct (String.eqb_spec n0 n) as [->|]; [|reflexivity].
          exfalso. apply N1. apply in_map_iff. exists (n, dec). auto. }
  intros E. apply G; [|exact E]. cbn. repeat constructor; cbn; intuition discriminate.
Qed.

(** a field and the raw response it holds *)
Inductive holds_raw : ov -> ov -> Prop :=
| hr_none : holds_raw ONone ONone
| hr_one b d : holds_raw (ORSet (OBytes b) d) (OBytes b)
| hr_many (l : list (bytes * ov)) :
    holds_raw (OList (map (fun x => ORSet (OBytes (fst x)) (snd x)) l)) (ODict (numbered 0 (map (fun x => OBytes (fst x)) l))).

Lemma numbered_keys l : forall i k, In k (map fst (numbered i l)) -> exists j, k = KI j /\ i <= j.
Proof.
  induction l as [|v l IH]; intros i k H; [contradiction|]. destruct H as [<-|H]; [exists i; split; [reflexivity|Lia.lia]|].
  destruct (IH _ _ H) as (j & -> & L). exists j. split; [reflexivity|Lia.lia].
Qed.
Lemma dec_list l : forall i acc, (forall k, In k (map fst acc) -> exists j, k = KI j /\ j < i) ->
  deconstruct_list i (map asdict (map (fun x => ORSet (OBytes (fst x)) (snd x)) l)) acc
  = Ok (acc ++ numbered i (map (fun x : bytes * ov => OBytes (fst x)) l)).
Proof.
  induction l as [|x l IH]; intros i acc H; [cbn; rewrite app_nil_r; reflexivity|].
  cbn [map numbered deconstruct_list]. cbn [asdict item_raw oget]. change (key_eqb (KS "raw") (KS "raw")) with true. cbn [rbind].
  rewrite oset_new.
  - rewrite IH; [rewrite <- app_assoc; reflexivity|].
    intros k I. rewrite map_app, in_app_iff in I. destruct I as [I|[<-|[]]].
    + destruct (H _ I) as (j & -> & L). exists j. split; [reflexivity|Lia.lia].
    + exists i. split; [reflexivity|Lia.lia].
  - intros I. destruct (H _ I) as (j & [= <-] & L). Lia.lia.
Qed.
Lemma dec_field v r n l acc : holds_raw v r -> n <> "decoded_complete"%string ->
  deconstruct_fields ((KS n, asdict v) :: l) acc = deconstruct_fields l (oset (KS n) r acc).
Proof.
  intros H N. cbn [deconstruct_fields]. rewrite key_eqb_neq by congruence.
  destruct H as [|b d|items]; [reflexivity|reflexivity|].
  cbn [asdict]. rewrite dec_list by (intros k []). reflexivity.
Qed.

Lemma dec_skip v l acc : deconstruct_fields ((KS "decoded_complete", v) :: l) acc = deconstruct_fields l acc.
Proof. reflexivity. Qed.

Lemma decode_new_set m b v : decode_new m b = Ok v -> exists d, v = ORSet (OBytes b) (inj (VDict d)) /\ d = fst (m []).
Proof. unfold decode_new. destruct (m []) as [d [?|?]]; [|discriminate]. intros [= <-]. exists d. auto. Qed.

(** the bytes of a dictionary of raw responses *)
Lemma many_raw dec d : forall l, build_many dec d = Ok l ->
  exists items : list (bytes * ov), l = map (fun x => ORSet (OBytes (fst x)) (snd x)) items
  /\ map (fun x => inj (snd x)) d = map (fun x => OBytes (fst x)) items
  /\ Forall2 (fun x y => exists f i, dec = DIdx f /\ fst x = KI i /\ snd x = VBytes (fst y) /\ snd y = inj (VDict (fst (f (fst y) i [])))) d items.
Proof.
  induction d as [|[k v] d IH]; intros l E.
  - injection E as <-. exists []. repeat split; constructor.
  - cbn [build_many] in E. destruct dec as [f|f]; [discriminate|]. destruct k as [s|i]; [discriminate|].
    destruct v as [| | | |b| | |]; try discriminate.
    destruct (decode_new (f b i) b) as [v|e] eqn:D; [|discriminate]. cbn [rbind] in E.
    destruct (build_many (DIdx f) d) as [r|e] eqn:B; [|discriminate]. cbn [rbind] in E. injection E as <-.
    destruct (IH r eq_refl) as (items & -> & M & F). apply decode_new_set in D as (dd & -> & ->).
    exists ((b, inj (VDict (fst (f b i [])))) :: items). split; [reflexivity|]. split; [cbn [map snd fst inj]; rewrite M; reflexivity|].
    constructor; [|exact F]. exists f, i. auto.
Qed.

(** what a raw response comes back as *)
Definition comes_back (v : option pv) : ov :=
  match v with
  | Some (VBytes (b :: bs)) => OBytes (b :: bs)
  | Some (VDict (x :: d)) => ODict (numbered 0 (map (fun x => inj (snd x)) (x :: d)))
  | _ => ONone
  end.
Lemma one_raw raw n dec a : build_one raw n dec = Ok a -> holds_raw (field_of a) (comes_back (dget (KS n) raw)).
Proof.
  unfold build_one. destruct (dget (KS n) raw) as [v|]; [|intros [= <-]; constructor].
  destruct (truthy v) eqn:T.
  - destruct v as [| | | |b| | |d]; try discriminate.
    + destruct dec as [f|f]; [|discriminate]. destruct (decode_new (f b) b) as [s|] eqn:D; [|discriminate].
      intros [= <-]. apply decode_new_set in D as (dd & -> & _). destruct b as [|b0 b]; [discriminate|]. constructor.
    + destruct (build_many dec d) as [l|] eqn:B; [|discriminate]. intros [= <-].
      apply many_raw in B as (items & -> & M & _). destruct d as [|x d]; [discriminate|]. cbn [comes_back field_of]. rewrite M. constructor.
  - intros [= <-]. destruct v as [| | | |b| | |d]; try constructor; destruct b + destruct d; try discriminate; constructor.
Qed.

Lemma build_spec fl h raw data c : build_response_collection fl h raw data = Ok c ->
  decoded_complete c = inj (VDict data) /\
  forall n dec, In (n, dec) (REQUEST_DECODE_FUNCS fl h) -> exists a, build_one raw n dec = Ok a /\ In (n, field_of a) (fields c).
Proof.
  unfold build_response_collection. destruct (build_args raw (REQUEST_DECODE_FUNCS fl h)) as [args|e] eqn:B; [|discriminate].
  intros [= <-]. split; [reflexivity|]. intros n dec I. destruct (args_kwarg _ _ _ _ B n dec I) as (a & E1 & E2).
  exists a. split; [exact E1|]. rewrite <- E2. cbn [REQUEST_DECODE_FUNCS In] in I.
  repeat (destruct I as [I|I]; [injection I as <- _; cbn [fields make_collection In c_version c_config c_status c_pumps c_chemistry c_scg c_color c_date_time]; tauto|]).
  contradiction.
Qed.

Lemma deconstruct_build fl h raw data c : build_response_collection fl h raw data = Ok c ->
  deconstruct_response_collection c =
  Ok (map (fun n => (KS n, comes_back (dget (KS n) raw))) requests, inj (VDict data)).
Proof.
  unfold build_response_collection. destruct (build_args raw (REQUEST_DECODE_FUNCS fl h)) as [args|e] eqn:B; [|discriminate].
  intros [= <-]. unfold deconstruct_response_collection, asdict_collection, fields, make_collection.
  cbn [decoded_complete c_version c_config c_status c_pumps c_chemistry c_scg c_color c_date_time map fst snd].
  assert (H : forall n dec, In (n, dec) (REQUEST_DECODE_FUNCS fl h) -> holds_raw (kwarg args n) (comes_back (dget (KS n) raw))).
  { intros n dec I. destruct (args_kwarg _ _ _ _ B n dec I) as (a & E1 & E2). rewrite E2. apply (one_raw _ _ _ _ E1). }
  rewrite dec_skip.
  do 8 (lazymatch goal with |- context[deconstruct_fields ((KS ?n, asdict (kwarg args ?n)) :: _) _] =>
    rewrite (dec_field _ (comes_back (dget (KS n) raw)) n) by (first [discriminate | eapply H; unfold REQUEST_DECODE_FUNCS; repeat (first [left; reflexivity | right])]) end).
  reflexivity.
Qed.

(** ** exporting what was built *)
Lemma nonneg_of v : no_negative_keys (inj v) -> nonneg v = true.
Proof.
  induction v as [| | | | |l IH|l IH|d IH] using pv_ind2; intros H; try reflexivity.
  - cbn [nonneg]. apply forallb_forall. intros x I. rewrite Forall_forall in IH. apply IH; [exact I|].
    intros dd z y In1 In2. apply (H dd z y); [|exact In2]. apply (in_list _ (inj x)); [apply in_map, I|exact In1].
  - cbn [nonneg]. apply forallb_forall. intros x I. rewrite Forall_forall in IH. apply IH; [exact I|].
    intros dd z y In1 In2. apply (H dd z y); [|exact In2]. apply (in_tuple _ (inj x)); [apply in_map, I|exact In1].
  - cbn [nonneg]. apply forallb_forall. intros [k x] I. rewrite Forall_forall in IH. apply andb_true_iff. cbn [fst snd].
    assert (I' : In (k, inj x) (map (fun x => (fst x, inj (snd x))) d)) by (apply in_map_iff; exists (k, x); auto). split.
    + destruct k as [s|z]; [reflexivity|]. apply Z.leb_le. eapply H; [apply in_here|exact I'].
    + apply (IH (k, x) I). intros dd z y In1 In2. apply (H dd z y); [|exact In2]. apply (in_dict _ k (inj x)); [exact I'|exact In1].
Qed.

Lemma exp_dict d : Inv d -> no_negative_keys (inj (VDict d)) -> exportable (inj (VDict d)).
Proof. intros I N. destruct (portable_exportable (VDict d) I (nonneg_of _ N)) as [H _]. apply H. reflexivity. Qed.

Lemma Inv_nil : Inv []. Proof. reflexivity. Qed.
Lemma run_safe c : safe (run_decoder c).
Proof.
  destruct c; cbn [run_decoder].
  - apply st_status. - apply st_config. - apply st_chem. - apply st_pump. - apply st_scg. - apply st_version. - apply st_datetime. - apply st_color. - apply st_equip.
Qed.
Lemma history_Inv l : forall d, Inv d -> Inv (history l d).
Proof. induction l as [|c l IH]; intros d I; [exact I|]. cbn [history]. apply IH, (run_safe c d I). Qed.

Lemma one_exportable fl h raw n dec a : In (n, dec) (REQUEST_DECODE_FUNCS fl h) -> build_one raw n dec = Ok a ->
  real_bytes (inj (VDict raw)) -> no_negative_keys (field_of a) -> exportable_field (field_of a).
Proof.
  intros I E W N. unfold build_one in E. destruct (dget (KS n) raw) as [v|] eqn:G; [|injection E as <-; constructor].
  destruct (truthy v) eqn:T; [|injection E as <-; constructor].
  apply dget_in in G.
  assert (W' : forall b, inside (OBytes b) (inj v) -> wf_bytes b).
  { intros b J. apply W. apply (in_dict _ (KS n) (inj v)); [apply in_map_iff; exists (KS n, v); auto|exact J]. }
  assert (S1 : forall f, dec = DOne f -> forall b, Inv (fst (f b []))).
  { intros f -> b. cbn [REQUEST_DECODE_FUNCS In] in I.
    repeat (destruct I as [I|I]; [try discriminate I; injection I as <- <-; first [apply st_version | apply st_config | apply st_status | apply st_chem | apply st_scg | apply st_color | apply st_datetime]; apply Inv_nil|]); contradiction. }
  assert (S2 : forall f, dec = DIdx f -> forall b i, Inv (fst (f b i []))).
  { intros f -> b i. cbn [REQUEST_DECODE_FUNCS In] in I.
    repeat (destruct I as [I|I]; [try discriminate I; injection I as <- <-; apply st_pump; apply Inv_nil|]); contradiction. }
  destruct v as [| | | |b| | |d]; try discriminate E.
  - destruct dec as [f|f]; [|discriminate]. destruct (decode_new (f b) b) as [s|] eqn:D; [|discriminate]. injection E as <-.
    apply decode_new_set in D as (dd & -> & ->). cbn [field_of] in *. constructor. constructor; [apply W', in_here|].
    apply exp_dict; [apply (S1 f eq_refl)|]. intros d' z x J K. apply (N d' z x); [|exact K]. apply in_decoded, J.
  - destruct (build_many dec d) as [l|] eqn:B; [|discriminate]. injection E as <-. cbn [field_of] in *.
    apply many_raw in B as (items & -> & M & F). apply exf_many. rewrite Forall_forall. intros s J. apply in_map_iff in J as ([b o] & <- & J). cbn [fst snd].
    assert (Q : exists x, In x d /\ exists f i, dec = DIdx f /\ fst x = KI i /\ snd x = VBytes b /\ o = inj (VDict (fst (f b i [])))).
    { clear -F J. induction F as [|x y d items H F IH]; [contradiction|]. destruct J as [->|J]; [exists x; split; [left; reflexivity|exact H]|].
      destruct (IH J) as (x' & A & C). exists x'. split; [right; exact A|exact C]. }
    destruct Q as ([k v] & J1 & f & i & -> & _ & E1 & E2). cbn [snd] in E1. subst v o. constructor.
    + apply W'. apply (in_dict _ k (OBytes b)); [apply in_map_iff; exists (k, VBytes b); auto|apply in_here].
    + apply exp_dict; [apply (S2 f eq_refl)|]. intros d' z x K1 K2. apply (N d' z x); [|exact K2].
      apply (in_list _ (ORSet (OBytes b) (inj (VDict (fst (f b i []))))));
        [apply in_map_iff; exists (b, inj (VDict (fst (f b i [])))); auto|apply in_decoded, K1].
Qed.

Lemma built_exportable fl h raw l c : build_response_collection fl h raw (history l []) = Ok c ->
  real_bytes (inj (VDict raw)) -> no_negative_keys (decoded_complete c) ->
  (forall n v, In (n, v) (fields c) -> no_negative_keys v) -> exportable_collection c.
Proof.
  intros B W N1 N2. pose proof (build_spec _ _ _ _ _ B) as [D F]. split.
  - exists (map (fun x => (fst x, inj (snd x))) (history l [])). split; [exact D|].
    apply (exp_dict (history l [])); [apply history_Inv, Inv_nil|]. rewrite <- D. exact N1.
  - assert (H : forall n dec, In (n, dec) (REQUEST_DECODE_FUNCS fl h) -> exists v, In (n, v) (fields c) /\ exportable_field v).
    { intros n dec I. destruct (F n dec I) as (a & E & J). exists (field_of a). split; [exact J|].
      apply (one_exportable fl h raw n dec a I E W). apply (N2 n _ J). }
    unfold fields in *. repeat (apply Forall_cons; [cbn [snd]|]); [..|apply Forall_nil];
    match goal with |- exportable_field (?p c) =>
      let n := lazymatch p with c_version => constr:("version"%string) | c_config => constr:("config"%string) | c_status => constr:("status"%string) | c_pumps => constr:("pumps"%string)
               | c_chemistry => constr:("chemistry"%string) | c_scg => constr:("scg"%string) | c_color => constr:("color"%string) | c_date_time => constr:("date_time"%string) end in
      edestruct (H n) as (v & J & K); [unfold REQUEST_DECODE_FUNCS; repeat (first [left; reflexivity | right])|]
    end;
    cbn [In] in J; repeat (destruct J as [J|J]; [try discriminate J; injection J as <-; exact K|]); contradiction.
Qed.

Lemma equal_entry d d' k v : equal (ODict d) (ODict d') -> In (k, v) d -> exists v', In (k, v') d' /\ equal v v'.
Proof.
  intros E I. inversion E as [| | | | | | |? d1 ? P F|]; subst. apply (Permutation_in _ P) in I. clear -F I.
  induction F as [|x y a b [H1 H2] F IH]; [contradiction|]. destruct I as [->|I].
  - exists (snd y). cbn [fst snd] in *. split; [left; destruct y; cbn in *; congruence|exact H2].
  - destruct (IH I) as (v' & J & K). exists v'. split; [right; exact J|exact K].
Qed.

(** a test for negative keys, used for the examples *)
Fixpoint onneg (v : ov) : bool :=
  match v with
  | OList l | OTuple l => forallb onneg l
  | ODict d => forallb (fun x => match fst x with KI z => 0 <=? z | KS _ => true end && onneg (snd x)) d
  | ORSet r d => onneg r && onneg d
  | _ => true
  end.
Lemma onneg_keys v : onneg v = true -> no_negative_keys v.
Proof.
  intros H d z x I. revert H. induction I as [|v l J I IH|v l J I IH|k v e J I IH|r e I IH|r e I IH]; cbn [onneg]; intros H J'.
  - cbn [onneg] in H. rewrite forallb_forall in H. specialize (H _ J'). cbn [fst snd] in H. apply andb_prop in H as [H _]. apply Z.leb_le, H.
  - rewrite forallb_forall in H. exact (IH (H _ J) J').
  - rewrite forallb_forall in H. exact (IH (H _ J) J').
  - rewrite forallb_forall in H. specialize (H _ J). apply andb_prop in H as [_ H]. exact (IH H J').
  - apply andb_prop in H as [H _]. exact (IH H J').
  - apply andb_prop in H as [_ H]. exact (IH H J').
Qed.

Lemma repr_ascii b : wf_bytes b -> Forall (fun c => 32 <= c < 127) (bytes_repr b).
Proof.
  intros W. unfold bytes_repr. generalize (eq_refl (if existsb (Z.eqb 39) b && negb (existsb (Z.eqb 34) b) then 34 else 39)). generalize (if existsb (Z.eqb 39) b && negb (existsb (Z.eqb 34) b) then 34 else 39) at 1 3 4 5 as q. intros q Q0. assert (Q : q = 34 \/ q = 39) by (rewrite Q0; destruct (existsb (Z.eqb 39) b && _); auto).
  clear Q0. constructor; [Lia.lia|]. constructor; [Lia.lia|]. apply Forall_app. split; [|repeat constructor; Lia.lia].
  induction W as [|c b H W IH]; [constructor|]. cbn [flat_map]. apply Forall_app. split; [|exact IH]. clear IH W.
  unfold is_byte in H. unfold repr_byte.
  assert (X : forall n, 0 <= n < 16 -> 32 <= hex1 n < 127) by (intros n Hn; unfold hex1; destruct (n <? 10) eqn:E; Lia.lia).
  destruct ((c =? q) || (c =? 92)) eqn:E1; [repeat constructor; Lia.lia|].
  destruct (c =? 9); [repeat constructor; Lia.lia|]. destruct (c =? 10); [repeat constructor; Lia.lia|]. destruct (c =? 13); [repeat constructor; Lia.lia|].
  destruct ((c <? 32) || (127 <=? c)) eqn:E2; [|repeat constructor; Lia.lia].
  assert (0 <= c / 16 < 16 /\ 0 <= c mod 16 < 16) as [H1 H2].
  { split; [split; [apply Z.div_pos; Lia.lia|apply Z.div_lt_upper_bound; Lia.lia]|apply Z.mod_pos_bound; Lia.lia]. }
  repeat (apply Forall_cons; [first [apply X; assumption | split; reflexivity + discriminate | Lia.lia]|]). constructor.
Qed.
