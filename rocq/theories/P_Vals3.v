(** Status decoding. *)
From Verif Require Import Py F64 Struct Utf Utility Const Enum Decode Spec Messages Meaning Shape P_Base P_Util P_Str P_Time P_Dict P_Idem P_Shape P_Trace P_Does P_Facts P_Vals1 P_Sym.

Lemma db_sp W K w {B} (F : pv -> DM B) l a K' : In (qSP, w) W ->
  does W K (F (or_none w)) l a K' -> does W K (dbind (rdata read_body_setpoints) F) l a K'.
Proof.
  intros I D. eapply db_rdata; [|exact D]. intros d S V. rewrite readSP by exact S. rewrite (V _ _ I). reflexivity.
Qed.
Lemma body_type_cases t : body_type_of t = if t =? 1 then ("SPA"%string, 1) else ("POOL"%string, 0).
Proof.
  unfold body_type_of, parse. destruct (Z.eqb_spec t 1) as [->|N1]; [vm_compute; reflexivity|].
  destruct (Z.eqb_spec t 0) as [->|N0]; [vm_compute; reflexivity|].
  replace (enum_by_value BODY_TYPE t) with (@Err (string * Z) EValue); [vm_compute; reflexivity|].
  symmetry. cbn [BODY_TYPE enum_by_value]. 
  repeat match goal with |- context [?a =? t] => destruct (Z.eqb_spec a t); [lia|] end. reflexivity.
Qed.

Definition lim_ops (p : path) (mn mx : option pv) : list op :=
  match mn, mx with Some a, Some b => [OSet p ATTR_MIN_SETPOINT a; OSet p ATTR_MAX_SETPOINT b] | _, _ => [] end.
Lemma setpoints_does W K i bt d : Shape d -> limits_complete d -> bt = 0 \/ bt = 1 -> In [DEVICE_BODY; KI i] K ->
  (forall v k, okop (map fst W) (OSet [DEVICE_BODY; KI i] k v) = true) ->
  does W K (status_body_setpoints (or_none (dpget qSP d)) bt [DEVICE_BODY; KI i])
    (lim_ops [DEVICE_BODY; KI i] (limits_at d bt "min_setpoint") (limits_at d bt "max_setpoint")) tt K.
Proof.
  intros Sh L Hbt I O. unfold status_body_setpoints, limits_at.
  change [KS "controller"; KS "configuration"; KS "body_type"; KI bt; KS "min_setpoint"] with (qSP ++ [KI bt; KS "min_setpoint"]).
  change [KS "controller"; KS "configuration"; KS "body_type"; KI bt; KS "max_setpoint"] with (qSP ++ [KI bt; KS "max_setpoint"]).
  specialize (fun dd => L bt dd Hbt). change [KS "controller"; KS "configuration"; KS "body_type"; KI bt] with (qSP ++ [KI bt]) in L.
  unfold dpget in *. rewrite !pget_app in *.
  destruct (pget qSP (VDict d)) as [v|] eqn:E; [|cbn; apply does_ret].
  destruct (shape_dict qSP KCont d v Sh ltac:(in_table) (or_introl eq_refl) E) as (sp & ->).
  cbn [or_none]. destruct sp as [|x sp]; [cbn; apply does_ret|]. set (S := x :: sp) in *.
  replace (truthy (VDict S)) with true by reflexivity.
  cbn [py_get pget] in *. 
  destruct (dget (KI bt) S) as [e|] eqn:G.
  2:{ eapply (db_lift _ _ (Ok VNone)); [reflexivity|]. cbn [truthy]. apply does_ret. }
  eapply (db_lift _ _ (Ok e)); [reflexivity|].
  assert (De : exists dd, e = VDict dd).
  { assert (M : okkd KCont e = true).
    { eapply (Sh (ksp [DEVICE_CONTROLLER; GROUP_CONFIGURATION; ATTR_BODY_TYPE] ++ [PAny]) KCont (qSP ++ [KI bt]));
        [in_table|reflexivity|]. unfold dpget. rewrite pget_app, E. cbn [pget]. rewrite G. reflexivity. }
    destruct e; try discriminate. eauto. }
  destruct De as (dd & ->). cbn [pget] in L. specialize (L dd eq_refl).
  destruct L as [->|(a & b & Ha & Hb)]; [cbn; apply does_ret|].
  assert (T : truthy (VDict dd) = true) by (destruct dd; [discriminate|reflexivity]). rewrite T.
  rewrite Ha, Hb. cbn [lim_ops pget].
  eapply (db_lift _ _ _ a). { unfold py_item. change ATTR_MIN_SETPOINT with (KS "min_setpoint"). rewrite Ha. reflexivity. }
  eapply db_assign; [exact I|apply O|].
  eapply (db_lift _ _ _ b). { unfold py_item. change ATTR_MAX_SETPOINT with (KS "max_setpoint"). rewrite Hb. reflexivity. }
  apply does_assign; [exact I|apply O].
Qed.

Definition Wst (d : dict) : list (path * option pv) := [(qTU, dpget qTU d); (qSP, dpget qSP d)].
Definition bfacts (d : dict) (i : Z) (b : body_msg) :=
  body_facts (tu_of (dpget qTU d)) (limits_at d (kind b) "min_setpoint") (limits_at d (kind b) "max_setpoint") i b.

Lemma body_does d K buff i b off rest : Shape d -> limits_complete d -> In [DEVICE_BODY] K -> body_ok b ->
  at_ buff off (wire_body b ++ rest) ->
  doesf (Wst d) K (status_body (tu_of (dpget qTU d)) (or_none (dpget qSP d)) buff i off) (off + zlen (wire_body b)) K
    (bfacts d i b) [[DEVICE_BODY; KI i]].
Proof.
  intros Sh L I OK A. unfold body_ok in OK. unand. replace (off + zlen (wire_body b)) with (off + 4 + 4 + 4 + 4 + 4 + 4) by (unfold zlen; cbn; lia).
  unfold wire_body in A. splitapp A.
  assert (SP : forall K bt, bt = 0 \/ bt = 1 -> In [DEVICE_BODY; KI i] K ->
    does (Wst d) K (status_body_setpoints (or_none (dpget qSP d)) bt [DEVICE_BODY; KI i])
      (lim_ops [DEVICE_BODY; KI i] (limits_at d bt "min_setpoint") (limits_at d bt "max_setpoint")) tt K).
  { intros. apply setpoints_does; auto. }
  unfold bfacts, body_facts, kind, kind_name. destruct (b_type b =? 1) eqn:Eb.
  - specialize (fun K => SP K 1 (or_intror eq_refl)). generalize dependent (limits_at d 1 "min_setpoint").
    generalize dependent (limits_at d 1 "max_setpoint"). generalize (tu_of (dpget qTU d)). intros tu mx mn SP.
    destruct mn as [mn|], mx as [mx|].
    all: eapply doesf_of; 
      [ eapply does_forget;
        [ unfold status_body; cbv beta iota zeta; do 2 dstep; cbv beta iota zeta; rewrite body_type_cases, Eb; cbn [fst snd]; dstep;
          eapply does_bind; [apply SP; in_K|]; cbn [lim_ops]; dsteps | incl_K ] 
      | sfacts | cbn [lim_ops app]; swithin ].
  - specialize (fun K => SP K 0 (or_introl eq_refl)). generalize dependent (limits_at d 0 "min_setpoint").
    generalize dependent (limits_at d 0 "max_setpoint"). generalize (tu_of (dpget qTU d)). intros tu mx mn SP.
    destruct mn as [mn|], mx as [mx|].
    all: eapply doesf_of; 
      [ eapply does_forget;
        [ unfold status_body; cbv beta iota zeta; do 2 dstep; cbv beta iota zeta; rewrite body_type_cases, Eb; cbn [fst snd]; dstep;
          eapply does_bind; [apply SP; in_K|]; cbn [lim_ops]; dsteps | incl_K ] 
      | sfacts | cbn [lim_ops app]; swithin ].
Qed.

Lemma circ_does d K buff i c off rest : In [DEVICE_CIRCUIT] K -> circ_ok c ->
  at_ buff off (wire_circ c ++ rest) ->
  doesf (Wst d) K (status_circuit buff i off) (off + zlen (wire_circ c)) K (circ_facts c) [[DEVICE_CIRCUIT; KI (c_id c)]].
Proof.
  intros I OK A. unfold circ_ok in OK. unand.
  replace (off + zlen (wire_circ c)) with (off + 4 + 4 + 1 + 1 + 1 + 1) by (unfold zlen; cbn; lia).
  unfold wire_circ in A. splitapp A. unfold circ_facts. 
  eapply doesf_of; [ eapply does_forget; [unfold status_circuit, status_circuit_id; dsteps|incl_K] | | ].
  - sfacts.
  - swithin.
Qed.

Definition head_facts (u_ : pv) (m : status_msg) := firstn 11 (status_facts u_ m).
Definition tail_facts (u_ : pv) (m : status_msg) := skipn 11 (status_facts u_ m).
Definition pS (k : key) : path := [DEVICE_CONTROLLER; GROUP_SENSOR; k].
Definition pC (k : key) : path := [DEVICE_CONTROLLER; GROUP_CONFIGURATION; k].
Definition headU : list path :=
  [pS VALUE_STATE; pS VALUE_FREEZE_MODE; pC VALUE_REMOTES; pS VALUE_POOL_DELAY; pS VALUE_SPA_DELAY; pS VALUE_CLEANER_DELAY;
   pC (UNKNOWN 9); pC (UNKNOWN 10); pC (UNKNOWN 11); pS VALUE_AIR_TEMPERATURE].
Definition tailU : list path :=
  [pS VALUE_PH; pS VALUE_ORP; pS VALUE_SATURATION; pS VALUE_SALT_PPM; pS VALUE_PH_SUPPLY_LEVEL; pS VALUE_ORP_SUPPLY_LEVEL; pS VALUE_ACTIVE_ALERT].
Definition wire_head (m : status_msg) : bytes :=
  u32le (s_state m) ++ u8 (s_freeze m) ++ u8 (s_remotes m) ++ u8 (s_pool_delay m) ++ u8 (s_spa_delay m)
  ++ u8 (s_cleaner_delay m) ++ u8 (s_unk1 m) ++ u8 (s_unk2 m) ++ u8 (s_unk3 m) ++ i32le (s_air m).
Definition wire_tail (m : status_msg) : bytes :=
  i32le (s_ph m) ++ i32le (s_orp m) ++ i32le (s_sat m) ++ i32le (s_salt m)
  ++ i32le (s_ph_tank m) ++ i32le (s_orp_tank m) ++ i32le (s_alert m).

Ltac dst := cbv beta iota zeta; repeat (first [dstep | eapply db_tu; [left; reflexivity|]]; cbv beta iota zeta).

Definition K1 : list path := [pCTLSENSOR; []].
Ltac ins := unfold startK; repeat (first [left; reflexivity | right]).
Ltac incl_c := let x := fresh in let H := fresh in intros x H; cbn [In K1] in H;
  repeat (destruct H as [<-|H]; [ins|]); destruct H.

Lemma head_does d buff m rest : is_u32 (s_state m) -> is_i32 (s_air m) -> at_ buff 0 (wire_head m ++ rest) ->
  doesf (Wst d) startK (status_head buff) (16, tu_of (dpget qTU d)) K1 (head_facts (tu_of (dpget qTU d)) m) headU
  /\ at_ buff 16 rest.
Proof.
  intros H1 H2 A. split.
  2:{ exact (at_step _ _ _ _ A). }
  unfold wire_head in A. splitapp A.
  unfold head_facts. cbn [firstn status_facts]. rewrite <- !(on_off_bit _ 3) by lia.
  eapply doesf_of; [eapply does_forget; [unfold status_head; dst; exact (does_ret _ _ (16, _))|incl_c]| | ].
  - generalize (dpget qTU d). intros w. facts.
  - vm_compute. reflexivity.
Qed.
Lemma tail_does d buff m off rest u_ : is_i32 (s_ph m) -> is_i32 (s_orp m) -> is_i32 (s_sat m) -> is_i32 (s_salt m) ->
  is_i32 (s_ph_tank m) -> is_i32 (s_orp_tank m) -> is_i32 (s_alert m) -> at_ buff off (wire_tail m ++ rest) ->
  doesf (Wst d) K1 (status_tail buff off) (off + 28) K1 (tail_facts u_ m) tailU.
Proof.
  intros H1 H2 H3 H4 H5 H6 H7 A. replace (off + 28) with (off + 4 + 4 + 4 + 4 + 4 + 4 + 4) by lia.
  unfold wire_tail in A. splitapp A.
  unfold tail_facts. cbn [skipn status_facts].
  eapply doesf_of; [eapply does_forget; [unfold status_tail; dst|incl_c]| | ].
  - unfold hundredths. abstract_values. facts.
  - abstract_values. vm_compute. reflexivity.
Qed.

(** monadic steps at the level of facts *)
Lemma df_rd W K {B} f b off x (G : Z * Z -> DM B) a K' F U : getSome f b off = Ok x ->
  doesf W K (G x) a K' F U -> doesf W K (dbind (rd f b off) G) a K' F U.
Proof. intros E (l & D & H). exists l. split; [eapply db_rd; eauto|exact H]. Qed.
Lemma df_def W K p k {B} (G : unit -> DM B) a K' F U s : In p K ->
  okop (map fst W) (ODef p k (VDict [])) = true -> contb (p ++ [k]) = true ->
  doesf W ((p ++ [k]) :: K) (G tt) a K' F U -> 
  doesf W K (dbind (setdefault p k (VDict [])) G) a K' F (((p ++ [k]) ++ s) :: U).
Proof.
  intros I O C (l & D & Fi & Wi). exists (ODef p k (VDict []) :: l). split; [eapply db_setdef; eauto|]. split.
  - apply (finals_r [_] l F Fi).
  - apply (within_app [(p ++ [k]) ++ s] U [ODef p k (VDict [])] l); [|exact Wi].
    unfold within. cbn [forallb within1 existsb]. rewrite pre_app, orb_true_r. reflexivity.
Qed.
Lemma df_set W K p k v {B} (G : unit -> DM B) a K' F U : In p K ->
  okop (map fst W) (OSet p k v) = true ->
  doesf W K (G tt) a K' F U -> apart U [(p ++ [k], v)] ->
  doesf W K (dbind (assign p k v) G) a K' ((p ++ [k], v) :: F) ((p ++ [k]) :: U).
Proof.
  intros I O D Ap.
  apply (doesf_bind W K K K' _ _ tt a [(p ++ [k], v)] F [p ++ [k]] U); [|exact D|exact Ap].
  exists [OSet p k v]. split; [apply does_assign; assumption|]. split.
  - constructor; [|constructor]. cbn [fst snd rev app]. eapply (lastw_hit p k v []); reflexivity.
  - unfold within. cbn [forallb within1 existsb]. rewrite <- (app_nil_r (p ++ [k])) at 2. rewrite pre_app. reflexivity.
Qed.
Lemma df_weakK W K {A} (m : DM A) a K' K2 F U : doesf W K m a K' F U -> incl K2 K' -> doesf W K m a K2 F U.
Proof. intros D I. eapply doesf_sub; [exact D|apply incl_refl|apply incl_refl|exact I]. Qed.

Definition bodyU (i : Z) (b : body_msg) : list path := [[DEVICE_BODY; KI i]].
Definition circU (i : Z) (c : circ_msg) : list path := [[DEVICE_CIRCUIT; KI (c_id c)]].
Definition bodyX : path := ([] ++ [DEVICE_BODY]) ++ [KS ""].
Definition circX : path := ([] ++ [DEVICE_CIRCUIT]) ++ [KS ""].
Definition statusF (d : dict) (m : status_msg) : list (path * pv) :=
  head_facts (tu_of (dpget qTU d)) m ++ loopF (bfacts d) bodyU 0 (s_bodies m)
  ++ loopF (fun _ => circ_facts) circU 0 (s_circuits m) ++ tail_facts (tu_of (dpget qTU d)) m.
Definition statusU (m : status_msg) : list path :=
  headU ++ bodyX :: loopU bodyU 0 (s_bodies m) ++ circX :: loopU circU 0 (s_circuits m) ++ tailU.

Lemma off_sub U V q : off_all U q = true -> incl V U -> off_all V q = true.
Proof. unfold off_all. rewrite !forallb_forall. auto. Qed.
(** places and facts below different top-level keys *)
Definition topU (k : key) (U : list path) : Prop := Forall (fun u => exists s, u = k :: s) U.
Definition topF (k : key) (F : list (path * pv)) : Prop := Forall (fun f : path * pv => exists s, @fst path pv f = k :: s) F.
Lemma top_off k k' U s : topU k U -> key_eqb k k' = false -> off_all U (k' :: s) = true.
Proof.
  intros T E. unfold off_all. apply forallb_forall. intros x I. unfold topU in T. rewrite Forall_forall in T.
  destruct (T x I) as (t & ->). unfold incomp. cbn [pre]. rewrite E, key_eqb_sym, E. reflexivity.
Qed.
Lemma top_apart k k' U F : topU k U -> topF k' F -> key_eqb k k' = false -> apart U F.
Proof.
  intros TU TF E. unfold apart. apply forallb_forall. intros f I. unfold topF in TF. rewrite Forall_forall in TF.
  destruct (TF f I) as (s & Es). cbv beta. rewrite Es. apply (top_off k k'); assumption.
Qed.
Lemma apart_app U V F : apart U F -> apart V F -> apart (U ++ V) F.
Proof.
  unfold apart. rewrite !forallb_forall. intros A B f I. rewrite off_app, A, B by exact I. reflexivity.
Qed.
Lemma apart_cons u V F : apart [u] F -> apart V F -> apart (u :: V) F.
Proof. apply (apart_app [u] V F). Qed.
Lemma apart_appF U F G : apart U F -> apart U G -> apart U (F ++ G).
Proof. unfold apart. rewrite forallb_app. intros -> ->. reflexivity. Qed.
Lemma loopU_top {X} (U : Z -> X -> list path) k l : (forall i x, topU k (U i x)) -> forall i, topU k (loopU U i l).
Proof. intros H. induction l as [|x l IH]; intros i; cbn [loopU]; [constructor|]. apply Forall_app. split; [apply H|apply IH]. Qed.
Lemma loopF_top {X} (f : Z -> X -> list (path * pv)) U k l : (forall i x, topF k (f i x)) -> forall i, topF k (loopF f U i l).
Proof.
  intros H. induction l as [|x l IH]; intros i; cbn [loopF]; [constructor|]. apply Forall_app. split; [|apply IH].
  apply Forall_forall. intros g I. apply filter_In in I. specialize (H i x). unfold topF in H. rewrite Forall_forall in H. apply H, I.
Qed.
Ltac tops := repeat (first [apply Forall_nil | apply Forall_cons; [eexists; reflexivity|]]).
Lemma bodyU_top i b : topU DEVICE_BODY (bodyU i b). Proof. tops. Qed.
Lemma circU_top i b : topU DEVICE_CIRCUIT (circU i b). Proof. tops. Qed.
Lemma bfacts_top d i b : topF DEVICE_BODY (bfacts d i b).
Proof. unfold bfacts, body_facts. destruct (limits_at d (kind b) "min_setpoint"), (limits_at d (kind b) "max_setpoint"); cbn [app]; tops. Qed.
Lemma cfacts_top (i : Z) c : topF DEVICE_CIRCUIT (circ_facts c). Proof. tops. Qed.
Lemma head_top d m : topF DEVICE_CONTROLLER (head_facts d m). Proof. unfold head_facts. cbn [firstn status_facts]. tops. Qed.
Lemma tailU_top : topU DEVICE_CONTROLLER tailU. Proof. tops. Qed.

Lemma wire_status_eq m : wire_status m = wire_head m ++ u32le (zlen (s_bodies m)) ++ List.concat (map wire_body (s_bodies m))
  ++ u32le (zlen (s_circuits m)) ++ List.concat (map wire_circ (s_circuits m)) ++ wire_tail m.
Proof. unfold wire_status, wire_head, wire_tail. rewrite <- !app_assoc. reflexivity. Qed.

Lemma status_does m tail d : status_ok m -> Shape d -> limits_complete d ->
  exists K', doesf (Wst d) startK (status_body_all (wire_status m ++ tail)) (zlen (wire_status m)) K' (statusF d m) (statusU m).
Proof.
  intros OK Sh L. unfold status_ok in OK. unand. pose proof (at_start (wire_status m ++ tail)) as A.
  rewrite wire_status_eq in A at 2. splitapp A. set (buff := wire_status m ++ tail) in *. clearbody buff.
  replace (zlen (wire_status m)) with
    (16 + 4 + zlen (List.concat (map wire_body (s_bodies m))) + 4 + zlen (List.concat (map wire_circ (s_circuits m))) + 28)
    by (rewrite wire_status_eq; unfold wire_head, wire_tail, zlen; rewrite !app_length; cbn [List.length u32le u8 i32le app]; lia).
  exists K1. unfold status_body_all, statusF, statusU.
  destruct (head_does d buff m _ H H0 A) as [D At]. clear A.
  eapply doesf_bind; [exact D| |].
  { cbv beta iota zeta.
    assert (Zb : is_u32 (zlen (s_bodies m))) by (unfold is_u32, zlen in *; lia).
    destruct (rd_u32 _ _ _ _ Zb At) as [G At1]. clear At. eapply df_rd; [exact G|]. clear G. cbv beta iota zeta.
    rewrite Z.min_l by assumption. unfold zlen at 1. rewrite Nat2Z.id.
    match goal with |- doesf _ _ (dbind (rdata read_body_setpoints) ?F) ?a ?K' ?Fa ?Ua => 
      enough (X : doesf (Wst d) K1 (F (or_none (dpget qSP d))) a K' Fa Ua) end.
    { destruct X as (l & DD & X). exists l. split; [eapply db_sp; [right; left; reflexivity|exact DD]|exact X]. }
    cbv beta.
    eapply (df_def _ _ [] DEVICE_BODY _ _ _ _ _ [KS ""]); [ins|vm_compute; reflexivity|vm_compute; reflexivity|].
    destruct (doesf_loop (bfacts d) bodyU (Wst d) ([DEVICE_BODY] :: K1) buff (status_body (tu_of (dpget qTU d)) (or_none (dpget qSP d)) buff)
      wire_body body_ok
      (fun i x off rest Ox Ax => body_does d ([DEVICE_BODY] :: K1) buff i x off rest Sh L (or_introl eq_refl) Ox Ax) (s_bodies m) 0 _ _ H2 At1) as [DL At2].
    clear At1.
    eapply doesf_bind; [exact DL| |].
    { assert (Zc : is_u32 (zlen (s_circuits m))) by (unfold is_u32, zlen in *; lia).
      destruct (rd_u32 _ _ _ _ Zc At2) as [G At3]. clear At2. eapply df_rd; [exact G|]. clear G. cbv beta iota zeta.
      unfold zlen at 1. rewrite Nat2Z.id.
      eapply (df_def _ _ [] DEVICE_CIRCUIT _ _ _ _ _ [KS ""]); [ins|vm_compute; reflexivity|vm_compute; reflexivity|].
      destruct (doesf_loop (fun _ => circ_facts) circU (Wst d) ([DEVICE_CIRCUIT] :: [DEVICE_BODY] :: K1) buff (status_circuit buff)
        wire_circ circ_ok
        (fun i x off rest Ox Ax => circ_does d ([DEVICE_CIRCUIT] :: [DEVICE_BODY] :: K1) buff i x off rest (or_introl eq_refl) Ox Ax) (s_circuits m) 0 _ _ H4 At3) as [DC At4].
      clear At3.
      eapply doesf_bind; [eapply df_weakK; [exact DC|]| |].
      2:{ eapply tail_does; eassumption. }
      { intros x Hx. right. right. exact Hx. }
      apply (top_apart DEVICE_CONTROLLER DEVICE_CIRCUIT); [exact tailU_top|apply loopF_top, cfacts_top|reflexivity]. }
    apply (apart_cons circX); [|apply apart_app].
    - apply (top_apart DEVICE_CIRCUIT DEVICE_BODY); [tops|apply loopF_top, bfacts_top|reflexivity].
    - apply (top_apart DEVICE_CIRCUIT DEVICE_BODY); [apply loopU_top, circU_top|apply loopF_top, bfacts_top|reflexivity].
    - apply (top_apart DEVICE_CONTROLLER DEVICE_BODY); [exact tailU_top|apply loopF_top, bfacts_top|reflexivity]. }
  apply (apart_cons bodyX); [|apply apart_app; [|apply (apart_cons circX); [|apply apart_app]]].
  - apply (top_apart DEVICE_BODY DEVICE_CONTROLLER); [tops|apply head_top|reflexivity].
  - apply (top_apart DEVICE_BODY DEVICE_CONTROLLER); [apply loopU_top, bodyU_top|apply head_top|reflexivity].
  - apply (top_apart DEVICE_CIRCUIT DEVICE_CONTROLLER); [tops|apply head_top|reflexivity].
  - apply (top_apart DEVICE_CIRCUIT DEVICE_CONTROLLER); [apply loopU_top, circU_top|apply head_top|reflexivity].
  - unfold head_facts. cbn [firstn status_facts]. generalize (tu_of (dpget qTU d)). intros u_. vm_compute. reflexivity.
Qed.

Lemma views_Wst d : views (Wst d) d.
Proof. intros q w [E|[E|[]]]; injection E as <- <-; reflexivity. Qed.
Lemma key_KI i j : i <> j -> key_eqb (KI i) (KI j) = false.
Proof. intros N. cbn [key_eqb]. apply Z.eqb_neq. exact N. Qed.

Lemma status_vals m tail d : status_ok m -> Shape d -> limits_complete d ->
  exists d', decode_pool_status (wire_status m ++ tail) d = (d', Ok tt)
  /\ all_hold d' (status_facts (temp_unit d) m)
  /\ (forall a b rest, s_bodies m = a ++ b :: rest ->
      all_hold d' (body_facts (temp_unit d) (limits_at d (kind b) "min_setpoint") (limits_at d (kind b) "max_setpoint") (zlen a) b))
  /\ (forall a c rest, s_circuits m = a ++ c :: rest -> ~ In (c_id c) (map c_id rest) -> all_hold d' (circ_facts c))
  /\ (forall i, ~ In i (map c_id (s_circuits m)) -> dpget [KS "circuit"; KI i] d' = dpget [KS "circuit"; KI i] d).
Proof.
  intros OK Sh L. destruct (status_does m tail d OK Sh L) as (K' & D).
  destruct (doesf_run _ _ _ _ _ _ d D Sh (views_Wst d)) as (d' & E & H & Fr). exists d'.
  split; [unfold decode_pool_status, dunit, dbind; rewrite E; reflexivity|].
  unfold statusF in H. rewrite !all_hold_app in H. destruct H as (Hh & Hb & Hc & Ht). rewrite temp_unit_tu.
  split; [|split; [|split]].
  - rewrite <- (firstn_skipn 11 (status_facts _ m)). apply all_hold_app. split; assumption.
  - intros a b rest Eb. eapply all_hold_incl; [exact Hb|]. rewrite Eb. intros f I. apply loopF_in.
    + exact I.
    + apply loopU_off. intros j x _ J. unfold bodyU.
      assert (T := bfacts_top d (zlen a) b). 
      assert (X : exists s, @fst path pv f = DEVICE_BODY :: KI (zlen a) :: s).
      { clear - I. unfold body_facts in I. apply in_app_or in I. destruct I as [I|I].
        - cbn [In] in I. repeat (destruct I as [<-|I]; [cbn [fst]; eexists; reflexivity|]). destruct I.
        - destruct (limits_at d (kind b) "min_setpoint"), (limits_at d (kind b) "max_setpoint"); try destruct I.
          + subst; cbn [fst]; eexists; reflexivity.
          + destruct H as [<-|[]]; cbn [fst]; eexists; reflexivity. }
      destruct X as (s & Es). rewrite Es. apply off_key, key_KI. lia.
  - intros a c rest Ec N. eapply all_hold_incl; [exact Hc|]. rewrite Ec. intros f I. apply loopF_in.
    + exact I.
    + apply loopU_off. intros j x Ix _. unfold circU.
      assert (X : exists s, @fst path pv f = DEVICE_CIRCUIT :: KI (c_id c) :: s).
      { clear - I. cbn [In circ_facts] in I. repeat (destruct I as [<-|I]; [cbn [fst]; eexists; reflexivity|]). destruct I. }
      destruct X as (s & Es). rewrite Es. apply off_key, key_KI. intros Q. apply N. rewrite <- Q. apply in_map. exact Ix.
  - intros i N. apply Fr. unfold statusU. 
    change (headU ++ bodyX :: loopU bodyU 0 (s_bodies m) ++ circX :: loopU circU 0 (s_circuits m) ++ tailU)
      with (headU ++ [bodyX] ++ loopU bodyU 0 (s_bodies m) ++ [circX] ++ loopU circU 0 (s_circuits m) ++ tailU).
    rewrite !off_app, !andb_true_iff. repeat split; try reflexivity.
    + apply (top_off DEVICE_BODY); [apply loopU_top, bodyU_top|reflexivity].
    + apply loopU_off. intros j x Ix _. unfold circU. apply off_key, key_KI. intros Q. apply N. rewrite <- Q. apply in_map. exact Ix.
Qed.
