(** Successful decoder executions with their explicit list of operations. *)
From Verif Require Import Py F64 Struct Utf Utility Const Enum Decode Spec Messages Shape P_Base P_Util P_Str P_Time P_Dict P_Idem P_Shape P_Trace.

(** [W]: the content of the places the decoder reads back *)
Definition views (W : list (path * option pv)) (d : dict) : Prop := forall q w, In (q, w) W -> dpget q d = w.
Definition okops (W : list (path * option pv)) (l : list op) := forallb (okop (map fst W)) l = true.

Definition does (W : list (path * option pv)) (K : list path) {A} (m : DM A) (ops : list op) (a : A) (K' : list path) : Prop :=
  okops W ops /\
  forall d, Shape d -> views W d -> knows K d ->
  valid ops d /\ m d = (aps ops d, Ok a) /\ knows K' (aps ops d).

Lemma views_after W l d : okops W l -> valid l d -> views W d -> views W (aps l d).
Proof.
  intros O V H q w I. rewrite <- (okops_same _ l d O V q); [apply H; exact I|].
  apply in_map_iff. exists (q, w). auto.
Qed.
Lemma does_lift W K {A} (r : res A) a : r = Ok a -> does W K (dlift r) [] a K.
Proof. intros ->. split; [reflexivity|]. intros d S V Kn. cbn [valid aps]. repeat split; auto; apply Kn; assumption. Qed.
Lemma does_ret W K {A} (a : A) : does W K (dret a) [] a K.
Proof. apply (does_lift W K (Ok a) a eq_refl). Qed.
Lemma does_rdata W K {A} (f : dict -> res A) a : (forall d, Shape d -> views W d -> f d = Ok a) ->
  does W K (rdata f) [] a K.
Proof.
  intros F. split; [reflexivity|]. intros d S V Kn. cbn [valid aps].
  split; [exact I|]. split; [|exact Kn]. unfold rdata, dbind, dread, dlift. rewrite F by assumption. reflexivity.
Qed.
Lemma does_assign W K p k v : In p K -> okop (map fst W) (OSet p k v) = true ->
  does W K (assign p k v) [OSet p k v] tt K.
Proof.
  intros P O. split; [unfold okops; cbn [forallb]; rewrite O; reflexivity|].
  intros d S V Kn. destruct (Kn p P) as [_ Kp].
  assert (Va : valid [OSet p k v] d) by (cbn [valid opath]; auto).
  split; [exact Va|]. split; [apply assign_ap; exact Kp|].
  apply knows_goods; [eapply okop_good; eauto|exact Va|exact Kn].
Qed.
Lemma does_setdef_leaf W K p k v : In p K -> okop (map fst W) (ODef p k v) = true ->
  does W K (setdefault p k v) [ODef p k v] tt K.
Proof.
  intros P O. split; [unfold okops; cbn [forallb]; rewrite O; reflexivity|].
  intros d S V Kn. destruct (Kn p P) as [_ Kp].
  assert (Va : valid [ODef p k v] d) by (cbn [valid opath]; auto).
  split; [exact Va|]. split; [apply setdefault_ap; exact Kp|].
  apply knows_goods; [eapply okop_good; eauto|exact Va|exact Kn].
Qed.
Lemma does_setdef W K p k dd : In p K -> okop (map fst W) (ODef p k (VDict dd)) = true -> contb (p ++ [k]) = true ->
  does W K (setdefault p k (VDict dd)) [ODef p k (VDict dd)] tt ((p ++ [k]) :: K).
Proof.
  intros P O C. split; [unfold okops; cbn [forallb]; rewrite O; reflexivity|].
  intros d S V Kn. destruct (Kn p P) as [_ Kp].
  assert (Va : valid [ODef p k (VDict dd)] d) by (cbn [valid opath]; auto).
  split; [exact Va|]. split; [apply setdefault_ap; exact Kp|].
  intros x [<-|X]; [split; [exact C|]; cbn [aps]; apply def_known; assumption|].
  revert x X. apply knows_goods; [eapply okop_good; eauto|exact Va|exact Kn].
Qed.
Lemma does_bind W K K' K'' {A B} (m : DM A) (f : A -> DM B) l a l' b :
  does W K m l a K' -> does W K' (f a) l' b K'' -> does W K (dbind m f) (l ++ l') b K''.
Proof.
  intros [O M] [O' F]. split; [unfold okops in *; rewrite forallb_app, O, O'; reflexivity|].
  intros d S V Kn. destruct (M d S V Kn) as (Va & E & KK).
  destruct (F (aps l d)) as (Va' & E' & KK').
  { apply goods_shape; [eapply okops_good; eauto|exact Va|exact S]. }
  { apply views_after; assumption. }
  { exact KK. }
  split; [apply valid_app; auto|]. rewrite aps_app. split; [|exact KK'].
  unfold dbind. rewrite E. exact E'.
Qed.
Lemma does_forget W K K' K2 {A} (m : DM A) l a : does W K m l a K' -> incl K2 K' -> does W K m l a K2.
Proof.
  intros [O M] I. split; [exact O|]. intros d S V Kn. destruct (M d S V Kn) as (Va & E & KK).
  split; [exact Va|]. split; [exact E|]. intros p P. apply KK, I, P.
Qed.

(** reading fields at a known position: value and the position after it *)
Lemma rd_u8 b off v rest : at_ b off (u8 v ++ rest) -> getSome FB b off = Ok (v, off + 1) /\ at_ b (off + 1) rest.
Proof. intros A. split; [eapply getSome_u8; eauto|]. exact (at_step _ _ _ _ A). Qed.
Lemma rd_u16 b off v rest : is_u16 v -> at_ b off (u16le v ++ rest) -> getSome FH b off = Ok (v, off + 2) /\ at_ b (off + 2) rest.
Proof. intros R A. split; [eapply getSome_u16; eauto|]. exact (at_step _ _ _ _ A). Qed.
Lemma rd_u32 b off v rest : is_u32 v -> at_ b off (u32le v ++ rest) -> getSome FI b off = Ok (v, off + 4) /\ at_ b (off + 4) rest.
Proof. intros R A. split; [eapply getSome_u32; eauto|]. exact (at_step _ _ _ _ A). Qed.
Lemma rd_i32 b off v rest : is_i32 v -> at_ b off (i32le v ++ rest) -> getSome Fi b off = Ok (v, off + 4) /\ at_ b (off + 4) rest.
Proof. intros R A. split; [eapply getSome_i32; eauto|]. exact (at_step _ _ _ _ A). Qed.
Lemma rd_u16be b off v rest : is_u16 v -> at_ b off (u16be v ++ rest) -> getSome FbH b off = Ok (v, off + 2) /\ at_ b (off + 2) rest.
Proof. intros R A. split; [eapply getSome_u16be; eauto|]. exact (at_step _ _ _ _ A). Qed.
Lemma rd_u32be b off v rest : is_u32 v -> at_ b off (u32be v ++ rest) -> getSome FbI b off = Ok (v, off + 4) /\ at_ b (off + 4) rest.
Proof. intros R A. split; [eapply getSome_u32be; eauto|]. exact (at_step _ _ _ _ A). Qed.

Lemma rd_string b off n rest : name_ok n -> at_ b off (wire_name n ++ rest) ->
  getString b off = Ok (strip is_nul (snd n), off + zlen (wire_name n)) /\ at_ b (off + zlen (wire_name n)) rest.
Proof.
  destruct n as [w s]. intros [Sc L] A. unfold wire_name, encoded in *. cbn [fst snd] in *.
  destruct (encode_ok w s Sc) as (e & E & _). rewrite E in *.
  split; [eapply getString_at; eauto|]. exact (at_step _ _ _ _ A).
Qed.
Lemma rd_array b off items padding rest : zlen items < 4294967296 -> zlen padding = pad4 (zlen items) ->
  at_ b off (wire_array items padding ++ rest) ->
  getArray b off = Ok (items, off + zlen (wire_array items padding)) /\ at_ b (off + zlen (wire_array items padding)) rest.
Proof. intros L P A. split; [eapply getArray_at; eauto|]. exact (at_step _ _ _ _ A). Qed.

Lemma db_rd W K {B} f b off x (F : Z * Z -> DM B) l a K' : getSome f b off = Ok x ->
  does W K (F x) l a K' -> does W K (dbind (rd f b off) F) l a K'.
Proof. intros G D. apply (does_bind W K K K' _ _ [] x l a); [apply does_lift; exact G | exact D]. Qed.
Lemma db_rds W K {B} b off x (F : pystr * Z -> DM B) l a K' : getString b off = Ok x ->
  does W K (F x) l a K' -> does W K (dbind (rds b off) F) l a K'.
Proof. intros G D. apply (does_bind W K K K' _ _ [] x l a); [apply does_lift; exact G | exact D]. Qed.
Lemma db_lift W K {A B} (r : res A) x (F : A -> DM B) l a K' : r = Ok x ->
  does W K (F x) l a K' -> does W K (dbind (dlift r) F) l a K'.
Proof. intros G D. apply (does_bind W K K K' _ _ [] x l a); [apply does_lift; exact G | exact D]. Qed.
Lemma db_assign W K {B} p k v (F : unit -> DM B) l a K' : In p K -> okop (map fst W) (OSet p k v) = true ->
  does W K (F tt) l a K' -> does W K (dbind (assign p k v) F) (OSet p k v :: l) a K'.
Proof. intros P O D. apply (does_bind W K K K' _ _ [OSet p k v] tt l a); [apply does_assign; assumption | exact D]. Qed.
Lemma db_setdef W K {B} p k dd (F : unit -> DM B) l a K' : In p K -> okop (map fst W) (ODef p k (VDict dd)) = true ->
  contb (p ++ [k]) = true ->
  does W ((p ++ [k]) :: K) (F tt) l a K' -> does W K (dbind (setdefault p k (VDict dd)) F) (ODef p k (VDict dd) :: l) a K'.
Proof. intros P O C D. apply (does_bind W K ((p ++ [k]) :: K) K' _ _ [ODef p k (VDict dd)] tt l a); [apply does_setdef; assumption | exact D]. Qed.
Lemma db_setdef_leaf W K {B} p k v (F : unit -> DM B) l a K' : In p K -> okop (map fst W) (ODef p k v) = true ->
  does W K (F tt) l a K' -> does W K (dbind (setdefault p k v) F) (ODef p k v :: l) a K'.
Proof. intros P O D. apply (does_bind W K K K' _ _ [ODef p k v] tt l a); [apply does_setdef_leaf; assumption | exact D]. Qed.
Lemma db_rdata W K {A B} (f : dict -> res A) x (F : A -> DM B) l a K' :
  (forall d, Shape d -> views W d -> f d = Ok x) ->
  does W K (F x) l a K' -> does W K (dbind (rdata f) F) l a K'.
Proof. intros G D. apply (does_bind W K K K' _ _ [] x l a); [apply does_rdata; exact G | exact D]. Qed.
Lemma db_assoc W K {A B C} (m : DM A) (f : A -> DM B) (g : B -> DM C) l a K' :
  does W K (dbind m (fun x => dbind (f x) g)) l a K' -> does W K (dbind (dbind m f) g) l a K'.
Proof.
  intros [O M]. split; [exact O|]. intros d S V Kn. destruct (M d S V Kn) as (Va & E & KK).
  split; [exact Va|]. split; [|exact KK]. rewrite <- E. unfold dbind. destruct (m d) as [d' [x|e]]; reflexivity.
Qed.

Ltac rdfin A GG := let G := fresh "G" in let A' := fresh "A" in
  destruct GG as [G A']; clear A; eapply db_rd; [exact G|]; clear G.
Ltac rdsome :=
  lazymatch goal with
  | A : at_ ?b ?off (u8 ?v ++ ?r) |- does _ _ (dbind (rd FB ?b ?off) _) _ _ _ => rdfin A (rd_u8 b off v r A)
  | A : at_ ?b ?off (u16le ?v ++ ?r) |- does _ _ (dbind (rd FH ?b ?off) _) _ _ _ =>
      let R := constr:(ltac:(eassumption) : is_u16 v) in rdfin A (rd_u16 b off v r R A)
  | A : at_ ?b ?off (u32le ?v ++ ?r) |- does _ _ (dbind (rd FI ?b ?off) _) _ _ _ =>
      let R := constr:(ltac:(eassumption) : is_u32 v) in rdfin A (rd_u32 b off v r R A)
  | A : at_ ?b ?off (i32le ?v ++ ?r) |- does _ _ (dbind (rd Fi ?b ?off) _) _ _ _ =>
      let R := constr:(ltac:(eassumption) : is_i32 v) in rdfin A (rd_i32 b off v r R A)
  | A : at_ ?b ?off (u16be ?v ++ ?r) |- does _ _ (dbind (rd FbH ?b ?off) _) _ _ _ =>
      let R := constr:(ltac:(eassumption) : is_u16 v) in rdfin A (rd_u16be b off v r R A)
  | A : at_ ?b ?off (u32be ?v ++ ?r) |- does _ _ (dbind (rd FbI ?b ?off) _) _ _ _ =>
      let R := constr:(ltac:(eassumption) : is_u32 v) in rdfin A (rd_u32be b off v r R A)
  end.
Ltac rdstring :=
  lazymatch goal with
  | A : at_ ?b ?off (wire_name ?n ++ ?r) |- does _ _ (dbind (rds ?b ?off) _) _ _ _ =>
      let R := constr:(ltac:(eassumption) : name_ok n) in
      let G := fresh "G" in let A' := fresh "A" in
      destruct (rd_string b off n r R A) as [G A']; clear A; eapply db_rds; [exact G|]; clear G
  | A : at_ ?b ?off (wire_name ?n) |- does _ _ (dbind (rds ?b ?off) _) _ _ _ =>
      rewrite <- (app_nil_r (wire_name n)) in A; rdstring
  end.
Ltac dstep :=
  lazymatch goal with
  | |- does _ _ (dbind (dbind _ _) _) _ _ _ => apply db_assoc
  | |- does _ _ (dbind (rd _ _ _) _) _ _ _ => rdsome
  | |- does _ _ (dbind (rds _ _) _) _ _ _ => rdstring
  | |- does _ _ (dbind (assign _ _ _) _) _ _ _ => eapply db_assign; [in_K|vm_compute; reflexivity|]
  | |- does _ _ (dbind (setdefault _ _ (VDict _)) _) _ _ _ => eapply db_setdef; [in_K|vm_compute; reflexivity|vm_compute; reflexivity|]
  | |- does _ _ (dbind (setdefault _ _ _) _) _ _ _ => eapply db_setdef_leaf; [in_K|vm_compute; reflexivity|]
  | |- does _ _ (dbind (dret _) _) _ _ _ => eapply (db_lift _ _ (Ok _)); [reflexivity|]
  | |- does _ _ (dret _) _ _ _ => apply does_ret
  end.
Ltac dsteps := cbv beta iota zeta; repeat (dstep; cbv beta iota zeta).

(** reading back *)
Lemma after l d q v : valid l d -> lastw q (rev l) = Some v -> dpget q (aps l d) = Some v.
Proof. intros V L. rewrite <- (rev_involutive l) in *. apply lastw_sound; rewrite ?rev_involutive in *; assumption. Qed.
Lemma after_mid a m b d q v : valid (a ++ m ++ b) d -> lastw q (rev m) = Some v ->
  forallb (skips q) b = true -> dpget q (aps (a ++ m ++ b) d) = Some v.
Proof.
  intros V L S. rewrite !aps_app. apply valid_app in V. destruct V as [_ V]. apply valid_app in V. destruct V as [V1 V2].
  apply aps_skips; [exact V2|exact S|]. apply after; assumption.
Qed.

Definition finals (l : list op) (facts : list (path * pv)) : Prop :=
  Forall (fun x => lastw (fst x) (rev l) = Some (snd x)) facts.
Lemma does_run W {A} (m : DM A) l a K' facts d : does W startK m l a K' -> Shape d -> views W d -> finals l facts ->
  exists d', m d = (d', Ok a) /\ all_hold d' facts.
Proof.
  intros [O M] S V F. destruct (M d S V (startK_knows d)) as (Va & E & _). exists (aps l d). split; [exact E|].
  unfold all_hold, finals in *. eapply Forall_impl; [|exact F]. intros [q v] L. cbn [fst snd] in *. apply after; assumption.
Qed.
Ltac facts := repeat (first [apply Forall_nil | apply Forall_cons; [cbn [fst snd]; vm_compute; reflexivity|]]).
Ltac splitapp A := repeat rewrite <- app_assoc in A.
Ltac unand := repeat match goal with H : _ /\ _ |- _ => destruct H end.

Lemma on_off_bit x n : 0 <= n -> on_off (Z.land x (2 ^ n)) = bit x n.
Proof.
  intros H. unfold on_off, bit. destruct (Z.testbit x n) eqn:E.
  - destruct (Z.land x (2 ^ n) =? 0) eqn:F; [|reflexivity]. apply Z.eqb_eq in F.
    assert (T : Z.testbit (Z.land x (2 ^ n)) n = false) by (rewrite F; apply Z.bits_0).
    rewrite Z.land_spec, E, Z.pow2_bits_true in T by exact H. discriminate.
  - replace (Z.land x (2 ^ n)) with 0; [reflexivity|]. symmetry. apply Z.bits_inj'. intros i Hi.
    rewrite Z.bits_0, Z.land_spec. destruct (Z.eq_dec i n) as [->|N].
    + rewrite E. reflexivity.
    + rewrite Z.pow2_bits_false by lia. apply andb_false_r.
Qed.
