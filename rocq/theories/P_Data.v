(** Proofs about response collections, part 1: bytes literals and the JSON round trip of values. *)
From Coq Require Import Permutation DecimalString DecimalPos.
From Verif Require Import Py F64 Struct Utf Utility Const Enum Decode Spec SpecParse Data SpecData P_Base P_Dict P_Parse.

(** ** bytes literals *)
Lemma hex_rt n : 0 <= n < 16 -> unhex (hex1 n) = Some n.
Proof.
  intros H. unfold hex1, unhex. destruct (n <? 10) eqn:E.
  - replace ((48 <=? 48 + n) && (48 + n <=? 57)) with true by lia. f_equal; lia.
  - replace ((48 <=? 87 + n) && (87 + n <=? 57)) with false by lia.
    replace ((97 <=? 87 + n) && (87 + n <=? 102)) with true by lia. f_equal; lia.
Qed.

Lemma literal_byte quote c r : quote = 39 \/ quote = 34 -> is_byte c ->
  literal quote (repr_byte quote c ++ r) = ocons c (literal quote r).
Proof.
  intros Q B. unfold is_byte in B. unfold repr_byte.
  destruct ((c =? quote) || (c =? 92)) eqn:E1.
  { cbn [app literal]. replace (92 =? quote) with false by lia. replace (92 =? 10) with false by lia.
    change (negb (92 =? 92)) with false. cbv iota.
    replace (c =? 10) with false by lia. replace ((c =? 92) || (c =? 39) || (c =? 34)) with true by lia. reflexivity. }
  destruct (c =? 9) eqn:E2; [|destruct (c =? 10) eqn:E3; [|destruct (c =? 13) eqn:E4]].
  1-3: cbn [app literal]; replace (92 =? quote) with false by lia;
       change (92 =? 10) with false; change (negb (92 =? 92)) with false; cbv iota.
  - change (116 =? 10) with false. change ((116 =? 92) || (116 =? 39) || (116 =? 34)) with false.
    cbn [Z.eqb Pos.eqb]. f_equal. lia.
  - cbn [Z.eqb Pos.eqb orb]. f_equal. lia.
  - cbn [Z.eqb Pos.eqb orb]. f_equal. lia.
  - destruct ((c <? 32) || (127 <=? c)) eqn:E5.
    + cbn [app literal]. replace (92 =? quote) with false by lia.
      change (92 =? 10) with false; change (negb (92 =? 92)) with false; cbv iota.
      cbn [Z.eqb Pos.eqb orb].
      rewrite !hex_rt by lia. f_equal. lia.
    + cbn [app literal]. replace (c =? quote) with false by lia. rewrite E3.
      replace (c =? 92) with false by lia. cbn [negb]. replace ((0 <=? c) && (c <? 128)) with true by lia. reflexivity.
Qed.

Lemma literal_repr quote b : quote = 39 \/ quote = 34 -> wf_bytes b ->
  literal quote (flat_map (repr_byte quote) b ++ [quote]) = Some b.
Proof.
  intros Q. induction 1 as [|c b Hc _ IH].
  - cbn. rewrite Z.eqb_refl. reflexivity.
  - cbn [flat_map]. rewrite <- app_assoc, literal_byte by assumption. rewrite IH. reflexivity.
Qed.

Lemma eval_repr b : wf_bytes b -> eval_bytes (bytes_repr b) = Some b.
Proof.
  intros W. unfold bytes_repr. set (q := if _ : bool then 34 else 39).
  assert (Q : q = 39 \/ q = 34) by (subst q; destruct (_ && _); auto).
  unfold eval_bytes. replace ((q =? 39) || (q =? 34)) with true by lia.
  rewrite (literal_repr q b Q W).
  destruct b as [|c b]; [reflexivity|].
  cbn [flat_map]. unfold repr_byte at 1.
  clearbody q. clear W.
  destruct ((c =? q) || (c =? 92)) eqn:E1; [cbn [app]; replace (92 =? q) with false by lia; reflexivity|].
  destruct (c =? 9); [cbn [app]; replace (92 =? q) with false by lia; reflexivity|]. destruct (c =? 10); [cbn [app]; replace (92 =? q) with false by lia; reflexivity|].
  destruct (c =? 13); [cbn [app]; replace (92 =? q) with false by lia; reflexivity|].
  destruct ((c <? 32) || (127 <=? c)); [cbn [app]; replace (92 =? q) with false by lia; reflexivity|]. cbn [app]. destruct (_ ++ [q]); [reflexivity|]. replace (c =? q) with false by lia. reflexivity.
Qed.

(** ** decimal spelling of naturals *)
Definition dfold (s : pystr) (a : Z) : Z := fold_left (fun a c => 10 * a + (c - 48)) s a.
Lemma uint_fold d : forall acc,
  dfold (u (NilEmpty.string_of_uint d)) (Zpos acc) = Zpos (Pos.of_uint_acc d acc).
Proof.
  induction d; intros acc; cbn [NilEmpty.string_of_uint u dfold fold_left Pos.of_uint_acc]; [reflexivity|..];
  match goal with |- context [Z.of_N ?n] => let v := eval vm_compute in (Z.of_N n) in change (Z.of_N n) with v end;
  unfold dfold in IHd; rewrite <- IHd; f_equal; lia.
Qed.
Lemma uint_fold0 d : dfold (u (NilEmpty.string_of_uint d)) 0 = Z.of_N (Pos.of_uint d).
Proof.
  induction d; cbn [NilEmpty.string_of_uint u dfold fold_left Pos.of_uint]; [reflexivity|..];
  match goal with |- context [Z.of_N (N_of_ascii ?n)] => let v := eval vm_compute in (Z.of_N (N_of_ascii n)) in change (Z.of_N (N_of_ascii n)) with v end.
  { exact IHd. }
  all: cbn [Z.of_N]; rewrite <- uint_fold; unfold dfold; f_equal.
Qed.
Lemma uint_digits d : forallb is_digit (u (NilEmpty.string_of_uint d)) = true.
Proof. induction d; cbn [NilEmpty.string_of_uint u forallb]; [reflexivity|..]; rewrite IHd; vm_compute; reflexivity. Qed.
Lemma uint_ne d : d <> Decimal.Nil -> u (NilEmpty.string_of_uint d) <> [].
Proof. destruct d; cbn; intros H; congruence. Qed.

Lemma nat_string z : 0 <= z -> str_isdigit (u (string_of_Z z)) = true /\ int_of_digits (u (string_of_Z z)) = z.
Proof.
  intros H. unfold string_of_Z. destruct z as [|p|p]; [split; reflexivity| |lia].
  cbn [Z.to_int NilZero.string_of_int]. unfold NilZero.string_of_uint.
  pose proof (Unsigned.of_to p) as E. pose proof (Unsigned.to_uint_nonnil p) as N.
  assert (Z0 : match Pos.to_uint p with Decimal.Nil => "0"%string | _ => NilEmpty.string_of_uint (Pos.to_uint p) end
    = NilEmpty.string_of_uint (Pos.to_uint p)) by (destruct (Pos.to_uint p); [congruence|reflexivity..]).
  rewrite Z0. clear Z0.
  all: split; [|change (dfold (u (NilEmpty.string_of_uint (Pos.to_uint p))) 0 = Zpos p); rewrite uint_fold0, E; reflexivity].
  all: pose proof (uint_digits (Pos.to_uint p)) as F; pose proof (uint_ne _ N) as G;
       destruct (u (NilEmpty.string_of_uint (Pos.to_uint p))); [congruence|exact F].
Qed.

(** ** keys *)
Lemma json_key_digit k : key_ok k -> str_isdigit (u (json_key k)) = match k with KI _ => true | KS _ => false end.
Proof.
  destruct k as [s|z]; cbn [key_ok json_key]; intros H.
  - destruct (str_isdigit (u s)) eqn:E; [|reflexivity]. apply isdigit_numeral in E. contradiction.
  - apply nat_string; assumption.
Qed.
Lemma json_key_inj a b : key_ok a -> key_ok b -> json_key a = json_key b -> a = b.
Proof.
  intros A B E. pose proof (json_key_digit a A) as Da. pose proof (json_key_digit b B) as Db. rewrite E in Da.
  destruct a as [sa|z], b as [sb|z0]; try congruence; cbn in *; [congruence|].
  destruct (nat_string z A) as [_ X], (nat_string z0 B) as [_ Y]. rewrite E in X. congruence.
Qed.
Lemma json_key_text k s : key_ok k -> str_isdigit (u s) = false -> json_key k = s -> k = KS s.
Proof.
  intros K D E. pose proof (json_key_digit k K) as X. rewrite E in X. destruct k; cbn in *; congruence.
Qed.

(** ** dictionaries with given keys *)
Lemma key_eqb_refl k : key_eqb k k = true.
Proof. destruct k; cbn; [apply String.eqb_refl|apply Z.eqb_refl]. Qed.
Lemma key_eqb_neq a b : a <> b -> key_eqb a b = false.
Proof. intros N. destruct (key_eqb a b) eqn:E; [|reflexivity]. apply key_eqb_eq in E. contradiction. Qed.

Lemma oget_none k (d : odict) : ~ In k (map fst d) -> oget k d = None.
Proof.
  induction d as [|[k' v] d IH]; cbn; [reflexivity|]. intros N. rewrite key_eqb_neq by (intros ->; tauto). apply IH; tauto.
Qed.
Lemma oget_in k v (d : odict) : NoDup (map fst d) -> In (k, v) d -> oget k d = Some v.
Proof.
  induction d as [|[k' v'] d IH]; cbn; [tauto|]. intros N. inversion N as [|? ? N1 N2]; subst.
  intros [E|I]; [injection E as -> ->; rewrite key_eqb_refl; reflexivity|].
  rewrite key_eqb_neq; [auto|]. intros ->. apply N1, in_map_iff. exists (k', v). auto.
Qed.
Lemma oget_some k v (d : odict) : oget k d = Some v -> In (k, v) d.
Proof.
  induction d as [|[k' v'] d IH]; cbn; [discriminate|]. destruct (key_eqb k k') eqn:E; [|auto].
  apply key_eqb_eq in E as <-. intros H; injection H as <-. auto.
Qed.
Lemma oset_new k v (d : odict) : ~ In k (map fst d) -> oset k v d = d ++ [(k, v)].
Proof.
  induction d as [|[k' v'] d IH]; cbn; [reflexivity|]. intros N. rewrite key_eqb_neq by (intros ->; tauto). rewrite IH by tauto. reflexivity.
Qed.
Lemma opop_mid k v (a b : odict) : ~ In k (map fst a) -> opop k (a ++ (k, v) :: b) = a ++ b.
Proof.
  induction a as [|[k' v'] a IH]; cbn; [rewrite key_eqb_refl; reflexivity|].
  intros N. rewrite key_eqb_neq by (intros ->; tauto). rewrite IH by tauto. reflexivity.
Qed.
Lemma oget_mid k v (a b : odict) : ~ In k (map fst a) -> oget k (a ++ (k, v) :: b) = Some v.
Proof.
  induction a as [|[k' v'] a IH]; cbn; [rewrite key_eqb_refl; reflexivity|].
  intros N. rewrite key_eqb_neq by (intros ->; tauto). apply IH; tauto.
Qed.

Lemma fold_oset (l : list (string * ov)) : forall d, NoDup (map fst l) ->
  (forall s, In s (map fst l) -> ~ In (KS s) (map fst d)) ->
  fold_left (fun d x => oset (KS (fst x)) (snd x) d) l d = d ++ map (fun x => (KS (fst x), snd x)) l.
Proof.
  induction l as [|[s v] l IH]; intros d N F; cbn [fold_left map].
  - rewrite app_nil_r; reflexivity.
  - cbn [fst snd]. inversion N as [|? ? N1 N2]; subst. rewrite oset_new by (apply F; left; reflexivity).
    rewrite IH; [rewrite <- app_assoc; reflexivity|assumption|].
    intros s' I. rewrite map_app, in_app_iff. cbn. intros [J|[J|[]]].
    + exact (F s' (or_intror I) J).
    + injection J as <-. contradiction.
Qed.

(** ** the hooks on a dictionary read back *)
Definition names (d : odict) : odict := map (fun x => (KS (json_key (fst x)), snd x)) d.
Definition isS (x : key * ov) : bool := match fst x with KS _ => true | KI _ => false end.
Definition isI (x : key * ov) : bool := negb (isS x).

Lemma names_in k (d : odict) : In k (map fst (names d)) <-> exists x, In x d /\ k = KS (json_key (fst x)).
Proof.
  unfold names. rewrite map_map. cbn [fst]. rewrite in_map_iff. split.
  - intros (x & E & I). exists x. auto.
  - intros (x & I & ->). exists x. auto.
Qed.

Definition strkeys (o : odict) : list string :=
  flat_map (fun x => match fst x with KS s => if str_isdigit (u s) then [s] else [] | KI _ => [] end) o.

Lemma int_keys_aux : forall suf pre, Forall key_ok (map fst (pre ++ suf)) -> NoDup (map fst (pre ++ suf)) ->
  fold_left (fun o s =>
      match oget (KS s) o with
      | Some v => oset (KI (int_of_digits (u s))) v (opop (KS s) o)
      | None => o
      end) (strkeys (names suf)) (names (filter isS pre) ++ names suf ++ filter isI pre)
  = names (filter isS (pre ++ suf)) ++ filter isI (pre ++ suf).
Proof.
  induction suf as [|[k v] suf IH]; intros pre K N.
  - cbn. rewrite app_nil_r. reflexivity.
  - assert (Kk : key_ok k).
    { rewrite map_app, Forall_app in K. destruct K as [_ K]. inversion K; assumption. }
    specialize (IH (pre ++ [(k, v)])). rewrite <- app_assoc in IH. cbn [app] in IH.
    specialize (IH K N). rewrite <- IH. clear IH.
    cbn [names map strkeys flat_map fst]. change (map (fun x => (KS (json_key (fst x)), snd x)) suf) with (names suf).
    pose proof (json_key_digit k Kk) as D. rewrite D.
    rewrite !filter_app. cbn [filter]. destruct k as [s|z]; unfold isI, isS at 2 4; cbn [fst negb].
    + cbn [app]. fold (strkeys (names suf)). f_equal. unfold names. rewrite map_app. cbn [map app].
      rewrite <- app_assoc. cbn [app]. f_equal. f_equal. rewrite app_nil_r. reflexivity.
    + cbn [app fold_left]. fold (strkeys (names suf)). f_equal.
      cbn [json_key snd]. destruct (nat_string z Kk) as [_ V].
      assert (NI : ~ In (KI z) (map fst pre)).
      { rewrite map_app in N. cbn [map fst] in N. apply NoDup_remove_2 in N. rewrite in_app_iff in N. tauto. }
      assert (NN : ~ In (KS (string_of_Z z)) (map fst (names (filter isS pre)))).
      { rewrite names_in. intros ([k' v'] & I & E). cbn [fst] in E. injection E as E.
        apply filter_In in I as [I _].
        assert (K' : key_ok k').
        { rewrite map_app, Forall_app in K. destruct K as [K _]. rewrite Forall_forall in K. apply K, in_map_iff. exists (k', v'); auto. }
        assert (k' = KI z) by (apply json_key_inj; cbn; auto). subst k'. apply NI, in_map_iff. exists (KI z, v'); auto. }
      rewrite app_nil_r. cbn [app]. rewrite oget_mid by assumption. rewrite opop_mid by assumption. rewrite V.
      rewrite oset_new.
      * rewrite <- !app_assoc. reflexivity.
      * rewrite map_app, in_app_iff. intros [J|J].
        { apply names_in in J as (x & _ & E). discriminate. }
        rewrite map_app, in_app_iff in J. destruct J as [J|J].
        { apply names_in in J as (x & _ & E). discriminate. }
        apply in_map_iff in J as ((k', v') & E & I). cbn in E. subst k'. apply filter_In in I as [I _].
        apply NI, in_map_iff. exists (KI z, v'); auto.
Qed.

Lemma names_S (d : odict) : names (filter isS d) = filter isS d.
Proof.
  induction d as [|[k v] d IH]; [reflexivity|]. cbn [filter]. destruct k; unfold isS at 1 3; cbn [fst names map json_key snd].
  - change (map _ (filter isS d)) with (names (filter isS d)). rewrite IH. reflexivity.
  - exact IH.
Qed.
Lemma int_keys (d : odict) : Forall key_ok (map fst d) -> NoDup (map fst d) ->
  int_key_json_decoder (names d) = filter isS d ++ filter isI d.
Proof.
  intros K N. unfold int_key_json_decoder. fold (strkeys (names d)).
  pose proof (int_keys_aux d [] K N) as H. cbn [filter names map app] in H. rewrite app_nil_r in H. rewrite H.
  rewrite names_S. reflexivity.
Qed.
Lemma filter_split (d : odict) : Permutation d (filter isS d ++ filter isI d).
Proof.
  induction d as [|x d IH]; [reflexivity|]. cbn [filter]. unfold isI at 1. destruct (isS x); cbn [negb app].
  - constructor. exact IH.
  - apply Permutation_cons_app. exact IH.
Qed.
