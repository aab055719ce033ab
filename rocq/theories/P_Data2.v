(** Proofs about response collections, part 2: the round trip of values and of collections. *)
From Coq Require Import Permutation.
From Verif Require Import Py F64 Struct Utf Utility Const Enum Decode Spec SpecParse Data SpecData P_Base P_Dict P_Parse P_Data.

Lemma ov_ind2 (P : ov -> Prop) :
  P ONone -> (forall z, P (OInt z)) -> (forall f, P (OFloat f)) -> (forall s, P (OStr s)) -> (forall b, P (OBytes b)) ->
  (forall l, Forall P l -> P (OList l)) -> (forall l, Forall P l -> P (OTuple l)) ->
  (forall d, Forall (fun x => P (snd x)) d -> P (ODict d)) -> (forall r d, P r -> P d -> P (ORSet r d)) ->
  forall v, P v.
Proof.
  intros Hn Hi Hf Hs Hb Hl Ht Hd Ho.
  fix IH 1. intros [| | | | |l|l|d|r d].
  1-5: auto.
  - apply Hl. induction l; constructor; auto.
  - apply Ht. induction l; constructor; auto.
  - apply Hd. induction d; constructor; auto.
  - apply Ho; apply IH.
Qed.

(** ** dump and load, element by element *)
Definition rt (v : ov) : Prop := exists j v', dump v = Ok j /\ load j = Ok v' /\ equal v v'.

Lemma mapr_rt l : Forall rt l -> exists js l', mapr dump l = Ok js /\ mapr load js = Ok l' /\ Forall2 equal l l'.
Proof.
  induction 1 as [|v l (j & v' & D & L & E) _ (js & l' & D' & L' & E')].
  - exists [], []. repeat split; constructor.
  - exists (j :: js), (v' :: l'). cbn [mapr]. rewrite D, D'. cbn [rbind]. rewrite L, L'. repeat split. constructor; assumption.
Qed.
Lemma mapr_list l l' js : mapr dump l = Ok js -> mapr load js = Ok l' -> Forall2 equal l l' ->
  dump (OList l) = Ok (JList js) /\ load (JList js) = Ok (OList l').
Proof. intros D L E. cbn [dump load]. rewrite D, L. auto. Qed.

(** what an entry's value is read back as, before the hook of its dictionary *)
Definition entry_rt (x : key * ov) (j : string * json) (y : string * ov) : Prop :=
  fst j = json_key (fst x) /\ dump (snd x) = Ok (snd j)
  /\ fst y = json_key (fst x) /\ load (snd j) = Ok (snd y).

Lemma mapr_entries d : Forall (fun x => exists j w, dump (snd x) = Ok j /\ load j = Ok w) d ->
  exists js l, mapr (fun x => rbind (dump (snd x)) (fun j => Ok (json_key (fst x), j))) d = Ok js
    /\ mapr (fun x => rbind (load (snd x)) (fun v => Ok (fst x, v))) js = Ok l
    /\ Forall2 (fun x y => fst y = json_key (fst x) /\ exists j, dump (snd x) = Ok j /\ load j = Ok (snd y)) d l.
Proof.
  induction 1 as [|[k v] d (j & w & D & L) _ (js & l & D' & L' & E)].
  - exists [], []. repeat split; constructor.
  - cbn [fst snd] in *. exists ((json_key k, j) :: js), ((json_key k, w) :: l). cbn [mapr fst snd]. rewrite D, D'. cbn [rbind].
    split; [reflexivity|]. cbn [fst snd]. rewrite L, L'. cbn [rbind]. split; [reflexivity|].
    constructor; [|assumption]. cbn [fst snd]. eauto.
Qed.

(** the entries of the dictionary before the hook, with the original keys *)
Definition rekey (d : odict) (l : list (string * ov)) : odict :=
  map (fun p => (fst (fst p), snd (snd p))) (combine d l).

Lemma rekey_keys d l (R : key * ov -> string * ov -> Prop) : Forall2 R d l -> map fst (rekey d l) = map fst d.
Proof. induction 1; cbn; [reflexivity|]. unfold rekey in IHForall2. rewrite IHForall2. reflexivity. Qed.
Lemma rekey_names d l : Forall2 (fun x y => fst y = json_key (fst x) /\ exists j, dump (snd x) = Ok j /\ load j = Ok (snd y)) d l ->
  map (fun x => (KS (fst x), snd x)) l = names (rekey d l).
Proof.
  induction 1 as [|[k v] [s w] d l (E & _) _ IH]; [reflexivity|]. cbn [map rekey combine names fst snd] in *.
  subst s. f_equal. exact IH.
Qed.

Lemma oget_names (d : odict) s : Forall key_ok (map fst d) -> str_isdigit (u s) = false ->
  oget (KS s) (names d) = oget (KS s) d.
Proof.
  induction d as [|[k v] d IH]; [reflexivity|]. cbn [map fst names oget snd]. intros K D. inversion K as [|? ? K1 K2]; subst.
  change (map (fun x => (KS (json_key (fst x)), snd x)) d) with (names d).
  destruct (key_eqb (KS s) k) eqn:E.
  - apply key_eqb_eq in E. subst k. cbn [json_key]. rewrite key_eqb_refl. reflexivity.
  - rewrite key_eqb_neq; [apply IH; assumption|]. intros X; injection X as X. symmetry in X.
    apply (json_key_text k s K1 D) in X. subst k. rewrite key_eqb_refl in E. discriminate.
Qed.
Lemma oset_names (d : odict) s v : Forall key_ok (map fst d) -> str_isdigit (u s) = false -> In (KS s) (map fst d) ->
  oset (KS s) v (names d) = names (oset (KS s) v d).
Proof.
  induction d as [|[k w] d IH]; [cbn; tauto|]. cbn [map fst names oset snd]. intros K D I. inversion K as [|? ? K1 K2]; subst.
  change (map (fun x => (KS (json_key (fst x)), snd x)) d) with (names d).
  destruct (key_eqb (KS s) k) eqn:E.
  - apply key_eqb_eq in E. subst k. cbn [json_key]. rewrite key_eqb_refl. reflexivity.
  - rewrite key_eqb_neq.
    + cbn [names map fst snd]. f_equal. apply IH; try assumption. destruct I as [I|I]; [|exact I].
      subst k. rewrite key_eqb_refl in E. discriminate.
    + intros X; injection X as X. symmetry in X. apply (json_key_text k s K1 D) in X. subst k. rewrite key_eqb_refl in E. discriminate.
Qed.
Lemma oset_keys (d : odict) k v : In k (map fst d) -> map fst (oset k v d) = map fst d.
Proof.
  induction d as [|[k' w] d IH]; [cbn; tauto|]. cbn [map fst oset]. destruct (key_eqb k k') eqn:E; [reflexivity|].
  intros [I|I]; [subst k'; rewrite key_eqb_refl in E; discriminate|]. cbn [map fst]. rewrite IH by assumption. reflexivity.
Qed.
Lemma names_names (d : odict) : map fst (names d) = map (fun k => KS (json_key k)) (map fst d).
Proof. unfold names. rewrite !map_map. reflexivity. Qed.

(** the value the "value" patch leaves at a key *)
Definition patched (k : key) (w : ov) : ov :=
  match k, w with
  | KS s, OList [a; b; c] => if String.eqb s "value" then OTuple [a; b; c] else w
  | _, _ => w
  end.
Lemma patch_map (d : odict) : NoDup (map fst d) ->
  match oget (KS "value") d with
  | Some (OList [a; b; c]) => oset (KS "value") (OTuple [a; b; c]) d
  | _ => d
  end = map (fun x => (fst x, patched (fst x) (snd x))) d.
Proof.
  assert (Other : forall e : odict, ~ In (KS "value") (map fst e) -> map (fun x => (fst x, patched (fst x) (snd x))) e = e).
  { induction e as [|[k w] e IH]; [reflexivity|]. cbn [map fst snd]. intros N. cbn [map fst In] in N. rewrite IH by tauto. f_equal. f_equal.
    destruct k as [s|]; [|reflexivity]. cbn [patched]. destruct (String.eqb s "value") eqn:E.
    - apply String.eqb_eq in E. subst s. exfalso; apply N; left; reflexivity.
    - repeat match goal with |- context [match ?x with _ => _ end] => is_var x; destruct x end; reflexivity. }
  induction d as [|[k w] d IH]; [reflexivity|]. cbn [map fst snd]. intros N. inversion N as [|? ? N1 N2]; subst.
  cbn [oget]. destruct (key_eqb (KS "value") k) eqn:E.
  - apply key_eqb_eq in E. subst k. rewrite (Other d N1). cbn [patched]. rewrite String.eqb_refl.
    repeat match goal with |- context [match ?x with _ => _ end] => is_var x; destruct x end; try reflexivity.
  - rewrite <- (IH N2).
    assert (P : patched k w = w).
    { destruct k as [s|]; [|reflexivity]. cbn [patched]. destruct (String.eqb s "value") eqn:E2.
      - apply String.eqb_eq in E2. subst s. rewrite key_eqb_refl in E. discriminate.
      - repeat match goal with |- context [match ?x with _ => _ end] => is_var x; destruct x end; reflexivity. }
    rewrite P. destruct (oget (KS "value") d) as [[| | | | |l| | |]|]; try reflexivity.
    destruct l as [|a [|b [|c [|]]]]; try reflexivity. cbn [oset]. rewrite E. reflexivity.
Qed.

Lemma in_oget (d : odict) k : oget k d = None <-> ~ In k (map fst d).
Proof.
  split; [|apply oget_none]. induction d as [|[k' v] d IH]; cbn; [tauto|]. destruct (key_eqb k k') eqn:E; [discriminate|].
  intros H [X|X]; [subst; rewrite key_eqb_refl in E; discriminate|]. exact (IH H X).
Qed.

(** the hooks on an exportable dictionary *)
Lemma hooks d : Forall key_ok (map fst d) -> NoDup (map fst d) -> ~ In (KS "__type") (map fst d) ->
  ~ (In (KS "decoded") (map fst d) /\ In (KS "raw") (map fst d)) ->
  bytes_json_decoder (names d) =
    Ok (ODict (let e := map (fun x => (fst x, patched (fst x) (snd x))) d in filter isS e ++ filter isI e)).
Proof.
  intros K N T R. unfold bytes_json_decoder. rewrite oget_names by (assumption || reflexivity). rewrite oget_none by assumption.
  unfold response_set_json_decoder. rewrite !oget_names by (assumption || reflexivity).
  assert (V : value_list_json_decoder (names d) =
     (let e := map (fun x => (fst x, patched (fst x) (snd x))) d in filter isS e ++ filter isI e)).
  { unfold value_list_json_decoder. rewrite oget_names by (assumption || reflexivity).
    assert (X : match oget (KS "value") d with
       | Some (OList [a; b; c]) => oset (KS "value") (OTuple [a; b; c]) (names d)
       | _ => names d
       end = names (map (fun x => (fst x, patched (fst x) (snd x))) d)).
    { rewrite <- (patch_map d N). destruct (oget (KS "value") d) as [[| | | | |l| | |]|] eqn:G; try reflexivity.
      destruct l as [|a [|b [|c [|]]]]; try reflexivity.
      apply oset_names; [assumption|reflexivity|]. apply oget_some in G. apply in_map_iff. eexists; split; [|exact G]. reflexivity. }
    rewrite X. cbv zeta. apply int_keys; rewrite map_map; cbn [fst]; assumption. }
  rewrite V. destruct (oget (KS "decoded") d) eqn:G1; [|reflexivity].
  destruct (oget (KS "raw") d) eqn:G2; [|reflexivity]. exfalso. apply R.
  apply oget_some in G1, G2. split; apply in_map_iff; [exists (KS "decoded", o)|exists (KS "raw", o0)]; auto.
Qed.

Lemma names_nodup (d : odict) : Forall key_ok (map fst d) -> NoDup (map fst d) -> NoDup (map json_key (map fst d)).
Proof.
  intros K N. induction (map fst d) as [|k l IH]; [constructor|]. cbn [map].
  inversion K as [|? ? K1 K2]; inversion N as [|? ? N1 N2]; subst. constructor; [|auto].
  rewrite in_map_iff. intros (k' & E & I). rewrite Forall_forall in K2.
  apply json_key_inj in E; auto. subst. contradiction.
Qed.

(** a dictionary whose values are read back *)
Lemma dict_load d l : Forall key_ok (map fst d) -> NoDup (map fst d) ->
  Forall2 (fun x y => fst y = json_key (fst x) /\ exists j, dump (snd x) = Ok j /\ load j = Ok (snd y)) d l ->
  fold_left (fun d x => oset (KS (fst x)) (snd x) d) l [] = names (rekey d l).
Proof.
  intros K N F. rewrite fold_oset; [cbn [app]; apply rekey_names, F| |intros ? ? []].
  assert (E : map fst l = map json_key (map fst d)).
  { clear K N. induction F as [|[k v] [s w] d l (E & _) _ IH]; [reflexivity|]. cbn in *. congruence. }
  rewrite E. apply names_nodup; assumption.
Qed.

(** equal entries give equal dictionaries, in the order the hook leaves *)
Lemma equal_filter (d e : odict) : Forall2 (fun a b => fst a = fst b /\ equal (snd a) (snd b)) d e ->
  equal (ODict d) (ODict (filter isS e ++ filter isI e)).
Proof.
  intros F. apply eq_dict with (d1 := filter isS d ++ filter isI d); [apply filter_split|].
  assert (G : forall p : key * ov -> bool, (forall a b, fst a = fst b -> p a = p b) ->
     Forall2 (fun a b => fst a = fst b /\ equal (snd a) (snd b)) (filter p d) (filter p e)).
  { intros p Hp. induction F as [|a b d e [E1 E2] _ IH]; [constructor|]. cbn [filter]. rewrite (Hp a b E1).
    destruct (p b); [constructor; auto|exact IH]. }
  apply Forall2_app; apply G; intros a b E; unfold isI, isS; rewrite E; reflexivity.
Qed.

Lemma equal_list3 l a b c : equal (OList l) (OList [a; b; c]) -> exists x y z, l = [x; y; z].
Proof. intros H. inversion H as [| | | | |? ? F| | |]; subst. inversion F as [|? ? ? ? ? F1]; subst.
  inversion F1 as [|? ? ? ? ? F2]; subst. inversion F2 as [|? ? ? ? ? F3]; subst. inversion F3; subst. eauto. Qed.

(** what happens to one entry of an exportable dictionary *)
Lemma entry_ok k v : exportable_at k v -> 
  (exportable v -> rt v) -> (forall l, v = OTuple l -> Forall exportable l -> rt (OList l)) ->
  exists j w, dump v = Ok j /\ load j = Ok w /\ equal v (patched k w).
Proof.
  intros X H1 H2. destruct X as [a b c Xa Xb Xc|k v Xv N].
  - destruct (H2 [a; b; c] eq_refl) as (j & w & D & L & E); [repeat constructor; assumption|].
    exists j, w. split; [|split; [exact L|]].
    + cbn [dump] in *. exact D.
    + inversion E as [| | | | |l l' F| | |]; subst. inversion F as [|? a' ? ? Ea F1]; subst.
      inversion F1 as [|? b' ? ? Eb F2]; subst. inversion F2 as [|? c' ? ? Ec F3]; subst. inversion F3; subst.
      cbn [patched]. rewrite String.eqb_refl. constructor. repeat constructor; assumption.
  - destruct (H1 Xv) as (j & w & D & L & E). exists j, w. split; [exact D|]. split; [exact L|].
    assert (P : patched k w = w); [|rewrite P; exact E].
    destruct k as [s|]; [|reflexivity]. destruct w as [| | | | |l| | |]; try reflexivity. cbn [patched].
    destruct l as [|a [|b [|c [|]]]]; try reflexivity. destruct (String.eqb s "value") eqn:S; [|reflexivity].
    apply String.eqb_eq in S. subst s. exfalso.
    inversion E as [| | | | |l0 ? F| | |]; subst. apply (N eq_refl).
    destruct (equal_list3 l0 a b c E) as (x & y & z & ->). eauto.
Qed.

Lemma exportable_rt v : (exportable v -> rt v) /\ (forall l, v = OTuple l -> Forall exportable l -> rt (OList l)).
Proof.
  induction v as [|z|f|s|b|l IH|l IH|d IH|r d IHr IHd] using ov_ind2; (split; [intros X|intros l0 E X; try discriminate]).
  - exists JNull, ONone. repeat split; constructor.
  - exists (JInt z), (OInt z). repeat split; constructor.
  - exists (JFloat f), (OFloat f). repeat split; constructor.
  - exists (JStr s), (OStr s). repeat split; constructor.
  - inversion X as [| | | |b' W| |]; subst. exists (bytes_json_encoder b), (OBytes b). split; [reflexivity|]. split; [|constructor].
    unfold bytes_json_encoder. cbn [load mapr rbind fst snd fold_left oset key_eqb String.eqb Ascii.eqb Bool.eqb].
    unfold bytes_json_decoder. cbn [oget key_eqb String.eqb Ascii.eqb Bool.eqb]. rewrite eval_repr by assumption. reflexivity.
  - inversion X as [| | | | |l' F|]; subst. destruct (mapr_rt l) as (js & l' & D & L & E).
    { rewrite Forall_forall in *. intros v I. apply IH; auto. }
    destruct (mapr_list l l' js D L E) as [A B]. exists (JList js), (OList l'). repeat split; try assumption. constructor; assumption.
  - inversion X.
  - injection E as <-. destruct (mapr_rt l) as (js & l' & D & L & E).
    { rewrite Forall_forall in *. intros v I. apply IH; auto. }
    destruct (mapr_list l l' js D L E) as [A B]. exists (JList js), (OList l'). repeat split; try assumption. constructor; assumption.
  - inversion X as [| | | | | |d' N K T R F]; subst.
    assert (G : Forall (fun x => exists j w, dump (snd x) = Ok j /\ load j = Ok w /\ equal (snd x) (patched (fst x) w)) d).
    { rewrite Forall_forall in *. intros x I. destruct (IH x I) as [H1 H2]. exact (entry_ok _ _ (F x I) H1 H2). }
    destruct (mapr_entries d) as (js & l & D & L & E).
    { eapply Forall_impl; [|exact G]. intros x (j & w & A & B & _). eauto. }
    exists (JObj js). cbn [dump load]. rewrite D. cbn [rbind].
    assert (H0 : rt (ODict d) -> rt (ODict d)) by auto. clear H0.
    eexists. split; [reflexivity|]. cbn [load]. rewrite L. cbn [rbind]. rewrite (dict_load d l K N E).
    pose proof (rekey_keys d l _ E) as RK.
    rewrite hooks by (rewrite RK; assumption). split; [reflexivity|]. cbv zeta. apply equal_filter.
    clear - E G. induction E as [|[k v] [s w] d l (E1 & j & Dj & Lj) _ IH]; [constructor|].
    inversion G as [|? ? (j' & w' & Dj' & Lj' & Q) G']; subst. cbn [rekey combine map fst snd] in *.
    constructor; [|apply IH; assumption]. cbn [fst snd]. split; [reflexivity|].
    rewrite Dj in Dj'. injection Dj' as <-. rewrite Lj in Lj'. injection Lj' as <-. exact Q.
  - inversion X.
Qed.
Lemma exportable_round v : exportable v -> rt v. Proof. apply exportable_rt. Qed.

(** ** collections *)
Lemma asdict_id v : (exportable v -> asdict v = v) /\ (forall k, exportable_at k v -> asdict v = v).
Proof.
  assert (M : forall l, Forall (fun v => (exportable v -> asdict v = v) /\ (forall k, exportable_at k v -> asdict v = v)) l ->
     Forall exportable l -> map asdict l = l).
  { induction l as [|x l IH]; intros H X; [reflexivity|]. inversion H as [|? ? [H1 _] H2]; inversion X; subst. cbn [map].
    rewrite H1, IH by assumption. reflexivity. }
  induction v as [|z|f|s|b|l IH|l IH|d IH|r d IHr IHd] using ov_ind2.
  1-5: split; reflexivity.
  - assert (A : exportable (OList l) -> asdict (OList l) = OList l).
    { intros X. inversion X; subst. cbn [asdict]. rewrite M by assumption. reflexivity. }
    split; [exact A|]. intros k X. inversion X; subst. auto.
  - split; [intros X; inversion X|]. intros k X. inversion X as [a b c Xa Xb Xc|? ? X']; subst; [|inversion X'].
    cbn [asdict]. rewrite M; [reflexivity|assumption|repeat constructor; assumption].
  - assert (A : exportable (ODict d) -> asdict (ODict d) = ODict d).
    { intros X. inversion X as [| | | | | |d' N K T R F]; subst. cbn [asdict]. f_equal.
      clear - IH F. induction d as [|[k v] d IHd]; [reflexivity|]. inversion IH as [|? ? [_ H] H2]; inversion F as [|? ? F1 F2]; subst.
      cbn [map fst snd] in *. rewrite (H k F1), IHd by assumption. reflexivity. }
    split; [exact A|]. intros k X. inversion X; subst. auto.
  - split; [intros X; inversion X|]. intros k X. inversion X as [|? ? X']; subst. inversion X'.
Qed.

Definition frt (v : ov) : Prop := exists j v', dump (asdict v) = Ok j /\ load j = Ok v' /\ equal v v'.

Lemma set_frt s : exportable_set s -> frt s.
Proof.
  intros [b d W X]. unfold frt. cbn [asdict].
  replace (ODict (map (fun x => (fst x, asdict (snd x))) d)) with (ODict d) by (symmetry; apply (proj1 (asdict_id (ODict d))), X).
  destruct (exportable_round (OBytes b)) as (jb & b' & Db & Lb & Eb); [constructor; assumption|].
  destruct (exportable_round (ODict d) X) as (jd & d' & Dd & Ld & Ed).
  exists (JObj [("raw", jb); ("decoded", jd)]%string), (ORSet b' d').
  split; [|split; [|constructor; assumption]].
  - change (dump (ODict [(KS "raw", OBytes b); (KS "decoded", ODict d)])) with
      (rbind (mapr (fun x => rbind (dump (snd x)) (fun j => Ok (json_key (fst x), j))) [(KS "raw", OBytes b); (KS "decoded", ODict d)]) (fun o => Ok (JObj o))).
    cbn [mapr fst snd]. rewrite Db. cbn [rbind]. rewrite Dd. reflexivity.
  - cbn [load mapr fst snd]. rewrite Lb. cbn [rbind]. rewrite Ld. cbn [rbind fold_left fst snd]. clear. vm_compute. reflexivity.
Qed.
Lemma field_frt v : exportable_field v -> frt v.
Proof.
  intros [|s X|l X].
  - exists JNull, ONone. repeat split; constructor.
  - apply set_frt, X.
  - assert (H : exists js l', mapr dump (map asdict l) = Ok js /\ mapr load js = Ok l' /\ Forall2 equal l l').
    { induction X as [|s l X _ (js & l' & D' & L' & E')].
      - exists [], []. repeat split; constructor.
      - destruct (set_frt s X) as (j & s' & D & L & E). exists (j :: js), (s' :: l'). cbn [map mapr].
        rewrite D, D'. cbn [rbind]. rewrite L, L'. repeat split. constructor; assumption. }
    destruct H as (js & l' & D & L & E). exists (JList js), (OList l'). cbn [asdict dump load]. rewrite D. cbn [rbind].
    split; [reflexivity|]. rewrite L. split; [reflexivity|]. constructor; assumption.
Qed.

Lemma collection_rt c : exportable_collection c ->
  exists j c', export_response_collection c = Ok j /\ import_response_collection j = Ok c' /\ equal_collection c c'.
Proof.
  intros [(d & Ed & X) F]. destruct c as [dc v1 v2 v3 v4 v5 v6 v7 v8]. unfold fields in F.
  cbn [decoded_complete c_version c_config c_status c_pumps c_chemistry c_scg c_color c_date_time] in *. subst dc.
  rewrite !Forall_cons_iff in F. cbn [snd] in F. destruct F as (F1 & F2 & F3 & F4 & F5 & F6 & F7 & F8 & _).
  destruct (exportable_round _ X) as (j0 & w0 & D0 & L0 & E0).
  apply field_frt in F1, F2, F3, F4, F5, F6, F7, F8.
  destruct F1 as (j1 & w1 & D1 & L1 & E1). destruct F2 as (j2 & w2 & D2 & L2 & E2).
  destruct F3 as (j3 & w3 & D3 & L3 & E3). destruct F4 as (j4 & w4 & D4 & L4 & E4).
  destruct F5 as (j5 & w5 & D5 & L5 & E5). destruct F6 as (j6 & w6 & D6 & L6 & E6).
  destruct F7 as (j7 & w7 & D7 & L7 & E7). destruct F8 as (j8 & w8 & D8 & L8 & E8).
  exists (JObj [("decoded_complete", j0); ("version", j1); ("config", j2); ("status", j3); ("pumps", j4); ("chemistry", j5);
                ("scg", j6); ("color", j7); ("date_time", j8)]%string).
  exists {| decoded_complete := w0; c_version := w1; c_config := w2; c_status := w3; c_pumps := w4;
            c_chemistry := w5; c_scg := w6; c_color := w7; c_date_time := w8 |}.
  split; [|split].
  - unfold export_response_collection, asdict_collection, fields.
    cbn [decoded_complete c_version c_config c_status c_pumps c_chemistry c_scg c_color c_date_time map fst snd].
    rewrite (proj1 (asdict_id (ODict d)) X).
    set (e := [(KS "decoded_complete", ODict d); (KS "version", asdict v1); (KS "config", asdict v2); (KS "status", asdict v3);
        (KS "pumps", asdict v4); (KS "chemistry", asdict v5); (KS "scg", asdict v6); (KS "color", asdict v7); (KS "date_time", asdict v8)]).
    change (dump (ODict e)) with (rbind (mapr (fun x => rbind (dump (snd x)) (fun j => Ok (json_key (fst x), j))) e) (fun o => Ok (JObj o))).
    subst e. cbn [mapr fst snd]. rewrite D0. cbn [rbind]. rewrite D1. cbn [rbind]. rewrite D2. cbn [rbind]. rewrite D3. cbn [rbind].
    rewrite D4. cbn [rbind]. rewrite D5. cbn [rbind]. rewrite D6. cbn [rbind]. rewrite D7. cbn [rbind]. rewrite D8. reflexivity.
  - unfold import_response_collection. cbn [load mapr fst snd]. rewrite L0. cbn [rbind]. rewrite L1. cbn [rbind]. rewrite L2. cbn [rbind].
    rewrite L3. cbn [rbind]. rewrite L4. cbn [rbind]. rewrite L5. cbn [rbind]. rewrite L6. cbn [rbind]. rewrite L7. cbn [rbind].
    rewrite L8. cbn [rbind]. clear. vm_compute. reflexivity.
  - split; cbn [decoded_complete]; [exact E0|]. unfold fields.
    cbn [decoded_complete c_version c_config c_status c_pumps c_chemistry c_scg c_color c_date_time].
    repeat (constructor; [split; [reflexivity|assumption]|]). constructor.
Qed.
