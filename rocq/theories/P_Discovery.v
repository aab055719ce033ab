(** Proofs about discovery. *)
From Verif Require Import Py F64 Struct Utf Utility Enum Spec SpecParse SpecDiscovery Discovery P_Base P_Util P_Str P_Parse.

Lemma rcons_inv {A} (a : A) r l : rcons a r = Ok l -> exists t, r = Ok t /\ l = a :: t.
Proof. destruct r; cbn; [|discriminate]. intros H; injection H as <-. eauto. Qed.

(** bytes.decode("utf-8") accepts only what str.encode("utf-8") writes *)
Lemma utf8_decode_inv : forall n b s, (List.length b <= n)%nat -> wf_bytes b -> utf8_decode b = Ok s ->
  Forall scalar s /\ utf8_encode s = Ok b.
Proof.
  induction n as [|n IH]; intros b s L W H.
  { destruct b; [|cbn in L; lia]. injection H as <-. repeat constructor. }
  destruct b as [|b0 r0]; [injection H as <-; repeat constructor|].
  cbn [utf8_decode] in H. cbn [List.length] in L.
  inversion W as [|? ? W0 W1]; subst. unfold is_byte in W0.
  assert (K : forall c x r t, utf8_enc1 c = Ok x -> scalar c -> (List.length r <= n)%nat -> wf_bytes r ->
            utf8_decode r = Ok t -> Forall scalar (c :: t) /\ utf8_encode (c :: t) = Ok (x ++ r)).
  { intros c x r t E S Lr Wr D. destruct (IH r t Lr Wr D) as [F E']. split; [constructor; assumption|].
    cbn [utf8_encode]. rewrite E, E'. reflexivity. }
  destruct (b0 <? 128) eqn:E0.
  { apply rcons_inv in H as (t & H & ->). apply (K b0 [b0] r0 t); try assumption; try lia.
    - unfold utf8_enc1. rewrite E0. replace (b0 <? 0) with false by lia. reflexivity.
    - unfold scalar; lia. }
  destruct (b0 <? 194) eqn:E1; [discriminate|].
  destruct r0 as [|b1 r1]; [discriminate|]. inversion W1 as [|? ? W2 W3]; subst. unfold is_byte in W2.
  destruct (is_cont b1) eqn:C1; cbn [negb] in H; [|discriminate]. unfold is_cont in C1. cbn [List.length] in L.
  destruct (b0 <? 224) eqn:E2.
  { apply rcons_inv in H as (t & H & ->).
    change (b0 :: b1 :: r1) with ([b0; b1] ++ r1). apply K; try assumption; try lia; [|unfold scalar; lia].
    unfold utf8_enc1. clear - E0 E1 E2 C1.
    replace ((b0 - 192) * 64 + (b1 - 128) <? 0) with false by lia.
    replace ((b0 - 192) * 64 + (b1 - 128) <? 128) with false by lia.
    replace ((b0 - 192) * 64 + (b1 - 128) <? 2048) with true by lia.
    f_equal. f_equal; [|f_equal]; lia. }
  destruct r1 as [|b2 r2]; [discriminate|]. inversion W3 as [|? ? W4 W5]; subst. unfold is_byte in W4.
  destruct (is_cont b2) eqn:C2; cbn [negb] in H; [|discriminate]. unfold is_cont in C2. cbn [List.length] in L.
  destruct (b0 <? 240) eqn:E3.
  { destruct ((_ <? 2048) || _) eqn:E4 in H; [discriminate|].
    apply rcons_inv in H as (t & H & ->). unfold is_surrogate in E4.
    change (b0 :: b1 :: b2 :: r2) with ([b0; b1; b2] ++ r2).
    apply K; try assumption; try lia; [|unfold scalar; lia].
    unfold utf8_enc1, is_surrogate. clear - E0 E1 E2 E3 E4 C1 C2.
    set (c := (b0 - 224) * 4096 + (b1 - 128) * 64 + (b2 - 128)) in *.
    replace (c <? 0) with false by lia. replace (c <? 128) with false by lia.
    replace (c <? 2048) with false by lia. replace ((55296 <=? c) && (c <=? 57343)) with false by lia.
    replace (c <? 65536) with true by (subst c; lia). subst c. clear E4.
    f_equal. f_equal; [|f_equal; [|f_equal]]; lia. }
  destruct r2 as [|b3 r3]; [discriminate|]. inversion W5 as [|? ? W6 W7]; subst. unfold is_byte in W6.
  destruct (is_cont b3) eqn:C3; cbn [negb] in H; [|discriminate]. unfold is_cont in C3. cbn [List.length] in L.
  destruct (_ || _ || _) eqn:E4 in H; [discriminate|].
  apply rcons_inv in H as (t & H & ->).
  change (b0 :: b1 :: b2 :: b3 :: r3) with ([b0; b1; b2; b3] ++ r3).
  apply K; try assumption; try lia; [|unfold scalar; lia].
  unfold utf8_enc1, is_surrogate. clear - E0 E1 E2 E3 E4 C1 C2 C3.
  set (c := (b0 - 240) * 262144 + (b1 - 128) * 4096 + (b2 - 128) * 64 + (b3 - 128)) in *.
  replace (c <? 0) with false by lia. replace (c <? 128) with false by lia.
  replace (c <? 2048) with false by lia. replace ((55296 <=? c) && (c <=? 57343)) with false by lia.
  replace (c <? 65536) with false by lia. replace (c <? 1114112) with true by lia. subst c. clear E4.
  f_equal. f_equal; [|f_equal; [|f_equal; [|f_equal]]]; lia.
Qed.

(** decimal spelling of a byte *)
Definition dec_ok (z : Z) : bool :=
  str_isdigit (str_of_Z z) && (int_of_digits (str_of_Z z) =? z)
  && (negb (hd 0 (str_of_Z z) =? 48) || pystr_eqb (str_of_Z z) [48]).
Lemma dec_bytes z : is_byte z -> decimal (str_of_Z z) z.
Proof.
  intros H. assert (K : forallb (fun n => dec_ok (Z.of_nat n)) (seq 0 256) = true) by (vm_compute; reflexivity).
  rewrite forallb_forall in K. specialize (K (Z.to_nat z)). unfold is_byte in H.
  rewrite Z2Nat.id in K by lia. assert (D : dec_ok z = true) by (apply K, in_seq; lia).
  unfold dec_ok in D. rewrite !andb_true_iff in D. destruct D as [[D1 D2] D3].
  split.
  - apply isdigit_numeral in D1. destruct D1 as (v & N).
    apply Z.eqb_eq in D2. rewrite <- D2 at 2.
    destruct N as (N1 & N2 & N3). split; [assumption|]. split; [assumption|]. apply int_of_digits_value.
  - intros Hd. rewrite Hd in D3. cbn in D3. apply pystr_eqb_eq in D3. exact D3.
Qed.

Lemma short_FI b : zlen b < 4 -> getSome FI b 0 = Err EStruct.
Proof.
  intros H. unfold getSome, unpack_from. change (fsize FI) with 4.
  replace ((0 <=? 0) && (0 + 4 <=? zlen b)) with false by lia. reflexivity.
Qed.
Lemma getSome_short f b off : zlen b < off + fsize f -> getSome f b off = Err EStruct.
Proof.
  intros H. unfold getSome, unpack_from.
  replace ((0 <=? off) && (off + fsize f <=? zlen b)) with false by lia. reflexivity.
Qed.

Lemma process_short b : zlen b < 4 -> process_discovery_response b = Err EStruct.
Proof. intros H. unfold process_discovery_response. rewrite short_FI by assumption. reflexivity. Qed.

Lemma process_check w r : is_u32 w -> w <> 2 -> process_discovery_response (u32le w ++ r) = Err ESLError.
Proof.
  intros Hw N. unfold process_discovery_response.
  rewrite (getSome_u32 _ 0 w r (at_start _) Hw). cbn [rbind].
  unfold DISCOVERY_CHKSUM. replace (w =? 2) with false by lia. reflexivity.
Qed.

Definition entry_of (x y z t port ty sub : Z) (name : pystr) : dict :=
  [(KS "ip", VStr (str_of_Z x ++ u "." ++ str_of_Z y ++ u "." ++ str_of_Z z ++ u "." ++ str_of_Z t));
   (KS "port", VInt port); (KS "gtype", VInt ty); (KS "gsubtype", VInt sub); (KS "name", VStr (strip is_nul name))].

Lemma process_full x y z t port ty sub n : is_u16 port ->
  process_discovery_response (u32le 2 ++ [x; y; z; t] ++ u16le port ++ [ty; sub] ++ n)
  = rbind (utf8_decode n) (fun s => Ok (entry_of x y z t port ty sub s)).
Proof.
  intros Hp. set (b := u32le 2 ++ _).
  assert (A0 : at_ b 0 (u32le 2 ++ u8 x ++ u8 y ++ u8 z ++ u8 t ++ u16le port ++ u8 ty ++ u8 sub ++ n)) by apply at_start.
  unfold process_discovery_response.
  rewrite (getSome_u32 _ _ _ _ A0) by (unfold is_u32; lia). cbn [rbind].
  change (negb (2 =? DISCOVERY_CHKSUM)) with false. cbv iota.
  pose proof (at_step _ _ _ _ A0) as A1. rewrite zlen_u32le in A1.
  rewrite (getSome_u8 _ _ _ _ A1). cbn [rbind]. pose proof (at_step _ _ _ _ A1) as A2. rewrite zlen_u8 in A2.
  rewrite (getSome_u8 _ _ _ _ A2). cbn [rbind]. pose proof (at_step _ _ _ _ A2) as A3. rewrite zlen_u8 in A3.
  rewrite (getSome_u8 _ _ _ _ A3). cbn [rbind]. pose proof (at_step _ _ _ _ A3) as A4. rewrite zlen_u8 in A4.
  rewrite (getSome_u8 _ _ _ _ A4). cbn [rbind]. pose proof (at_step _ _ _ _ A4) as A5. rewrite zlen_u8 in A5.
  rewrite (getSome_u16 _ _ _ _ A5 Hp). cbn [rbind]. pose proof (at_step _ _ _ _ A5) as A6. rewrite zlen_u16le in A6.
  rewrite (getSome_u8 _ _ _ _ A6). cbn [rbind]. pose proof (at_step _ _ _ _ A6) as A7. rewrite zlen_u8 in A7.
  rewrite (getSome_u8 _ _ _ _ A7). cbn [rbind]. pose proof (at_step _ _ _ _ A7) as A8. rewrite zlen_u8 in A8.
  pose proof (at_len _ _ _ A8) as L.
  replace (zlen b - (0 + 4 + 1 + 1 + 1 + 1 + 2 + 1 + 1)) with (zlen n) by lia.
  rewrite <- (app_nil_r n) in A8. rewrite (getSomeBytes_at _ _ _ _ A8). cbn [rbind]. reflexivity.
Qed.

Lemma process_truncated r : zlen r < 8 -> process_discovery_response (u32le 2 ++ r) = Err EStruct.
Proof.
  intros L. unfold process_discovery_response.
  rewrite (getSome_u32 _ 0 2 r (at_start _)) by (unfold is_u32; lia). cbn [rbind].
  change (negb (2 =? DISCOVERY_CHKSUM)) with false. cbv iota.
  set (b := u32le 2 ++ r). assert (Lb : zlen b = 4 + zlen r) by (subst b; rewrite zlen_app, zlen_u32le; reflexivity).
  assert (S : forall f off, getSome f b off = Err EStruct \/ exists v, getSome f b off = Ok (v, off + fsize f)).
  { intros f off. unfold getSome, unpack_from. destruct ((0 <=? off) && (off + fsize f <=? zlen b)); cbn [rbind]; eauto. }
  destruct (S FB (0 + 4)) as [->|[v1 ->]]; cbn [rbind]; [reflexivity|].
  destruct (S FB (0 + 4 + fsize FB)) as [->|[v2 ->]]; cbn [rbind]; [reflexivity|].
  destruct (S FB (0 + 4 + fsize FB + fsize FB)) as [->|[v3 ->]]; cbn [rbind]; [reflexivity|].
  destruct (S FB (0 + 4 + fsize FB + fsize FB + fsize FB)) as [->|[v4 ->]]; cbn [rbind]; [reflexivity|].
  destruct (S FH (0 + 4 + fsize FB + fsize FB + fsize FB + fsize FB)) as [->|[v5 ->]]; cbn [rbind]; [reflexivity|].
  destruct (S FB (0 + 4 + fsize FB + fsize FB + fsize FB + fsize FB + fsize FH)) as [->|[v6 ->]]; cbn [rbind]; [reflexivity|].
  rewrite getSome_short; [reflexivity|]. cbn [fsize]. lia.
Qed.

Lemma split_n {A} n (b : list A) : Z.of_nat n <= zlen b -> exists x r, b = x ++ r /\ zlen x = Z.of_nat n.
Proof.
  intros H. exists (firstn n b), (skipn n b). split; [symmetry; apply firstn_skipn|].
  unfold zlen in *. rewrite firstn_length_le; lia.
Qed.

(** the four kinds of datagrams *)
Lemma datagram_kinds b : wf_bytes b ->
  zlen b < 4
  \/ (exists w r, b = u32le w ++ r /\ is_u32 w /\ w <> 2)
  \/ (exists r, b = u32le 2 ++ r /\ zlen r < 8)
  \/ (exists x y z t port ty sub n, b = u32le 2 ++ [x; y; z; t] ++ u16le port ++ [ty; sub] ++ n
      /\ is_byte x /\ is_byte y /\ is_byte z /\ is_byte t /\ is_u16 port /\ is_byte ty /\ is_byte sub /\ wf_bytes n).
Proof.
  intros W. destruct (Z_lt_ge_dec (zlen b) 4) as [|L]; [auto|]. right.
  destruct (split_n 4 b) as (h & r & -> & Lh); [lia|]. change (Z.of_nat 4) with 4 in Lh.
  apply wf_app in W as [Wh Wr]. rewrite <- (u32le_dec h Wh Lh).
  pose proof (le_dec_range h Wh) as R. rewrite Lh in R. change (256 ^ 4) with 4294967296 in R.
  destruct (Z.eq_dec (le_dec h) 2) as [E|N].
  2:{ left. exists (le_dec h), r. unfold is_u32. auto. }
  right. rewrite E. destruct (Z_lt_ge_dec (zlen r) 8) as [|L8]; [left; eauto|]. right.
  destruct r as [|x r]; [rewrite zlen_nil in L8; lia|].
  destruct r as [|y r]; [rewrite !zlen_cons, zlen_nil in L8; lia|].
  destruct r as [|z r]; [rewrite !zlen_cons, zlen_nil in L8; lia|].
  destruct r as [|t r]; [rewrite !zlen_cons, zlen_nil in L8; lia|].
  destruct r as [|p0 r]; [rewrite !zlen_cons, zlen_nil in L8; lia|].
  destruct r as [|p1 r]; [rewrite !zlen_cons, zlen_nil in L8; lia|].
  destruct r as [|ty r]; [rewrite !zlen_cons, zlen_nil in L8; lia|].
  destruct r as [|sub n]; [rewrite !zlen_cons, zlen_nil in L8; lia|].
  unfold wf_bytes in Wr. rewrite !Forall_cons_iff in Wr.
  destruct Wr as (Wx & Wy & Wz & Wt & W0 & W1 & Wty & Wsub & Wn).
  exists x, y, z, t, (le_dec [p0; p1]), ty, sub, n.
  assert (Wp : wf_bytes [p0; p1]) by (unfold wf_bytes; rewrite !Forall_cons_iff; auto).
  rewrite (u16le_dec [p0; p1] Wp eq_refl). split; [reflexivity|].
  pose proof (le_dec_range _ Wp) as Rp. change (zlen [p0; p1]) with 2 in Rp. change (256 ^ 2) with 65536 in Rp.
  unfold is_u16. tauto.
Qed.

Lemma entry_describes x y z t port ty sub s : is_byte x -> is_byte y -> is_byte z -> is_byte t ->
  describes (entry_of x y z t port ty sub s)
    {| an_ip := (x, y, z, t); an_port := port; an_type := ty; an_subtype := sub; an_name := s |}.
Proof.
  intros. unfold describes. cbn [an_ip an_port an_type an_subtype an_name].
  exists (str_of_Z x ++ u "." ++ str_of_Z y ++ u "." ++ str_of_Z z ++ u "." ++ str_of_Z t), (strip is_nul s).
  split; [|split; [apply strip_stripped|reflexivity]].
  exists (str_of_Z x), (str_of_Z y), (str_of_Z z), (str_of_Z t).
  repeat (split; [apply dec_bytes; assumption|]). reflexivity.
Qed.

Lemma utf8_encode_scalar s n : utf8_encode s = Ok n -> Forall scalar s -> utf8_decode n = Ok s.
Proof.
  intros E F. destruct (utf8_rt s F) as (b & Eb & _ & D). rewrite E in Eb. injection Eb as <-.
  specialize (D []). rewrite app_nil_r in D. rewrite D. cbn. rewrite app_nil_r. reflexivity.
Qed.

Lemma process_valid a b : announces a -> datagram a b -> exists h, process_discovery_response b = Ok h /\ describes h a.
Proof.
  destruct a as [[[[x y] z] t] port ty sub s]. unfold announces, datagram.
  cbn [an_ip an_port an_type an_subtype an_name].
  intros (Hx & Hy & Hz & Ht & Hp & Hty & Hs & F) (n & E & ->).
  rewrite process_full by assumption. rewrite (utf8_encode_scalar s n E F). cbn [rbind].
  eexists; split; [reflexivity|]. apply entry_describes; assumption.
Qed.

Lemma process_only_valid b h : wf_bytes b -> process_discovery_response b = Ok h ->
  exists a, announces a /\ datagram a b /\ describes h a.
Proof.
  intros W H. destruct (datagram_kinds b W) as [L|[(w & r & -> & R & N)|[(r & -> & L)|
    (x & y & z & t & port & ty & sub & n & -> & Hx & Hy & Hz & Ht & Hp & Hty & Hs & Wn)]]].
  - rewrite process_short in H by assumption. discriminate.
  - rewrite process_check in H by assumption. discriminate.
  - rewrite process_truncated in H by assumption. discriminate.
  - rewrite process_full in H by assumption. destruct (utf8_decode n) as [s|] eqn:E; [|discriminate].
    cbn [rbind] in H. injection H as <-. destruct (utf8_decode_inv _ n s (le_n _) Wn E) as [F En].
    exists {| an_ip := (x, y, z, t); an_port := port; an_type := ty; an_subtype := sub; an_name := s |}.
    unfold announces, datagram; cbn [an_ip an_port an_type an_subtype an_name].
    split; [tauto|]. split; [eauto|]. apply entry_describes; assumption.
Qed.

(** utf8 decoding raises only UnicodeDecodeError *)
Lemma utf8_decode_exn : forall n b e, (List.length b <= n)%nat -> utf8_decode b = Err e -> e = EUnicodeDecode.
Proof.
  induction n as [|n IH]; intros b e L H.
  { destruct b; [discriminate|cbn in L; lia]. }
  assert (K : forall (c : Z) r, (List.length r <= n)%nat -> rcons c (utf8_decode r) = Err e -> e = EUnicodeDecode).
  { intros c r Lr. destruct (utf8_decode r) eqn:E; cbn; [discriminate|]. intros H0; injection H0 as ->. eauto. }
  destruct b as [|b0 r0]; [discriminate|]. cbn [utf8_decode] in H. cbn [List.length] in L.
  destruct (b0 <? 128); [apply (K b0 r0); [lia|assumption]|].
  destruct (b0 <? 194); [congruence|].
  destruct r0 as [|b1 r1]; [congruence|]. cbn [List.length] in L.
  destruct (negb (is_cont b1)); [congruence|].
  destruct (b0 <? 224); [eapply K; [|exact H]; lia|].
  destruct r1 as [|b2 r2]; [congruence|]. cbn [List.length] in L.
  destruct (negb (is_cont b2)); [congruence|].
  destruct (b0 <? 240).
  { cbv zeta in H. destruct (_ || _); [congruence|]. eapply K; [|exact H]; lia. }
  destruct r2 as [|b3 r3]; [congruence|]. cbn [List.length] in L.
  destruct (negb (is_cont b3)); [congruence|].
  cbv zeta in H. destruct (_ || _); [congruence|]. eapply K; [|exact H]; lia.
Qed.

Lemma process_exn b e : wf_bytes b -> process_discovery_response b = Err e ->
  e = EStruct \/ e = ESLError \/ e = EUnicodeDecode.
Proof.
  intros W H. destruct (datagram_kinds b W) as [L|[(w & r & -> & R & N)|[(r & -> & L)|
    (x & y & z & t & port & ty & sub & n & -> & Hx & Hy & Hz & Ht & Hp & Hty & Hs & Wn)]]].
  - rewrite process_short in H by assumption. left; congruence.
  - rewrite process_check in H by assumption. right; left; congruence.
  - rewrite process_truncated in H by assumption. left; congruence.
  - rewrite process_full in H by assumption. destruct (utf8_decode n) as [s|e'] eqn:E; [discriminate|].
    cbn [rbind] in H. injection H as <-. right; right. exact (utf8_decode_exn _ n e' (le_n _) E).
Qed.

Lemma fold_found bs : Forall wf_bytes bs -> forall hs0, exists hs,
  fold_left datagram_received bs hs0 = hs0 ++ hs /\ found bs hs.
Proof.
  induction 1 as [|b bs W _ IH]; intros hs0.
  - exists []. cbn. rewrite app_nil_r. split; [reflexivity|constructor].
  - cbn [fold_left]. unfold datagram_received at 2.
    destruct (process_discovery_response b) as [h|e] eqn:E.
    + destruct (process_only_valid b h W E) as (a & A & D & X).
      destruct (IH (hs0 ++ [h])) as (hs & -> & F). exists (h :: hs). split; [rewrite <- app_assoc; reflexivity|].
      econstructor; eassumption.
    + destruct (IH hs0) as (hs & -> & F). exists hs. split; [reflexivity|]. constructor; [|assumption].
      intros (a & A & D). destruct (process_valid a b A D) as (h & H & _). congruence.
Qed.
