From Verif Require Import Py F64 Struct Utf Utility Const Spec Enum Decode World Request Gateway Traces Paths Api P_Base P_Util P_Dict P_Monad P_Request P_Sat P_Paths P_Frame P_Gw1 P_Gw6 P_Gw7 P_Calm P_Gw8 P_Gw9 P_Gw10 P_Gw11 P_Gw13.
Open Scope m_scope.

(** ------------------------------------------------------------------ *)
(** * C64: pumps *)
Lemma land_pow2 k f : 0 <= k -> Z.land (2 ^ k) f = if Z.testbit f k then 2 ^ k else 0.
Proof.
  intros K. apply Z.bits_inj'. intros m M. rewrite Z.land_spec, Z.pow2_bits_eqb by exact K.
  destruct (Z.eqb_spec k m) as [->|N].
  - cbn [andb]. destruct (Z.testbit f m); [rewrite Z.pow2_bits_true by exact K; reflexivity|rewrite Z.bits_0; reflexivity].
  - cbn [andb]. destruct (Z.testbit f k); [rewrite Z.pow2_bits_false by congruence; reflexivity|rewrite Z.bits_0; reflexivity].
Qed.
Lemma flag_bit i f : 0 <= i -> (Z.land (Z.shiftl EQUIPMENT_FLAG_INTELLIFLO_0 i) f =? 0) = negb (pump_bit f i).
Proof.
  intros I. replace (Z.shiftl EQUIPMENT_FLAG_INTELLIFLO_0 i) with (2 ^ (4 + i)).
  - rewrite land_pow2 by lia. unfold pump_bit. destruct (Z.testbit f (4 + i)); cbn [negb]; [|reflexivity].
    apply Z.eqb_neq. assert (0 < 2 ^ (4 + i)) by (apply Z.pow_pos_nonneg; lia). lia.
  - rewrite Z.shiftl_mul_pow2 by exact I. rewrite Z.pow_add_r by lia. reflexivity.
Qed.
Lemma pump_not_connecting : ~ connecting 12584.
Proof. intros C. repeat (destruct C as [C|C]; [discriminate|]). discriminate C || destruct C. Qed.
Lemma pump_packed i : 0 <= i < 8 -> pack_Is [VInt 0; VInt i] = Ok (pump_message i).
Proof. intros I. assert (H : i = 0 \/ i = 1 \/ i = 2 \/ i = 3 \/ i = 4 \/ i = 5 \/ i = 6 \/ i = 7) by lia. repeat (destruct H as [->|H]; [vm_compute; reflexivity|]). subst. vm_compute. reflexivity. Qed.
Lemma pump_reading i mr c w : 0 <= i < 8 -> request_pump_status i mr c w = reading 12584 (pump_message i) (fun _ b => decode_pump_status b i) mr c w.
Proof. intros I. unfold request_pump_status. rewrite (pump_packed i I). cbn [mlift]. rewrite bind_ret. reflexivity. Qed.
Lemma command_pump n i w : 0 <= i < 8 -> command n (request_pump_status i) 1 w = command n (reading 12584 (pump_message i) (fun _ b => decode_pump_status b i)) 1 w.
Proof. intros I. apply command_ext. intros mr c w0. apply pump_reading. exact I. Qed.

(** one turn *)
Lemma turn_inv n i ids w t w' o : 0 <= i -> pumps_loop n (i :: ids) w = (t, w', o) ->
  (exists e, equipment_flags (w_data w) = Err e /\ t = [] /\ w' = w /\ o = Exc e) \/
  exists f, equipment_flags (w_data w) = Ok f /\
   ((pump_bit f i = false /\ pumps_loop n ids w = (t, w', o)) \/
    (pump_bit f i = true /\ exists t1 w1 o1, command n (request_pump_status i) 1 (pumps_entry w) = (t1, w1, o1) /\
      match o1 with
      | Val r => exists t2, t = t1 ++ t2 /\ pumps_loop n ids (match r with Some b => store_pump i b w1 | None => w1 end) = (t2, w', o)
      | Exc e => t = t1 /\ w' = w1 /\ o = Exc e
      | Stuck y => t = t1 /\ w' = w1 /\ o = Stuck y
      end)).
Proof.
  intros I E. cbn [pumps_loop] in E. rewrite bind_get in E. destruct (equipment_flags (w_data w)) as [f|e]; cbn [mlift] in E.
  2:{ rewrite bind_raise in E. injection E as <- <- <-. left. eauto. }
  rewrite bind_ret in E. rewrite flag_bit in E by exact I. right. exists f. split; [reflexivity|].
  destruct (pump_bit f i); cbn [negb] in E.
  - right. split; [reflexivity|]. rewrite bind_assoc, bind_put in E. apply bind_inv in E.
    destruct E as [(t1 & w1 & u & t2 & E1 & E2 & ->)|[(e & E1 & ->)|(y & E1 & ->)]]; apply bind_inv in E1.
    + destruct E1 as [(t3 & w3 & r & t4 & E3 & E4 & ->)|[(e & E3 & X)|(y & E3 & X)]]; try discriminate.
      exists t3, w3, (Val r). split; [exact E3|]. exists t2. destruct r as [b|]; injection E4 as <- <- _; rewrite app_nil_r; auto.
    + destruct E1 as [(t3 & w3 & r & t4 & E3 & E4 & ->)|[(e' & E3 & X)|(y & E3 & X)]]; try discriminate; [destruct r; discriminate|].
      injection X as <-. exists t, w', (Exc e). auto.
    + destruct E1 as [(t3 & w3 & r & t4 & E3 & E4 & ->)|[(e' & E3 & X)|(y' & E3 & X)]]; try discriminate; [destruct r; discriminate|].
      injection X as <-. exists t, w', (Stuck y). auto.
  - left. split; [reflexivity|]. rewrite bind_ret in E. exact E.
Qed.
Lemma pump_asks n i w t w' o : 0 <= i < 8 -> command n (request_pump_status i) 1 w = (t, w', o) -> asks_pump i t.
Proof.
  intros I E c p S.
  assert (H : Sat (allowed (only_this 12584 (Ok (pump_message i)))) (command n (request_pump_status i) 1)).
  { eapply sat_command_api; [apply allowed_closed|left; assumption|]. intros mr c0.
    eapply sat_pump; [apply allowed_closed|]. intros b P. right. rewrite (pump_packed i I) in P. auto. }
  destruct (H _ _ _ _ E c 12584 p S) as [K|[_ K]]; [destruct (pump_not_connecting K)|]. injection K as ->. reflexivity.
Qed.
Lemma loop_turns n ids : Forall (fun i => 0 <= i < 8) ids -> forall w t w' o, pumps_loop n ids w = (t, w', o) -> turns ids w t w' o.
Proof.
  induction 1 as [|i ids I _ IH]; intros w t w' o E.
  - injection E as <- <- <-. constructor.
  - apply turn_inv in E; [|lia]. destruct E as [(e & F & -> & -> & ->)|(f & F & [(B & E)|(B & t1 & w1 & o1 & E1 & D)])].
    + apply T_noflags. exact F.
    + eapply T_skip; eauto.
    + pose proof (pump_asks _ _ _ _ _ _ I E1) as A. destruct o1 as [r|e|y].
      * destruct D as (t2 & -> & E2). eapply T_ask; eauto.
      * destruct D as (-> & -> & ->). eapply T_fail; eauto. discriminate.
      * destruct D as (-> & -> & ->). eapply T_fail; eauto. discriminate.
Qed.
Lemma pumps_turns n w t w' o : async_get_pumps n w = (t, w', o) -> turns [0; 1; 2; 3; 4; 5; 6; 7] w t w' o.
Proof. apply loop_turns. repeat constructor; lia. Qed.

(** consequences of the turns for what is sent *)
Lemma asks_repeat i t : asks_pump i t -> map snd (sends_of 12584 t) = repeat (pump_message i) (List.length (sends_of 12584 t)).
Proof.
  intros A. assert (F : Forall (fun x => snd x = pump_message i) (sends_of 12584 t)).
  { apply Forall_forall. intros [c p] I. apply sends_of_in in I. exact (A _ _ I). }
  induction F as [|x l E _ IH]; [reflexivity|]. cbn [map List.length repeat]. rewrite E, IH. reflexivity.
Qed.
Lemma turns_order ids w t w' o : turns ids w t w' o ->
  exists ks, List.length ks = List.length ids /\ map snd (sends_of 12584 t) = List.concat (map (fun x => repeat (pump_message (fst x)) (snd x)) (combine ids ks)).
Proof.
  induction 1.
  - exists []. split; reflexivity.
  - exists (repeat 0%nat (List.length (i :: ids))). rewrite repeat_length. split; [reflexivity|]. cbn [sends_of map List.length repeat combine List.concat fst snd app].
    clear. induction ids as [|j ids IH]; [reflexivity|]. cbn [List.length repeat combine map List.concat fst snd app]. exact IH.
  - destruct IHturns as (ks & L & ->). exists (0%nat :: ks). cbn. auto.
  - destruct IHturns as (ks & L & E). exists (List.length (sends_of 12584 t1) :: ks). split; [cbn; auto|].
    rewrite sends_of_app, map_app, E. cbn [combine map List.concat fst snd]. rewrite (asks_repeat i) by assumption. reflexivity.
  - exists (List.length (sends_of 12584 t) :: repeat 0%nat (List.length ids)). split; [cbn; rewrite repeat_length; reflexivity|].
    cbn [combine map List.concat fst snd]. rewrite (asks_repeat i) at 1 by assumption.
    replace (List.concat _) with (@nil bytes); [rewrite app_nil_r; reflexivity|]. clear.
    induction ids as [|j ids IH]; [reflexivity|]. cbn [List.length repeat combine map List.concat fst snd app]. exact IH.
Qed.

(** ------------------------------------------------------------------ *)
(** * an undisturbed run *)
Record still (f : Z) (c : nat) (w : world) : Prop := {
  s_proto : w_proto w = Some c;
  s_conn : connected c w = true -> c_closing (get_conn c w) = false /\ c_open (get_conn c w) = true;
  s_in : (c < List.length (w_conns w))%nat;
  s_env : no_pushes w;
  s_retries : 0 <= w_retries w;
  s_flags : equipment_flags (w_data w) = Ok f }.
Definition sound (c : nat) (w : world) : Prop := connected c w = true -> c_closing (get_conn c w) = false /\ c_open (get_conn c w) = true.
Lemma sound_upd c c0 w : sound c w -> sound c (upd_conn c0 (fun k => mkConn false (c_closing k) false (c_handlers k) (c_keepalive k)) w).
Proof. unfold sound, connected. intros S. rewrite get_upd. destruct (_ && _); [discriminate|exact S]. Qed.
Lemma sound_lose c c0 w l w1 : lose c0 w = (l, w1) -> sound c w -> sound c w1.
Proof. unfold lose. destruct (connected c0 w); intros E S; injection E as _ <-; [apply sound_upd; exact S|exact S]. Qed.
Lemma sound_lose_all c cs : forall w l w1, lose_all cs w = (l, w1) -> sound c w -> sound c w1.
Proof.
  induction cs as [|c0 cs IH]; intros w l w1 E S; [injection E as _ <-; exact S|]. cbn [lose_all] in E.
  destruct (lose c0 w) as [l1 w2] eqn:L. destruct (lose_all cs w2) as [l2 w3] eqn:L2. injection E as _ <-. eauto using sound_lose.
Qed.
Lemma still_interfere f c r rest w l w1 : still f c w -> w_env w = r :: rest -> interfere r (set_env rest w) = (l, w1) -> still f c w1.
Proof.
  intros [P S L N R F] E I. unfold no_pushes in N. rewrite E in N. inversion N as [|? ? D N']; subst.
  pose proof (interfere_fields _ _ _ _ I) as (_ & _ & I1 & _ & I2 & _ & I3 & _ & I4 & I5). rewrite D in I5.
  cbn [set_env w_proto w_retries w_env w_conns w_data] in *. constructor; unfold no_pushes; try congruence.
  - unfold interfere in I. rewrite D in I. apply (sound_lose_all c) in I; [exact I|]. exact S.
Qed.
Lemma run_still f c0 X p mr c n a w t w' o : lrun c X p mr n a w t w' o -> still f c0 w -> still f c0 w'.
Proof. induction 1; intros S; try exact S; eauto using still_interfere. Qed.
Lemma run_first X p mr c n a w t w' v f : lrun c X p mr n a w t w' (Val v) -> (0 < n)%nat -> still f c w -> connected c w = true -> In (Send c X p) t.
Proof.
  intros E N S C. destruct (s_conn _ _ _ S C) as (S1 & S2). inversion E; subst; try lia; try congruence; unfold sent; rewrite S2; left; reflexivity.
Qed.
Lemma flags_kept (m : DM unit) d : keeps [DEVICE_PUMP] m -> equipment_flags (fst (m d)) = equipment_flags d.
Proof.
  intros K. specialize (K d DEVICE_CONTROLLER eq_refl). unfold equipment_flags, get_data. cbn [walk].
  assert (G : get_next (VDict (fst (m d))) DEVICE_CONTROLLER = get_next (VDict d) DEVICE_CONTROLLER) by (unfold get_next; rewrite K; reflexivity).
  rewrite G. reflexivity.
Qed.
Lemma noopen_app a b : opens (a ++ b) = [] -> opens a = [] /\ opens b = [].
Proof. rewrite opens_app. apply app_eq_nil. Qed.
Lemma pump_command_still n i f c w t w' r : 0 <= i < 8 -> still f c w -> command n (request_pump_status i) 1 w = (t, w', Val r) -> opens t = [] ->
  still f c w' /\ In (Send c 12584 (pump_message i)) t.
Proof.
  intros I S E O. rewrite (command_pump _ _ _ I) in E. apply command_val in E.
  destruct E as [E|(t1 & w1 & e & td & wd & ts & ws & t2 & E1 & Ce & Ed & Es & E & ->)].
  - apply attempt_val in E. destruct E as (ta & tb & wa & c1 & -> & E1 & P & E2).
    apply noopen_app in O. destruct O as (O1 & O2). apply connect_noopen in E1; [|exact O1]. destruct E1 as (-> & _ & C & ->).
    rewrite (s_proto _ _ _ S) in P. injection P as <-. unfold is_connected in C. rewrite (s_proto _ _ _ S) in C.
    apply reading_inv in E2. destruct E2 as (w1 & o1 & E2 & D). destruct o1 as [v|e|y]; [|destruct D; discriminate..].
    apply request_run in E2. pose proof (run_still f c _ _ _ _ _ _ _ _ _ _ E2 S) as S1. split.
    + destruct (nonempty v) as [b|]; destruct D as (-> & _); [|exact S1]. destruct S1 as [X1 X2 X3 X4 X5 X6]. constructor; try assumption.
      cbn [set_data w_data]. rewrite flags_kept; [exact X6|apply ke_pump].
    + cbn [app]. eapply run_first; [exact E2| |exact S|exact C]. pose proof (s_retries _ _ _ S). lia.
  - exfalso. apply attempt_val in E. destruct E as (ta & tb & wa & c1 & -> & E3 & P & E4).
    apply noopen_app in O. destruct O as (O1 & O). apply noopen_app in O. destruct O as (_ & O). apply noopen_app in O. destruct O as (_ & O).
    apply noopen_app in O. destruct O as (O & _). apply connect_noopen in E3; [|exact O]. destruct E3 as (_ & _ & C & ->).
    pose proof (pump_once i) as Q. apply disconnect_inv in Ed. destruct Ed as (c2 & P1 & Dn & K).
    assert (K1 : connected c2 ws = false /\ kept wd ws).
    { unfold msleep in Es. apply bind_inv in Es.
      destruct Es as [(ta0 & wa0 & x & tb0 & A1 & A2 & _)|[(e0 & A1 & X)|(y0 & A1 & X)]]; try discriminate.
      unfold ask, nopre in A1. destruct (w_env wd) as [|r0 rest]; [discriminate|]. destruct (interfere r0 (set_env rest wd)) as [l0 w0] eqn:I0.
      injection A1 as <- <- <-. destruct (r_kind r0); try discriminate. injection A2 as <- <-.
      split; [eapply interfere_down; [exact I0|exact Dn]|eapply kept_interfere; exact I0]. }
    destruct K1 as (H1 & K1). destruct K as (_ & _ & K & _). destruct K1 as (_ & _ & K1 & _).
    unfold is_connected in C. rewrite K1, K, P1 in C. congruence.
Qed.
Lemma entry_still f c w : still f c w -> still f c (pumps_entry w).
Proof. intros [A1 A2 A3 A4 A5 A6]. unfold pumps_entry. destruct (din _ _); constructor; assumption. Qed.
Lemma store_still f c i b w : still f c w -> still f c (store_pump i b w).
Proof. intros [A1 A2 A3 A4 A5 A6]. unfold store_pump. destruct (dget K_PUMPS (w_last w)) as [[]|]; constructor; assumption. Qed.
Lemma loop_exact n f c ids : Forall (fun i => 0 <= i < 8) ids -> NoDup ids -> forall w t w', still f c w -> pumps_loop n ids w = (t, w', Val tt) -> opens t = [] ->
  still f c w' /\ forall i, In i ids -> pump_bit f i = true -> In (Send c 12584 (pump_message i)) t.
Proof.
  intros F D. revert F. induction D as [|i ids N D IH]; intros F w t w' S E O.
  - injection E as <- <-. split; [exact S|intros i []].
  - inversion F as [|? ? I F']; subst. apply turn_inv in E; [|lia].
    destruct E as [(e & Fl & -> & -> & X)|(f' & Fl & [(B & E)|(B & t1 & w1 & o1 & E1 & G)])]; [discriminate|..];
      rewrite (s_flags _ _ _ S) in Fl; injection Fl as <-.
    + destruct (IH F' _ _ _ S E O) as (S' & H). split; [exact S'|]. intros j [<-|J] Bj; [congruence|auto].
    + destruct o1 as [r|e|y]; [|destruct G as (_ & _ & X); discriminate..]. destruct G as (t2 & -> & E2).
      apply noopen_app in O. destruct O as (O1 & O2). apply (pump_command_still _ _ f c) in E1; [|exact I|apply entry_still; exact S|exact O1].
      destruct E1 as (S1 & H1). assert (S2 : still f c (match r with Some b => store_pump i b w1 | None => w1 end)) by (destruct r; [apply store_still|]; exact S1).
      destruct (IH F' _ _ _ S2 E2 O2) as (S' & H). split; [exact S'|]. intros j [<-|J] Bj; apply in_or_app; auto.
Qed.
(** the other direction *)
Lemma pump_message_inj i j : 0 <= i < 8 -> 0 <= j < 8 -> pump_message i = pump_message j -> i = j.
Proof.
  intros I J E. assert (forall k, 0 <= k < 8 -> nth 4 (pump_message k) 0 = k).
  { clear. intros i I. assert (H : i = 0 \/ i = 1 \/ i = 2 \/ i = 3 \/ i = 4 \/ i = 5 \/ i = 6 \/ i = 7) by lia. repeat (destruct H as [->|H]; [vm_compute; reflexivity|]). subst. vm_compute. reflexivity. }
  rewrite <- (H i I), <- (H j J), E. reflexivity.
Qed.
Lemma turns_sound ids w t w' o : turns ids w t w' o -> Forall (fun i => 0 <= i < 8) ids -> forall c i, 0 <= i < 8 -> In (Send c 12584 (pump_message i)) t -> In i ids.
Proof.
  induction 1; intros F c j J S; try contradiction; inversion F as [|? ? I F']; subst.
  - right. eauto.
  - apply in_app_or in S. destruct S as [S|S]; [left|right; eauto]. apply H1 in S. symmetry. apply pump_message_inj; auto.
  - left. apply H1 in S. symmetry. apply pump_message_inj; auto.
Qed.
Lemma loop_only n f c ids : Forall (fun i => 0 <= i < 8) ids -> NoDup ids -> forall w t w', still f c w -> pumps_loop n ids w = (t, w', Val tt) -> opens t = [] ->
  forall k i, 0 <= i < 8 -> In (Send k 12584 (pump_message i)) t -> pump_bit f i = true.
Proof.
  intros F D. revert F. induction D as [|i ids N D IH]; intros F w t w' S E O k j J Sd.
  - injection E as <- <-. destruct Sd.
  - inversion F as [|? ? I F']; subst. apply turn_inv in E; [|lia].
    destruct E as [(e & Fl & -> & -> & X)|(f' & Fl & [(B & E)|(B & t1 & w1 & o1 & E1 & G)])]; [discriminate|..];
      rewrite (s_flags _ _ _ S) in Fl; injection Fl as <-.
    + eapply IH; eauto.
    + destruct o1 as [r|e|y]; [|destruct G as (_ & _ & X); discriminate..]. destruct G as (t2 & -> & E2).
      apply noopen_app in O. destruct O as (O1 & O2). pose proof (pump_asks _ _ _ _ _ _ I E1) as A.
      apply (pump_command_still _ _ f c) in E1; [|exact I|apply entry_still; exact S|exact O1].
      destruct E1 as (S1 & H1). assert (S2 : still f c (match r with Some b => store_pump i b w1 | None => w1 end)) by (destruct r; [apply store_still|]; exact S1).
      apply in_app_or in Sd. destruct Sd as [Sd|Sd]; [|eapply IH; eauto]. apply A in Sd. apply pump_message_inj in Sd; auto. subst. exact B.
Qed.
Lemma pumps_exact n f c w t w' : async_get_pumps n w = (t, w', Val tt) -> ready c w -> no_pushes w -> 0 <= w_retries w -> equipment_flags (w_data w) = Ok f -> opens t = [] ->
  forall i, 0 <= i < 8 -> ((exists k, In (Send k 12584 (pump_message i)) t) <-> pump_bit f i = true).
Proof.
  intros E (R1 & R2 & R3 & R4) N R F O i I.
  assert (S : still f c w).
  { constructor; auto. apply connected_in. exact R2. }
  assert (Fa : Forall (fun i => 0 <= i < 8) [0;1;2;3;4;5;6;7]) by (repeat constructor; lia).
  assert (D : NoDup [0;1;2;3;4;5;6;7]) by (repeat constructor; cbn; lia).
  split.
  - intros (k & Sd). exact (loop_only n f c _ Fa D w t w' S E O k i I Sd).
  - intros B. exists c. refine (proj2 (loop_exact n f c _ Fa D w t w' S E O) i _ B). assert (H : i = 0 \/ i = 1 \/ i = 2 \/ i = 3 \/ i = 4 \/ i = 5 \/ i = 6 \/ i = 7) by (clear -I; lia). cbn. intuition.
Qed.
