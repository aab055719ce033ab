(** Runs of the command line (Cli.v) as steps (SpecCli.v). *)
From Verif Require Import Py F64 Struct Utf Utility Const Enum Decode Data Discovery World Request Gateway Traces Api SpecParse Paths Cli SpecCli
  P_Base P_Paths P_Gw1 P_Calm P_Enum P_Parse Prop_Enum.

Inductive raw : ending -> Z -> out Z -> Prop :=
| W_done code : raw Finished code (Val code)
| W_stop code e : foreign e = true -> raw Stopped code (Exc e)
| W_fail code e : raw (Failed e) code (Exc e)
| W_hang code y : raw (Hung y) code (Stuck y).
Definition bye : step := Do (Disconnect false).
Definition follows (n : nat) (w : world) (l : list step) (code : Z) (k : prog) : Prop :=
  forall ls t w' o, run n k w = (ls, (t, w', o)) -> exists en, progress n (l ++ [bye]) w t w' en /\ raw en code o.

Lemma run_step n (m : M unit) k w ls t w' o :
  (let '(t1, w1, o1) := m w in
   match o1 with
   | Val _ => let '(ls, (t2, w2, o2)) := run n k w1 in (ls, (t1 ++ t2, w2, o2))
   | Exc e => ([], (t1, w1, Exc e))
   | Stuck y => ([], (t1, w1, Stuck y))
   end) = (ls, (t, w', o)) ->
  (exists t1 w1 t2, m w = (t1, w1, Val tt) /\ run n k w1 = (ls, (t2, w', o)) /\ t = t1 ++ t2) \/
  (exists e, m w = (t, w', Exc e) /\ o = Exc e /\ ls = []) \/ (exists y, m w = (t, w', Stuck y) /\ o = Stuck y /\ ls = []).
Proof.
  destruct (m w) as [[t1 w1] [[]|e|y]].
  - destruct (run n k w1) as [ls2 [[t2 w2] o2]] eqn:R. intros E. injection E as <- <- <- <-. left. exists t1, w1, t2. auto.
  - intros E. injection E as <- <- <- <-. right; left. eauto.
  - intros E. injection E as <- <- <- <-. right; right. eauto.
Qed.
Lemma run_call n c k w ls t w' o : run n (Call c k) w = (ls, (t, w', o)) ->
  (exists t1 w1 t2, perform n c w = (t1, w1, Val tt) /\ run n k w1 = (ls, (t2, w', o)) /\ t = t1 ++ t2) \/
  (exists e, perform n c w = (t, w', Exc e) /\ o = Exc e /\ ls = []) \/ (exists y, perform n c w = (t, w', Stuck y) /\ o = Stuck y /\ ls = []).
Proof. apply run_step. Qed.
Lemma run_pause n ms k w ls t w' o : run n (Pause ms k) w = (ls, (t, w', o)) ->
  (exists t1 w1 t2, msleep ms w = (t1, w1, Val tt) /\ run n k w1 = (ls, (t2, w', o)) /\ t = t1 ++ t2) \/
  (exists e, msleep ms w = (t, w', Exc e) /\ o = Exc e /\ ls = []) \/ (exists y, msleep ms w = (t, w', Stuck y) /\ o = Stuck y /\ ls = []).
Proof. apply run_step. Qed.
Lemma run_print n l k w ls t w' o : run n (Print l k) w = (ls, (t, w', o)) -> exists ls', run n k w = (ls', (t, w', o)) /\ ls = l :: ls'.
Proof. cbn [run]. destruct (run n k w) as [ls2 [[t2 w2] o2]]. intros E. injection E as <- <- <- <-. eauto. Qed.
Lemma run_read {A} n (f : dict -> res A) k w : run n (read f k) w = match f (w_data w) with Ok a => run n (k a) w | Err e => ([], ([], w, Exc e)) end.
Proof. unfold read. cbn [run]. destruct (f (w_data w)); reflexivity. Qed.
Lemma run_lift {A} n (r : res A) k w : run n (lift r k) w = match r with Ok a => run n (k a) w | Err e => ([], ([], w, Exc e)) end.
Proof. destruct r; reflexivity. Qed.

(** ------------------------------------------------------------------ *)
Lemma fol_do n w s l code k : (forall w1, follows n w1 l code k) ->
  follows n w (s :: l) code (match s with Do c => Call c k | Wait ms => Pause ms k end).
Proof.
  intros F ls t w' o E. assert (X := run_step n (does n s) k w ls t w' o).
  destruct s as [c|ms]; cbn [does] in X; apply X in E; clear X.
  all: destruct E as [(t1 & w1 & t2 & E1 & E2 & ->)|[(e & E1 & -> & _)|(y & E1 & -> & _)]].
  1, 4: destruct (F w1 _ _ _ _ E2) as (en & P & R); exists en; split; [eapply P_next; [exact E1|exact P]|exact R].
  all: eexists; split; [first [eapply P_fail; exact E1|eapply P_hang; exact E1]|constructor].
Qed.
Lemma fol_call n w c l code k : (forall w1, follows n w1 l code k) -> follows n w (Do c :: l) code (Call c k).
Proof. exact (fol_do n w (Do c) l code k). Qed.
Lemma fol_pause n w ms l code k : (forall w1, follows n w1 l code k) -> follows n w (Wait ms :: l) code (Pause ms k).
Proof. exact (fol_do n w (Wait ms) l code k). Qed.
Lemma fol_fin n w code : follows n w [] code (fin code).
Proof.
  intros ls t w' o E. apply run_call in E. cbn [app].
  destruct E as [(t1 & w1 & t2 & E1 & E2 & ->)|[(e & E1 & -> & _)|(y & E1 & -> & _)]].
  - cbn [run] in E2. injection E2 as <- <- <- <-. exists Finished. split; [|constructor]. eapply P_next; [exact E1|constructor].
  - eexists. split; [eapply P_fail; exact E1|constructor].
  - eexists. split; [eapply P_hang; exact E1|constructor].
Qed.
Lemma fol_print n w l code x k : follows n w l code k -> follows n w l code (Print x k).
Proof. intros F ls t w' o E. apply run_print in E. destruct E as (ls' & E & _). exact (F _ _ _ _ E). Qed.
Lemma fol_lift {A} n w code (r : res A) k : rcalm r -> (forall a, r = Ok a -> follows n w [] code (k a)) -> follows n w [] code (lift r k).
Proof.
  intros C F ls t w' o E. rewrite run_lift in E. destruct r as [a|e].
  - exact (F a eq_refl _ _ _ _ E).
  - injection E as <- <- <- <-. exists Stopped. split; [constructor|constructor; exact C].
Qed.
Lemma fol_read {A} n w code (f : dict -> res A) k : (forall d, rcalm (f d)) -> (forall a, f (w_data w) = Ok a -> follows n w [] code (k a)) -> follows n w [] code (read f k).
Proof.
  intros C F ls t w' o E. rewrite run_read in E. specialize (C (w_data w)). destruct (f (w_data w)) as [a|e].
  - exact (F a eq_refl _ _ _ _ E).
  - injection E as <- <- <- <-. exists Stopped. split; [constructor|constructor; exact C].
Qed.
Lemma fol_lift_ok {A} n w l code (a : A) k : follows n w l code (k a) -> follows n w l code (lift (Ok a) k).
Proof. exact (fun x => x). Qed.
Lemma fol_raise n w code e : foreign e = true -> follows n w [] code (Raise e).
Proof. intros F ls t w' o E. injection E as <- <- <- <-. exists Stopped. split; [constructor|constructor; exact F]. Qed.
Lemma fol_look n w l code k : follows n w l code (k w) -> follows n w l code (Look k).
Proof. exact (fun x => x). Qed.

(** ------------------------------------------------------------------ *)
(** nothing the command line computes raises one of the gateway's exceptions *)
Lemma fo_item k v : rcalm (item k v).
Proof. destruct v; try reflexivity. cbn [item]. destruct (dget k d); reflexivity. Qed.
Lemma fo_member e v : rcalm (member_of e v).
Proof. induction e as [|[n x] e IH]; [reflexivity|]. cbn [member_of]. destruct (num_eqb v x); [reflexivity|exact IH]. Qed.
Lemma fo_vformat b v c : rcalm (vformat b v c).
Proof.
  unfold vformat. destruct b; repeat (apply rc_bind; [apply fo_item|intros]); destruct c as [[e ti]|]; try reflexivity;
    (apply rc_bind; [apply fo_member|reflexivity]).
Qed.
Lemma fo_has i d : rcalm (has_circuit i d).
Proof. unfold has_circuit. destruct (soft _); reflexivity. Qed.
Lemma fo_confirm b c l : rcalm (confirm b c l).
Proof.
  induction l as [|[k g] l IH]; [exact Logic.I|]. cbn [confirm]. destruct c; try reflexivity.
  destruct (_ && _); [|exact IH]. apply rc_bind; [apply fo_item|]. intros. apply rc_bind; [apply fo_vformat|]. intros.
  apply rc_bind; [exact IH|]. reflexivity.
Qed.
Lemma fo_walk s p : forall v, rcalm (walk s v p).
Proof. induction p as [|k p IH]; intros v; [exact Logic.I|]. cbn [walk]. destruct (is_none _); [destruct s; reflexivity|apply IH]. Qed.
Lemma fo_utc v : rcalm (utc_time v).
Proof.
  unfold utc_time, from_timestamp. apply rc_bind.
  - destruct v; try reflexivity. cbn [micros_of]. destruct f; reflexivity.
  - intros us. unfold dt_of_micros. destruct (ord2ymd _) as [[y m] d]. unfold make_dt. destruct (valid_dt _); reflexivity.
Qed.
Lemma fo_time d : rcalm (rbind (get_data true [DEVICE_CONTROLLER; GROUP_DATE_TIME; VALUE_TIMESTAMP] d) utc_time).
Proof. apply rc_bind; [apply fo_walk|intros; apply fo_utc]. Qed.
Lemma fo_items v : rcalm (items v). Proof. destruct v; reflexivity. Qed.
Lemma fo_circuit_line k c : rcalm (circuit_line k c).
Proof.
  unfold circuit_line. apply rc_bind; [apply fo_item|]. intros i. destruct (num_eqb _ _); [reflexivity|].
  apply rc_bind; [apply fo_item|]. intros. apply rc_bind; [apply fo_member|]. intros. apply rc_bind; [apply fo_item|]. reflexivity.
Qed.
Lemma fo_heat1 b : rcalm (heat_line1 b).
Proof. unfold heat_line1. repeat (apply rc_bind; [first [apply fo_item|apply fo_member]|intros]). reflexivity. Qed.
Lemma fo_heat2 b : rcalm (heat_line2 b).
Proof. unfold heat_line2. repeat (apply rc_bind; [first [apply fo_item|apply fo_member]|intros]). reflexivity. Qed.
Lemma fo_mode k b : rcalm (mode_line k b).
Proof. unfold mode_line. repeat (apply rc_bind; [first [apply fo_item|apply fo_member]|intros]). reflexivity. Qed.

Lemma fol_show n w v p c k : follows n w [] 0 k -> follows n w [] 0 (show v p c k).
Proof. intros F. unfold show. apply fol_read; [intros; apply fo_vformat|]. intros a _. apply fol_print, F. Qed.

(** ------------------------------------------------------------------ *)
(** * Spelling *)
Lemma choice_means e s : In e enumerations -> choice s e = true -> exists v, means e s v /\ parse_value e s = Ok v.
Proof.
  intros I C. unfold choice in C. apply existsb_exists in C. destruct C as (x & Ix & Q).
  apply pystr_eqb_eq in Q. subst x.
  destruct (C80_advertised e s I Ix) as (n & v & N & P). exists v. split; [exists n; exact N|].
  unfold parse_value. rewrite P. reflexivity.
Qed.
Lemma en_switch : In switches enumerations. Proof. left. reflexivity. Qed.
Lemma en_bodies : In bodies enumerations. Proof. right; left. reflexivity. Qed.
Lemma en_lights : In light_modes enumerations. Proof. do 3 right. left. reflexivity. Qed.
Lemma en_heat : In heat_modes enumerations. Proof. do 6 right. left. reflexivity. Qed.

(** ------------------------------------------------------------------ *)
(** * Circuits *)
Lemma has_section i d b : has_circuit i d = Ok b <-> in_section DEVICE_CIRCUIT (VInt i) d = Ok b.
Proof.
  unfold has_circuit, in_section, get_data. cbn [walk get_next].
  destruct (dget DEVICE_CIRCUIT d) as [v|]; [|cbn; split; discriminate].
  destruct v; cbn [is_none soft walk]; try (split; discriminate). tauto.
Qed.
Lemma has_known i d b : has_circuit i d = Ok b -> (b = true <-> known_circuit i d).
Proof. rewrite has_section. apply in_section_int. Qed.
Lemma known_has i d : known_circuit i d -> has_circuit i d = Ok true.
Proof. intros K. apply has_section, in_section_listed, K. Qed.

(** [reads] a circuit: the steps depend on whether it is there *)
Lemma fol_circuit n w l i k no : (known_circuit i (w_data w) -> follows n w l 0 k) -> (forall w, follows n w [] 4 no) ->
  exists l' code, (known_circuit i (w_data w) /\ l' = l /\ code = 0 \/ ~ known_circuit i (w_data w) /\ l' = [] /\ code = 4) /\
    follows n w l' code (read (has_circuit i) (fun b : bool => if b then k else no)).
Proof.
  intros K N. destruct (has_circuit i (w_data w)) as [[]|e] eqn:H.
  - exists l, 0. pose proof (proj1 (has_known _ _ _ H) eq_refl) as Y. split; [auto|].
    intros ls t w' o E. rewrite run_read, H in E. exact (K Y _ _ _ _ E).
  - exists [], 4. split; [right; repeat split; intros Y; apply (has_known _ _ _ H) in Y; discriminate|].
    apply fol_read; [intros; apply fo_has|]. intros a Ha. rewrite H in Ha. injection Ha as <-. apply N.
  - exists [], 4. split; [right; repeat split; intros Y; apply known_has in Y; congruence|].
    apply fol_read; [intros; apply fo_has|]. intros a Ha. congruence.
Qed.

(** ------------------------------------------------------------------ *)
(** * Commands *)
Definition is_dst (c : cmd) : Prop := match c with SDateTime _ (Some _) => True | _ => False end.

Lemma fol_scg n w v a b s h : given a || given b || given s || given h = true ->
  follows n w [Do (SetScgConfig a b s h); Do GetScg] 0 (set_scg v a b s h fin).
Proof.
  intros G. unfold set_scg. rewrite G. cbn [negb]. apply fol_call. intros w1. apply fol_call. intros w2.
  apply fol_read; [intros; apply fo_confirm|]. intros ls _. apply fol_print, fol_fin.
Qed.
Lemma fol_chem n w v a b s h x y : given a || given b || given s || given h || given x || given y = true ->
  follows n w [Do (SetChemData a b s h x y); Do GetChemistry] 0 (set_chem v a b s h x y fin).
Proof.
  intros G. unfold set_chem. rewrite G. cbn [negb]. apply fol_call. intros w1. apply fol_call. intros w2.
  apply fol_read; [intros; apply fo_confirm|]. intros ls _. apply fol_print, fol_fin.
Qed.
Lemma fol_time n w t dst :
  follows n w [Do GetDatetime; Do (SetDateTime t dst); Wait 500; Do GetDatetime] 0
    (Call GetDatetime (Call (SetDateTime t dst) (Pause 500 (Call GetDatetime
      (read (fun d => rbind (get_data true [DEVICE_CONTROLLER; GROUP_DATE_TIME; VALUE_TIMESTAMP] d) utc_time) (fun t =>
       Print (Printed [Cli.T (u "Controller time now: "); When t None]) (fin 0))))))).
Proof.
  apply fol_call. intros w1. apply fol_call. intros w2. apply fol_pause. intros w3. apply fol_call. intros w4.
  apply fol_read; [intros; apply fo_time|]. intros a _. apply fol_print, fol_fin.
Qed.

Lemma action_follows n w v now c : accepted c = true -> ~ is_dst c -> c <> Discover -> c <> Export -> c <> Dashboard -> (forall dst, c <> SDateTime (Some None) dst) ->
  exists l code, asks now (w_data w) c l code /\ follows n w l code (action v now c fin).
Proof.
  intros A D1 D2 D3 D4 D5. destruct c; try contradiction; unfold action; cbv zeta; cbn [accepted] in A.
  - (* get circuit *)
    match goal with |- context [read (has_circuit i) (fun b : bool => if b then ?k else ?no)] =>
      destruct (fol_circuit n w [] i k no) as (l & code & C & F); [intros _; apply fol_show, fol_fin|intros; apply fol_print, fol_fin|] end.
    exists l, code. split; [|exact F]. destruct C as [(K & -> & ->)|(K & -> & ->)]; constructor; exact K.
  - destruct (choice_means bodies body en_bodies A) as (b & _ & P). change BODY_TYPE with bodies. rewrite P.
    exists [], 0. split; [constructor|]. apply fol_lift_ok, fol_show, fol_fin.
  - destruct (choice_means bodies body en_bodies A) as (b & _ & P). change BODY_TYPE with bodies. rewrite P.
    exists [], 0. split; [constructor|]. apply fol_lift_ok, fol_show, fol_fin.
  - destruct (choice_means bodies body en_bodies A) as (b & _ & P). change BODY_TYPE with bodies. rewrite P.
    exists [], 0. split; [constructor|]. apply fol_lift_ok, fol_show, fol_fin.
  - destruct (choice_means bodies body en_bodies A) as (b & _ & P). change BODY_TYPE with bodies. rewrite P.
    exists [], 0. split; [constructor|]. apply fol_lift_ok, fol_show, fol_fin.
  - exists [Do GetDatetime], 0. split; [constructor|]. apply fol_call. intros w1.
    apply fol_read; [intros; apply fo_time|]. intros a _. apply fol_print, fol_fin.
  - exists [Do GetDatetime], 0. split; [constructor|]. apply fol_call. intros w1. apply fol_show, fol_fin.
  - exists [], 0. split; [constructor|]. apply fol_read; [intros; destruct (has_bytes _); reflexivity|]. intros a _. apply fol_print, fol_fin.
  - (* set circuit *)
    destruct (choice_means switches state en_switch A) as (s & M & P). change ON_OFF with switches in *. rewrite P. cbn [lift].
    match goal with |- context [read (has_circuit i) (fun b : bool => if b then ?k else ?no)] =>
      destruct (fol_circuit n w [Do (SetCircuit (VInt i) (VInt s)); Do Update] i k no) as (l & code & C & F);
        [intros _; apply fol_call; intros w1; apply fol_call; intros w2; apply fol_show, fol_fin|intros; apply fol_print, fol_fin|] end.
    exists l, code. split; [|exact F]. destruct C as [(K & -> & ->)|(K & -> & ->)]; constructor; assumption.
  - destruct (choice_means light_modes mode en_lights A) as (s & M & P). change COLOR_MODE with light_modes in *. rewrite P. cbn [lift].
    exists [Do (SetColorLights (VInt s))], 0. split; [constructor; exact M|]. apply fol_call. intros w1.
    destruct v; [|apply fol_print, fol_fin]. apply fol_lift; [|intros; apply fol_print, fol_fin].
    clear. generalize light_modes. intros e. induction e as [|[x y] e IH]; [reflexivity|]. cbn [enum_by_value]. destruct (y =? s); [reflexivity|exact IH].
  - apply andb_true_iff in A. destruct A as [A1 A2].
    destruct (choice_means bodies body en_bodies A1) as (b & M1 & P1). destruct (choice_means heat_modes mode en_heat A2) as (m & M2 & P2).
    change BODY_TYPE with bodies in *. change HEAT_MODE with heat_modes in *. rewrite P1. cbn [lift]. rewrite P2. cbn [lift].
    exists [Do (SetHeatMode (VInt b) (VInt m)); Do Update], 0. split; [constructor; assumption|].
    apply fol_call. intros w1. apply fol_call. intros w2. apply fol_show, fol_fin.
  - destruct (choice_means bodies body en_bodies A) as (b & M1 & P1). change BODY_TYPE with bodies. rewrite P1. cbn [lift].
    destruct (Z.eqb_spec temp (-1)) as [Q|N].
    + subst temp. exists [], 0. split; [constructor|]. apply fol_show, fol_fin.
    + exists [Do (SetHeatTemp (VInt b) (VInt temp)); Do Update], 0. split; [constructor; assumption|].
      apply fol_call. intros w1. apply fol_call. intros w2. apply fol_show, fol_fin.
  - destruct (given (oint pool) || given (oint spa)) eqn:G.
    + exists [Do (SetScgConfig (option_map VInt pool) (option_map VInt spa) None None); Do GetScg], 0. split.
      * constructor. intros N. inversion N as [|? ? N1 N2]; subst. inversion N2; subst. discriminate.
      * replace (option_map VInt pool) with (oint pool) by (destruct pool; reflexivity).
        replace (option_map VInt spa) with (oint spa) by (destruct spa; reflexivity). apply fol_scg. rewrite G. reflexivity.
    + destruct pool, spa; try discriminate. exists [], 65. split; [constructor|]. unfold set_scg. apply fol_print, fol_fin.
  - destruct (given (ostr state) || given (oint hours)) eqn:G.
    + exists [Do (SetScgConfig None None (option_map VStr state) (option_map VInt hours)); Do GetScg], 0. split.
      * constructor. destruct state, hours; try discriminate; try (left; discriminate); right; discriminate.
      * replace (option_map VStr state) with (ostr state) by (destruct state; reflexivity).
        replace (option_map VInt hours) with (oint hours) by (destruct hours; reflexivity). apply fol_scg. cbn [given orb]. exact G.
    + destruct state, hours; try discriminate. exists [], 65. split; [constructor|]. unfold set_scg. apply fol_print, fol_fin.
  - destruct (given (ofloat ph) || given (oint orp)) eqn:G.
    + exists [Do (SetChemData (option_map VFloat ph) (option_map VInt orp) None None None None); Do GetChemistry], 0. split.
      * constructor. destruct ph, orp; try discriminate; try (left; discriminate); right; discriminate.
      * replace (option_map VFloat ph) with (ofloat ph) by (destruct ph; reflexivity).
        replace (option_map VInt orp) with (oint orp) by (destruct orp; reflexivity). apply fol_chem. rewrite G. reflexivity.
    + destruct ph, orp; try discriminate. exists [], 129. split; [constructor|]. unfold set_chem. apply fol_print, fol_fin.
  - destruct (given (oint ca) || given (oint alk) || given (oint cya) || given (oint tds)) eqn:G.
    + exists [Do (SetChemData None None (option_map VInt ca) (option_map VInt alk) (option_map VInt cya) (option_map VInt tds)); Do GetChemistry], 0. split.
      * constructor. intros N. repeat match goal with H : no_value _ |- _ => inversion H; clear H; subst | H : Forall _ _ |- _ => inversion H; clear H; subst end. discriminate.
      * replace (option_map VInt ca) with (oint ca) by (destruct ca; reflexivity).
        replace (option_map VInt alk) with (oint alk) by (destruct alk; reflexivity).
        replace (option_map VInt cya) with (oint cya) by (destruct cya; reflexivity).
        replace (option_map VInt tds) with (oint tds) by (destruct tds; reflexivity). apply fol_chem. cbn [given orb]. exact G.
    + destruct ca, alk, cya, tds; try discriminate. exists [], 129. split; [constructor|]. unfold set_chem. apply fol_print, fol_fin.
  - destruct dst as [dst|]; [contradiction D1; exact Logic.I|]. unfold set_date_time. destruct date as [[t|]|]; cbn [lift].
    + exists [Do GetDatetime; Do (SetDateTime (Some t) None); Wait 500; Do GetDatetime], 0. split; [constructor|]. exact (fol_time n w (Some t) None).
    + contradiction (D5 None eq_refl).
    + exists [Do GetDatetime; Do (SetDateTime (Some now) None); Wait 500; Do GetDatetime], 0. split; [constructor|]. exact (fol_time n w (Some now) None).
Qed.

Lemma fol_gateway n w l code v d k : follows n w l code k -> follows n w l code (print_gateway v d k).
Proof. intros F. unfold print_gateway. apply fol_look. apply fol_print, fol_print. destruct v; [apply fol_print|]; exact F. Qed.
Lemma fol_circuits n w l k : follows n w [] 0 k -> follows n w [] 0 (print_circuits_loop l k).
Proof.
  intros F. induction l as [|[i c] l IH]; [exact F|]. cbn [print_circuits_loop]. apply fol_lift; [apply fo_circuit_line|].
  intros [x|] _; [apply fol_print|]; exact IH.
Qed.
Lemma fol_heat n w l k : follows n w [] 0 k -> follows n w [] 0 (print_heat_loop l k).
Proof.
  intros F. induction l as [|[i b] l IH]; [exact F|]. cbn [print_heat_loop].
  apply fol_lift; [apply fo_heat1|]. intros l1 _. apply fol_print. apply fol_lift; [apply fo_heat2|]. intros l2 _. apply fol_print.
  apply fol_lift; [apply fo_mode|]. intros l3 _. apply fol_print. apply fol_lift; [apply fo_mode|]. intros l4 _. apply fol_print, fol_print, IH.
Qed.
Lemma fol_dashboard n w v d : follows n w [] 0 (print_dashboard v d (fin 0)).
Proof.
  unfold print_dashboard. apply fol_gateway, fol_print. unfold print_heat. apply fol_read; [intros; apply fo_items|]. intros l _.
  apply fol_heat, fol_print. unfold print_circuits. apply fol_print, fol_print. apply fol_read; [intros; apply fo_items|]. intros l2 _.
  apply fol_circuits, fol_print, fol_fin.
Qed.

(** ------------------------------------------------------------------ *)
(** * Exporting *)
Lemma rc_decode_new m b : calm m -> rcalm (decode_new m b).
Proof. intros C. unfold decode_new. specialize (C []). destruct (m []) as [d [x|e]]; [exact Logic.I|exact C]. Qed.
Lemma ca_color b : calm (decode_color_update b).
Proof. unfold decode_color_update, dunit, color_body. ca. Qed.
Lemma fo_many dec d : (forall f, dec = DIdx f -> forall b i, calm (f b i)) -> rcalm (build_many dec d).
Proof.
  intros C. induction d as [|[k v] d IH]; [exact Logic.I|]. cbn [build_many]. destruct dec as [f|f]; [reflexivity|].
  destruct k as [s|z]; [reflexivity|]. destruct v; try reflexivity. apply rc_bind; [apply rc_decode_new, (C f eq_refl)|].
  intros. apply rc_bind; [exact IH|]. reflexivity.
Qed.
Definition dec_calm (dec : decoder) : Prop := match dec with DOne f => forall b, calm (f b) | DIdx f => forall b i, calm (f b i) end.
Lemma fo_one raw_ req dec : dec_calm dec -> rcalm (build_one raw_ req dec).
Proof.
  intros C. unfold build_one. destruct (dget _ raw_) as [v|]; [|exact Logic.I]. destruct (Decode.truthy v); [|exact Logic.I].
  destruct v; try reflexivity.
  - destruct dec; [|reflexivity]. apply rc_bind; [apply rc_decode_new, C|reflexivity].
  - apply rc_bind; [|reflexivity]. apply fo_many. intros f ->. exact C.
Qed.
Lemma fo_args raw_ t : Forall (fun x => dec_calm (snd x)) t -> rcalm (build_args raw_ t).
Proof.
  induction 1 as [|[q dec] t H _ IH]; [exact Logic.I|]. cbn [build_args]. apply rc_bind; [apply fo_one, H|]. intros a.
  apply rc_bind; [exact IH|]. reflexivity.
Qed.
Lemma fo_build fl h a d : rcalm (build_response_collection fl h a d).
Proof.
  unfold build_response_collection. apply rc_bind; [|reflexivity]. apply fo_args. unfold REQUEST_DECODE_FUNCS.
  repeat (apply Forall_cons; [cbn [snd dec_calm]; intros|]); try apply Forall_nil.
  - apply ca_version.
  - apply ca_config.
  - apply ca_status.
  - apply ca_pump.
  - apply ca_chem.
  - apply ca_scg.
  - apply ca_color.
  - apply ca_datetime.
Qed.
Lemma fo_export c : rcalm (export_response_collection c).
Proof.
  unfold export_response_collection. generalize (ODict (asdict_collection c)). clear c.
  fix F 1. assert (L : forall l : list ov, rcalm (mapr dump l)).
  { fix G 1. intros [|x l]; [exact Logic.I|]. cbn [mapr]. apply rc_bind; [apply F|]. intros y. apply rc_bind; [apply G|]. reflexivity. }
  intros v. destruct v; try exact Logic.I; try reflexivity; cbn [dump].
  - apply rc_bind; [apply L|]. reflexivity.
  - apply rc_bind; [apply L|]. reflexivity.
  - apply rc_bind; [|reflexivity]. revert d. fix G 1. intros [|[k x] l]; [exact Logic.I|]. cbn [mapr fst snd]. apply rc_bind.
    + apply rc_bind; [apply F|]. reflexivity.
    + intros y. apply rc_bind; [apply G|]. reflexivity.
Qed.
