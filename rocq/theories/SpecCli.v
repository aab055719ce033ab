(** Specification of the command line (C85, C86, C91-C98): which API calls a command stands for,
    in which order, and how a run ends.  Used only in theorem statements.  The vocabulary of
    commands (Cli.cmd), of API calls (Api.api_call) and of what they do (Api.perform) is the
    model's. *)
From Verif Require Import Py F64 Struct Utility World Traces Gateway Api Spec SpecParse Paths Discovery SpecDiscovery Cli.

(** the names of the members, as documented for the options *)
Definition switches : list (string * Z) := [("OFF", 0); ("ON", 1)]%string.
Definition bodies : list (string * Z) := [("POOL", 0); ("SPA", 1)]%string.
Definition heat_modes : list (string * Z) :=
  [("OFF", 0); ("SOLAR", 1); ("SOLAR_PREFERRED", 2); ("HEATER", 3); ("DONT_CHANGE", 4)]%string.
Definition light_modes : list (string * Z) :=
  [("ALL_OFF", 0); ("ALL_ON", 1); ("COLOR_SET", 2); ("COLOR_SYNC", 3); ("COLOR_SWIM", 4); ("PARTY", 5);
   ("ROMANCE", 6); ("CARIBBEAN", 7); ("AMERICAN", 8); ("SUNSET", 9); ("ROYAL", 10); ("SAVE", 11);
   ("RECALL", 12); ("BLUE", 13); ("GREEN", 14); ("RED", 15); ("WHITE", 16); ("MAGENTA", 17);
   ("THUMPER", 18); ("NEXT_MODE", 19); ("RESET", 20); ("HOLD", 21)]%string.
Definition means (e : list (string * Z)) (s : pystr) (v : Z) : Prop := exists n, names_member e s n v.

(** One step of a run: an API call, or a pause. *)
Inductive step := Do (c : api_call) | Wait (ms : Z).
Definition does (n : nat) (s : step) : M unit := match s with Do c => perform n c | Wait ms => msleep ms end.
(** How far a run got: all steps done; stopped in front of the last step (the disconnect), by an
    exception of the command line's own; a step raised; a step never ended. *)
Inductive ending := Finished | Stopped | Failed (e : exn) | Hung (y : why).
Inductive progress (n : nat) : list step -> world -> trace -> world -> ending -> Prop :=
| P_all w : progress n [] w [] w Finished
| P_stop s w : progress n [s] w [] w Stopped
| P_next s l w t1 w1 t2 w2 en : does n s w = (t1, w1, Val tt) -> progress n l w1 t2 w2 en ->
    progress n (s :: l) w (t1 ++ t2) w2 en
| P_fail s l w t w1 e : does n s w = (t, w1, Exc e) -> progress n (s :: l) w t w1 (Failed e)
| P_hang s l w t w1 y : does n s w = (t, w1, Stuck y) -> progress n (s :: l) w t w1 (Hung y).

(** ScreenLogic's own exceptions *)
Definition screenlogic (e : exn) : Prop := In e [ESLError; ESLRequest; ESLConnection; ESLResponse; ESLLogin].
(** how the run ends when its steps end so and it was to return [code] *)
Inductive ends : ending -> Z -> out Z -> Prop :=
| E_done code : ends Finished code (Val code)
| E_stop code e : ~ screenlogic e -> e <> ECancelled -> ends Stopped code (Exc e)
| E_reported code e : screenlogic e -> ends (Failed e) code (Val (-1))
| E_escapes code e : ~ screenlogic e -> ends (Failed e) code (Exc e)
| E_hangs code y : ends (Hung y) code (Stuck y).

Definition has_entry (d : dict) (k : key) : Prop := exists v, entry d k v.
Definition known_circuit (i : Z) (d : dict) : Prop := listed d (KS "circuit") i.
Definition no_value {A} (l : list (option A)) : Prop := Forall (fun x => x = None) l.

(** [asks now d c l code]: with the gateway's data [d], the command [c] stands for the steps [l]
    and then the exit code [code].  --auto-dst is C86. *)
Inductive asks (now : datetime) (d : dict) : cmd -> list step -> Z -> Prop :=
| A_dashboard : asks now d Dashboard [] 0
| A_json : asks now d GJson [] 0
| A_get_circuit i : known_circuit i d -> asks now d (GCircuit i) [] 0
| A_get_circuit_no i : ~ known_circuit i d -> asks now d (GCircuit i) [] 4
| A_get_heat_mode b : asks now d (GHeatMode b) [] 0
| A_get_heat_temp b : asks now d (GHeatTemp b) [] 0
| A_get_heat_state b : asks now d (GHeatState b) [] 0
| A_get_current_temp b : asks now d (GCurrentTemp b) [] 0
| A_get_date_time f : asks now d (GDateTime f) [Do GetDatetime] 0
| A_get_auto_dst : asks now d GAutoDst [Do GetDatetime] 0
| A_set_circuit i s v : known_circuit i d -> means switches s v ->
    asks now d (SCircuit i s) [Do (SetCircuit (VInt i) (VInt v)); Do Update] 0
| A_set_circuit_no i s : ~ known_circuit i d -> asks now d (SCircuit i s) [] 4
| A_set_lights s v : means light_modes s v -> asks now d (SColorLights s) [Do (SetColorLights (VInt v))] 0
| A_set_heat_mode s b m v : means bodies s b -> means heat_modes m v ->
    asks now d (SHeatMode s m) [Do (SetHeatMode (VInt b) (VInt v)); Do Update] 0
| A_set_heat_temp s b z : means bodies s b -> z <> -1 ->
    asks now d (SHeatTemp s z) [Do (SetHeatTemp (VInt b) (VInt z)); Do Update] 0
| A_set_heat_temp_no s : asks now d (SHeatTemp s (-1)) [] 0
| A_set_scg a b : ~ no_value [a; b] ->
    asks now d (SScg a b) [Do (SetScgConfig (option_map VInt a) (option_map VInt b) None None); Do GetScg] 0
| A_set_scg_no : asks now d (SScg None None) [] 65
| A_set_super s h : s <> None \/ h <> None ->
    asks now d (SSuper s h) [Do (SetScgConfig None None (option_map VStr s) (option_map VInt h)); Do GetScg] 0
| A_set_super_no : asks now d (SSuper None None) [] 65
| A_set_chem p o : p <> None \/ o <> None ->
    asks now d (SChemSetpoint p o) [Do (SetChemData (option_map VFloat p) (option_map VInt o) None None None None); Do GetChemistry] 0
| A_set_chem_no : asks now d (SChemSetpoint None None) [] 129
| A_set_values ca alk cya tds : ~ no_value [ca; alk; cya; tds] ->
    asks now d (SChemValue ca alk cya tds)
      [Do (SetChemData None None (option_map VInt ca) (option_map VInt alk) (option_map VInt cya) (option_map VInt tds)); Do GetChemistry] 0
| A_set_values_no : asks now d (SChemValue None None None None) [] 129
| A_set_time t : asks now d (SDateTime (Some (Some t)) None)
    [Do GetDatetime; Do (SetDateTime (Some t) None); Wait 500; Do GetDatetime] 0
| A_set_time_now : asks now d (SDateTime None None)
    [Do GetDatetime; Do (SetDateTime (Some now) None); Wait 500; Do GetDatetime] 0.

(** [conducts]: a run that talks to the adapter given by [x].  It connects and updates; without a
    controller in the data it ends with 1; a date that is none ends it with ValueError; otherwise the command's steps follow and, but for
    'export', a disconnect. *)
Inductive conducts (n : nat) (now : datetime) (x : connect_args) (c : cmd) (w : world) : trace -> world -> out Z -> Prop :=
| N_start t w' en o : progress n [Do (Connect x); Do Update] w t w' en -> en <> Finished -> en <> Stopped -> ends en 0 o ->
    conducts n now x c w t w' o
| N_empty t w' : progress n [Do (Connect x); Do Update] w t w' Finished -> ~ has_entry (w_data w') (KS "controller") ->
    conducts n now x c w t w' (Val 1)
| N_export t w' o : c = Export -> progress n [Do (Connect x); Do Update] w t w' Finished -> has_entry (w_data w') (KS "controller") ->
    o = Val 0 \/ (exists e, o = Exc e /\ ~ screenlogic e) ->
    conducts n now x c w t w' o
| N_bad_date t w' dst : c = SDateTime (Some None) dst -> progress n [Do (Connect x); Do Update] w t w' Finished ->
    has_entry (w_data w') (KS "controller") -> conducts n now x c w t w' (Exc EValue)
| N_rest t1 w1 l code t2 w' en o : progress n [Do (Connect x); Do Update] w t1 w1 Finished -> has_entry (w_data w1) (KS "controller") ->
    asks now (w_data w1) c l code -> progress n (l ++ [Do (Disconnect false)]) w1 t2 w' en -> ends en code o ->
    conducts n now x c w (t1 ++ t2) w' o.

(** ------------------------------------------------------------------ *)
(** * Which adapter *)
Definition unnamed (o : options) : Prop := o_ip o = None \/ o_ip o = Some [].
Definition net_works (nw : net) : Prop := net_open nw = None /\ net_send nw = None /\ net_cancelled nw = false.
(** [uses o nw x]: the adapter named by the options, or else the first that answered *)
Inductive uses (o : options) (nw : net) : connect_args -> Prop :=
| U_named ip : o_ip o = Some ip -> ip <> [] -> uses o nw (mkArgs (Some ip) (Some (o_port o)) None None None None)
| U_found before b after a i1 i2 i3 i4 ip name : unnamed o -> net_works nw ->
    net_in nw = before ++ b :: after -> Forall (fun b => ~ valid_datagram b) before ->
    announces a -> datagram a b -> an_ip a = (i1, i2, i3, i4) -> dotted ip i1 i2 i3 i4 -> stripped (an_name a) name ->
    uses o nw (mkArgs (Some ip) (Some (an_port a)) (Some (an_type a)) (Some (an_subtype a)) (Some name) None).
(** the whole run *)
Inductive behaves (n : nat) (nw : net) (now : datetime) (o : options) (c : cmd) (w : world) : trace -> world -> out Z -> Prop :=
| B_run x t w' e : uses o nw x -> conducts n now x c w t w' e -> behaves n nw now o c w t w' e
| B_none : unnamed o -> net_works nw -> Forall (fun b => ~ valid_datagram b) (net_in nw) ->
    behaves n nw now o c w [] w (Val 1)
| B_net e : unnamed o -> ~ net_works nw -> (exists x, e = Exc x) \/ e = Val (-1) -> behaves n nw now o c w [] w e.

(** ------------------------------------------------------------------ *)
(** * Messages *)
(** the polls: status, pumps, chemistry, chlorinator, date and time *)
Definition polling (X : Z) : Prop := In X [12526; 12584; 12592; 12572; 8110].
(** commands that only look *)
Definition reading (c : cmd) : Prop :=
  match c with
  | Dashboard | Discover | Export | GCircuit _ | GHeatMode _ | GHeatTemp _ | GHeatState _ | GCurrentTemp _
  | GDateTime _ | GAutoDst | GJson => True
  | _ => False
  end.
Definition same {A} (given : option A) (x : A) : Prop := forall y, given = Some y -> x = y.
(** [writes now c X p]: the message with code [X] and payload [p] does what [c] says *)
Inductive writes (now : datetime) : cmd -> Z -> bytes -> Prop :=
| W_circuit i s v : means switches s v -> writes now (SCircuit i s) 12530 (u32le 0 ++ u32le i ++ u32le v)
| W_lights m v : means light_modes m v -> writes now (SColorLights m) 12556 (u32le 0 ++ u32le v)
| W_heat_mode s b m v : means bodies s b -> means heat_modes m v ->
    writes now (SHeatMode s m) 12538 (u32le 0 ++ u32le b ++ u32le v)
| W_heat_temp s b z : means bodies s b -> z <> -1 -> writes now (SHeatTemp s z) 12528 (u32le 0 ++ u32le b ++ u32le z)
| W_scg pool spa a b s k : same pool a -> same spa b -> pool <> None \/ spa <> None ->
    writes now (SScg pool spa) 12576 (u32le 0 ++ u32le a ++ u32le b ++ u32le s ++ u32le k)
| W_super state hours a b s k : (forall x, state = Some x -> means switches x s) -> same hours k -> state <> None \/ hours <> None ->
    writes now (SSuper state hours) 12576 (u32le 0 ++ u32le a ++ u32le b ++ u32le s ++ u32le k)
| W_chem ph orp h a b e f g : (forall x, ph = Some x -> f_trunc (fmul x (f_of_Z 100)) = Ok h) -> same orp a -> ph <> None \/ orp <> None ->
    writes now (SChemSetpoint ph orp) 12594 (u32le 0 ++ u32le h ++ u32le a ++ u32le b ++ u32le e ++ u32le f ++ u32le g)
| W_values ca alk cya tds h a b e f g : same ca b -> same alk e -> same cya f -> same tds g -> ~ no_value [ca; alk; cya; tds] ->
    writes now (SChemValue ca alk cya tds) 12594 (u32le 0 ++ u32le h ++ u32le a ++ u32le b ++ u32le e ++ u32le f ++ u32le g)
| W_time date t a : date = Some (Some t) \/ date = None /\ t = now ->
    writes now (SDateTime date None) 8112
      (wire_time (dt_year t) (dt_month t) (day_of_week (dt_year t) (dt_month t) (dt_day t)) (dt_day t)
          (dt_hour t) (dt_minute t) 0 (dt_micro t / 1000) ++ u32le a).
(** the dates given, and the host's clock, are real dates *)
Definition dates_ok (now : datetime) (c : cmd) : Prop :=
  match c with SDateTime (Some (Some t)) _ => valid_dt t = true | SDateTime None _ => valid_dt now = true | _ => True end.
(** the code of the message that does what [c] says *)
Definition setting (c : cmd) : option Z :=
  match c with
  | SCircuit _ _ => Some 12530 | SColorLights _ => Some 12556 | SHeatMode _ _ => Some 12538
  | SHeatTemp _ z => if z =? -1 then None else Some 12528
  | SScg _ _ | SSuper _ _ => Some 12576
  | SChemSetpoint _ _ | SChemValue _ _ _ _ => Some 12594
  | SDateTime _ _ => Some 8112
  | _ => None
  end.
(** the adapter's empty answer to a message with code [X] came in *)
Definition acknowledged (X : Z) (t : trace) : Prop := exists r, In (Got r) t /\ answer_of r = Some (X + 1, []).

(** ------------------------------------------------------------------ *)
(** * What is printed *)
(** the names users see *)
Definition switch_titles : list (Z * string) := [(0, "Off"); (1, "On")]%string.
Definition body_titles : list (Z * string) := [(0, "Pool"); (1, "Spa")]%string.
Definition heat_mode_titles : list (Z * string) :=
  [(0, "Off"); (1, "Solar"); (2, "Solar Preferred"); (3, "Heater"); (4, "Don't Change")]%string.
(** the heat states, device_const/heat.py:16-20 *)
Definition heat_state_titles : list (Z * string) := [(0, "Off"); (1, "Solar"); (2, "Heater"); (3, "Both")]%string.
Definition holds (el : pv) (k : string) (v : pv) : Prop := exists m, el = VDict m /\ entry m (KS k) v.
(** [v] is the number of the entry ([x], [s]) of the table *)
Definition titled (tab : list (Z * string)) (v : pv) (x : Z) (s : string) : Prop :=
  In (x, s) tab /\ (forall z, v = VInt z -> z = x).
(** [shown verbose tab el l]: the text [l] shows the data element [el] *)
Inductive shown : bool -> option (list (Z * string)) -> pv -> list frag -> Prop :=
| Sh_title el name v x s tab : holds el "name" name -> holds el "value" v -> titled tab v x s ->
    shown true (Some tab) el [V name; T (u ": "); T (u s)]
| Sh_number el v x s tab : holds el "value" v -> titled tab v x s -> shown false (Some tab) el [V (VInt x)]
| Sh_named el name v : holds el "name" name -> holds el "value" v -> shown true None el [V name; T (u ": "); V v]
| Sh_plain el v : holds el "value" v -> shown false None el [V v].
(** what a command shows of the data [d] *)
Inductive element (d : dict) : cmd -> pv -> option (list (Z * string)) -> Prop :=
| El_circuit i c el : c = GCircuit i \/ (exists s, c = SCircuit i s) ->
    leads (VDict d) [KS "circuit"; KI i] el -> element d c el (Some switch_titles)
| El_heat_mode s b c el : c = GHeatMode s \/ (exists m, c = SHeatMode s m) -> means bodies s b ->
    leads (VDict d) [KS "body"; KI b; KS "heat_mode"] el -> element d c el (Some heat_mode_titles)
| El_heat_temp s b c el : c = GHeatTemp s \/ (exists z, c = SHeatTemp s z) -> means bodies s b ->
    leads (VDict d) [KS "body"; KI b; KS "heat_setpoint"] el -> element d c el None
| El_current_temp s b el : means bodies s b ->
    leads (VDict d) [KS "body"; KI b; KS "last_temperature"] el -> element d (GCurrentTemp s) el None
| El_auto_dst el : leads (VDict d) [KS "controller"; KS "date_time"; KS "auto_dst"] el -> element d GAutoDst el None.
(** the commands that show one element *)
Definition shows_one (c : cmd) : Prop :=
  match c with
  | GCircuit _ | SCircuit _ _ | GHeatMode _ | SHeatMode _ _ | GHeatTemp _ | SHeatTemp _ _ | GCurrentTemp _ | GAutoDst => True
  | _ => False
  end.
(** [answers verbose c d l]: [l] is what [c] prints, the data being [d] *)
Inductive answers (verbose : bool) (c : cmd) (d : dict) : list frag -> Prop :=
| An_element el tab l : element d c el tab -> shown verbose tab el l -> answers verbose c d l
| An_time f v t : c = GDateTime f -> leads (VDict d) [KS "controller"; KS "date_time"; KS "timestamp"] v ->
    from_timestamp (fun _ => 0) v = Ok t -> answers verbose c d [When t f]
| An_json : c = GJson -> answers verbose c d [Js (VDict d)].
(** the text in a column of five *)
Definition column (s : string) : pystr := u (if (s =? "On")%string then "   On" else "  Off").
(** the circuits that are not hidden (interface 5), in order, one line each *)
Inductive circuit_rows : list (key * pv) -> list line -> Prop :=
| CR_end : circuit_rows [] []
| CR_hidden k c l ls i : holds c "interface" i -> (forall z, i = VInt z -> z = 5) -> circuit_rows l ls -> circuit_rows ((k, c) :: l) ls
| CR_shown k c l ls i v x s name : holds c "interface" i -> i <> VInt 5 -> holds c "value" v -> titled switch_titles v x s -> holds c "name" name ->
    circuit_rows l ls ->
    circuit_rows ((k, c) :: l)
      (Printed [V (match k with KI z => VInt z | KS s => VStr (u s) end); T (u "  "); T (column s); T (u "  "); V name] :: ls).
(** the bodies in order, five lines each; [text] says how a heat state is shown *)
Inductive body_rows (text : pv -> pystr -> Prop) : list (key * pv) -> list line -> Prop :=
| BR_end : body_rows text [] []
| BR_body k b l ls ty x s lt v un sp spn spv st stn stv sts md mdn mdv y mds :
    holds b "body_type" ty -> titled body_titles ty x s ->
    holds b "last_temperature" lt -> holds lt "value" v -> holds lt "unit" un ->
    holds b "heat_setpoint" sp -> holds sp "name" spn -> holds sp "value" spv ->
    holds b "heat_state" st -> holds st "name" stn -> holds st "value" stv -> text stv sts ->
    holds b "heat_mode" md -> holds md "name" mdn -> holds md "value" mdv -> titled heat_mode_titles mdv y mds ->
    body_rows text l ls ->
    body_rows text ((k, b) :: l)
      ([Printed [T (u s); T (u " temperature is last "); V v; V un];
        Printed [V spn; T (u ": "); V spv; V un];
        Printed [V stn; T (u ": "); T sts];
        Printed [V mdn; T (u ": "); T (u mds)];
        Printed [T (u "--------------------------")]] ++ ls).
(** how a heat state should be shown *)
Definition right_state (v : pv) (s : pystr) : Prop := exists x n, titled heat_state_titles v x n /\ s = u n.
(** [host_rows verbose bs ls]: one line for each discovery response among the datagrams [bs], in order *)
Inductive host_rows (verbose : bool) : list bytes -> list line -> Prop :=
| HR_end : host_rows verbose [] []
| HR_other b bs ls : ~ valid_datagram b -> host_rows verbose bs ls -> host_rows verbose (b :: bs) ls
| HR_host b bs ls a i1 i2 i3 i4 ip name : announces a -> datagram a b -> an_ip a = (i1, i2, i3, i4) -> dotted ip i1 i2 i3 i4 ->
    stripped (an_name a) name -> host_rows verbose bs ls ->
    host_rows verbose (b :: bs)
      (Printed (if verbose then [T (u "'"); V (VStr name); T (u "' at "); V (VStr ip); T (u ":"); V (VInt (an_port a))]
                else [V (VStr ip); T (u ":"); V (VInt (an_port a)); T (u " '"); V (VStr name); T (u "'")]) :: ls).
(** the whole dashboard *)
Definition dashboard_lines (gw brows crows : list line) : list line :=
  gw ++ [Printed [T (u "**************************")]] ++ brows ++
  [Printed [T (u "**************************")]; Printed [T (u " ID  STATE  NAME")]; Printed [T (u "--------------------------")]] ++
  crows ++ [Printed [T (u "**************************")]].
(** the commands that only answer a question or confirm a setting with one line *)
Definition tells_one (c : cmd) : Prop := shows_one c \/ (exists f, c = GDateTime f) \/ c = GJson.
