(** Model of screenlogicpy/cli.py.  The command line is a client of the gateway's API: a run is
    a program of API calls, pauses, prints and reads of the gateway's state ([prog]); what the
    calls do is Gateway.v's business.  Not modelled: argparse itself (a run starts from the parsed
    arguments; of argparse only the [choices] test is here, [accepted]), logging set-up, and how
    values are turned into text ([V], [When], [Js] keep the value that str(), ctime()/strftime()
    or json.dumps formats).  The port is a number (argparse leaves a string given with -p). *)
From Verif Require Import Py F64 Struct Utf Utility Const Enum Decode Data Discovery World Request Gateway Traces Api.

(** a printed piece of text *)
Inductive frag :=
| T (s : pystr)                                   (* literal text *)
| V (v : pv)                                      (* a value, as str() shows it *)
| When (t : datetime) (format : option pystr)     (* ctime() or strftime(format) *)
| Js (v : pv)                                     (* json.dumps(v, indent=2) *)
| Err_ (e : exn).                                 (* print(err) *)
Inductive line :=
| Printed (l : list frag)
| File (name : pystr) (content : json).           (* a file written *)

(** cli.py:28-30 file_format; string.punctuation is all ASCII graphic characters but letters and digits *)
Definition is_punctuation (c : Z) : bool :=
  ((33 <=? c) && (c <=? 47)) || ((58 <=? c) && (c <=? 64)) || ((91 <=? c) && (c <=? 96)) || ((123 <=? c) && (c <=? 126)).
Definition file_format (name : pystr) : pystr :=
  str_lower (map (fun c => if c =? 32 then 45 else c) (filter (fun c => negb (is_punctuation c)) name)).

(** The parsed arguments: cli.py:318-625.  A date is the result of datetime.fromisoformat
    (275-279), [Some None] being text it rejects. *)
Inductive cmd :=
| Dashboard                                       (* no action *)
| Discover | Export
| GCircuit (i : Z)
| GHeatMode (body : pystr) | GHeatTemp (body : pystr) | GHeatState (body : pystr) | GCurrentTemp (body : pystr)
| GDateTime (format : option pystr) | GAutoDst | GJson
| SCircuit (i : Z) (state : pystr)
| SColorLights (mode : pystr)
| SHeatMode (body mode : pystr)
| SHeatTemp (body : pystr) (temp : Z)
| SScg (pool spa : option Z)
| SSuper (state : option pystr) (hours : option Z)
| SChemSetpoint (ph : option spec_float) (orp : option Z)
| SChemValue (ca alk cya tds : option Z)
| SDateTime (date : option (option datetime)) (dst : option pystr).
Record options := mkOpt { o_verbose : bool; o_ip : option pystr; o_port : Z }.

(** argparse's choices: cli.py:370-377, 431-444, 446-459, 468-476, 519-526, 615-622 *)
Definition choice (s : pystr) (e : enum) : bool := existsb (pystr_eqb s) (parsable_values e).
Definition ochoice (s : option pystr) (e : enum) : bool := match s with Some s => choice s e | None => true end.
Definition accepted (c : cmd) : bool :=
  match c with
  | GHeatMode b | GHeatTemp b | GHeatState b | GCurrentTemp b | SHeatTemp b _ => choice b BODY_TYPE
  | SCircuit _ s => choice s ON_OFF
  | SColorLights m => choice m COLOR_MODE
  | SHeatMode b m => choice b BODY_TYPE && choice m HEAT_MODE
  | SSuper s _ | SDateTime _ s => ochoice s ON_OFF
  | _ => true
  end.

(** ------------------------------------------------------------------ *)
(** * Programs over the gateway API *)
Inductive prog :=
| Return (code : Z)
| Raise (e : exn)
| Print (l : line) (k : prog)
| Call (c : api_call) (k : prog)
| Pause (ms : Z) (k : prog)                       (* asyncio.sleep *)
| Look (k : world -> prog).                       (* reads the gateway's attributes *)

Fixpoint run (n : nat) (p : prog) (w : world) : list line * (trace * world * out Z) :=
  match p with
  | Return z => ([], ([], w, Val z))
  | Raise e => ([], ([], w, Exc e))
  | Print l k => let '(ls, r) := run n k w in (l :: ls, r)
  | Call c k =>
      let '(t, w1, o) := perform n c w in
      match o with
      | Val _ => let '(ls, (t2, w2, o2)) := run n k w1 in (ls, (t ++ t2, w2, o2))
      | Exc e => ([], (t, w1, Exc e))
      | Stuck y => ([], (t, w1, Stuck y))
      end
  | Pause ms k =>
      let '(t, w1, o) := msleep ms w in
      match o with
      | Val _ => let '(ls, (t2, w2, o2)) := run n k w1 in (ls, (t ++ t2, w2, o2))
      | Exc e => ([], (t, w1, Exc e))
      | Stuck y => ([], (t, w1, Stuck y))
      end
  | Look k => run n (k w) w
  end.

(** an expression over the gateway's data that may raise *)
Definition read {A} (f : dict -> res A) (k : A -> prog) : prog :=
  Look (fun w => match f (w_data w) with Ok a => k a | Err e => Raise e end).
Definition lift {A} (r : res A) (k : A -> prog) : prog := match r with Ok a => k a | Err e => Raise e end.

(** x["key"]: only dictionaries have string keys *)
Definition item (k : key) (v : pv) : res pv :=
  match v with
  | VDict m => match dget k m with Some x => Ok x | None => Err EKey end
  | _ => Err EType
  end.
(** Enum(x): members are found by equality with their number; ValueError otherwise *)
Fixpoint member_of (e : enum) (v : pv) : res (string * Z) :=
  match e with
  | [] => Err EValue
  | (n, x) :: e' => if num_eqb v x then Ok (n, x) else member_of e' v
  end.
(** Enum.parse(text).value, const/common.py:71-83 with its default 0 *)
Definition parse_value (e : enum) (s : pystr) : res Z :=
  rbind (parse e (VStr s) (Some 0)) (fun m => match m with Some (_, v) => Ok v | None => Err EAttribute end).

(** cli.py:39-52 vFormat; the class with its title function *)
Definition vformat (verbose : bool) (el : pv) (cls : option (enum * (string -> pystr))) : res (list frag) :=
  if verbose then
    rbind (item ATTR_NAME el) (fun name =>
    rbind (item ATTR_VALUE el) (fun v =>
    match cls with
    | Some (e, title) => rbind (member_of e v) (fun m => Ok [V name; T (u ": "); T (title (fst m))])
    | None => Ok [V name; T (u ": "); V v]
    end))
  else
    rbind (item ATTR_VALUE el) (fun v =>
    match cls with
    | Some (e, _) => rbind (member_of e v) (fun m => Ok [V (VInt (snd m))])
    | None => Ok [V v]
    end).
(** gateway.get_data(...) as an argument: it does not raise *)
Definition show (verbose : bool) (p : path) (cls : option (enum * (string -> pystr))) (k : prog) : prog :=
  read (fun d => vformat verbose (soft (get_data false p d)) cls) (fun l => Print (Printed l) k).

(** [circuit_id not in gateway.get_data(DEVICE.CIRCUIT)]; None is not a container.  Anything
    but a dictionary there is reported as TypeError too. *)
Definition has_circuit (i : Z) (d : dict) : res bool :=
  match soft (get_data false [DEVICE_CIRCUIT] d) with
  | VDict m => contains (VInt i) m
  | _ => Err EType
  end.

(** print with several arguments puts a space between them *)
Definition spaced (ls : list (list frag)) : list frag :=
  match ls with
  | [] => []
  | x :: ls' => x ++ flat_map (fun y => T (u " ") :: y) ls'
  end.
(** cli.py:190-196 and 244-250: the values given, in the order of the keyword arguments, of
    those that are in the configuration; [key in None] and [None[key]] are TypeErrors *)
Fixpoint confirm (verbose : bool) (config : pv) (l : list (key * bool)) : res (list (list frag)) :=
  match l with
  | [] => Ok []
  | (k, given) :: l' =>
      match config with
      | VDict m =>
          if din k m && given
          then rbind (item k config) (fun el => rbind (vformat verbose el None) (fun x =>
               rbind (confirm verbose config l') (fun r => Ok (x :: r))))
          else confirm verbose config l'
      | _ => Err EType
      end
  end.

(** datetime.fromtimestamp(x, tz=timezone.utc) *)
Definition utc_time (v : pv) : res datetime := from_timestamp (fun _ => 0) v.

Definition oint (z : option Z) : option pv := match z with Some z => Some (VInt z) | None => None end.
Definition ofloat (f : option spec_float) : option pv := match f with Some f => Some (VFloat f) | None => None end.
Definition ostr (s : option pystr) : option pv := match s with Some s => Some (VStr s) | None => None end.
Definition given {A} (x : option A) : bool := match x with Some _ => true | None => false end.

(** cli.py:161-197 async_set_scg_config *)
Definition set_scg (verbose : bool) (pool spa state time : option pv) (fin : Z -> prog) : prog :=
  if negb (given pool || given spa || given state || given time)
  then Print (Printed [T (u "No new chlorinator values. Nothing to do.")]) (fin 65)
  else
    Call (SetScgConfig pool spa state time)
    (Call GetScg
    (read (fun d => confirm verbose (soft (get_data false [DEVICE_SCG; GROUP_CONFIGURATION] d))
                      [(VALUE_POOL_SETPOINT, given pool); (VALUE_SPA_SETPOINT, given spa);
                       (VALUE_SUPER_CHLORINATE, given state); (VALUE_SUPER_CHLOR_TIMER, given time)])
      (fun ls => Print (Printed (spaced ls)) (fin 0)))).

(** cli.py:210-251 async_set_chem_data *)
Definition set_chem (verbose : bool) (ph orp ca alk cya tds : option pv) (fin : Z -> prog) : prog :=
  if negb (given ph || given orp || given ca || given alk || given cya || given tds)
  then Print (Printed [T (u "No new chemistry values. Nothing to do.")]) (fin 129)
  else
    Call (SetChemData ph orp ca alk cya tds)
    (Call GetChemistry
    (read (fun d => confirm verbose (soft (get_data false [DEVICE_INTELLICHEM; GROUP_CONFIGURATION] d))
                      [(VALUE_PH_SETPOINT, given ph); (VALUE_ORP_SETPOINT, given orp);
                       (VALUE_CALCIUM_HARDNESS, given ca); (VALUE_TOTAL_ALKALINITY, given alk);
                       (VALUE_CYA, given cya); (VALUE_SALT_TDS_PPM, given tds)])
      (fun ls => Print (Printed (spaced ls)) (fin 0)))).

(** cli.py:274-300 async_set_date_time; [now] is datetime.now(tz=timezone.utc) *)
Definition set_date_time (now : datetime) (date : option (option datetime)) (dst : option pystr) (fin : Z -> prog) : prog :=
  lift (match date with None => Ok None | Some None => Err EValue | Some (Some t) => Ok (Some t) end) (fun t =>
  let t := match t, dst with None, None => Some now | _, _ => t end in
  Call GetDatetime
  (Call (SetDateTime t (ostr dst))
  (Pause 500
  (Call GetDatetime
  (read (fun d => rbind (get_data true [DEVICE_CONTROLLER; GROUP_DATE_TIME; VALUE_TIMESTAMP] d) utc_time) (fun t =>
   Print (Printed [T (u "Controller time now: "); When t None]) (fin 0))))))).

(** cli.py:302-312 async_export_data_collection; file_format(None) is an AttributeError.
    Opening the file succeeds. *)
Definition text_of (v : pv) : res pystr := match v with VStr s => Ok s | _ => Err EAttribute end.
Definition export_name (version model : pystr) (flags : Z) : pystr :=
  u "slpy-" ++ file_format (u "0.10.2") ++ u "_" ++ file_format version ++ u "_" ++ file_format model
  ++ u "_" ++ str_of_Z flags ++ u ".json".
Definition export_data : prog :=
  read (fun d => text_of (version d)) (fun pa =>
  read (fun d => text_of (soft (get_value false [DEVICE_CONTROLLER; VALUE_MODEL] d))) (fun model =>
  read equipment_flags (fun flags =>
  Look (fun w =>
  lift (build_response_collection (h_float (w_host w)) (w_clock w) (w_last w) (w_data w)) (fun c =>
  lift (export_response_collection c) (fun j =>
  Print (File (export_name pa model flags) j) (Return 0))))))).

(** json.dumps: bytes are not serializable (TypeError); keys are text and numbers *)
Fixpoint has_bytes (v : pv) : bool :=
  match v with
  | VBytes _ => true
  | VList l | VTuple l => existsb has_bytes l
  | VDict d => existsb (fun x => has_bytes (snd x)) d
  | _ => false
  end.

(** args.async_func(), cli.py:55-300 and 314-316; 'discover' and 'export' have no such
    attribute.  [fin] is 756-757. *)
Definition action (verbose : bool) (now : datetime) (c : cmd) (fin : Z -> prog) : prog :=
  let circuit i k := show verbose [DEVICE_CIRCUIT; KI i] (Some (ON_OFF, base_title)) k in
  let unknown i := Print (Printed [T (u "Invalid circuit number: "); V (VInt i)]) (fin 4) in
  match c with
  | GCircuit i => read (has_circuit i) (fun b => if b then circuit i (fin 0) else unknown i)
  | SCircuit i state =>
      lift (parse_value ON_OFF state) (fun s =>
      read (has_circuit i) (fun b =>
      if b then Call (SetCircuit (VInt i) (VInt s)) (Call Update (circuit i (fin 0))) else unknown i))
  | GHeatMode body => lift (parse_value BODY_TYPE body) (fun b =>
      show verbose [DEVICE_BODY; KI b; VALUE_HEAT_MODE] (Some (HEAT_MODE, heat_mode_title)) (fin 0))
  | SHeatMode body mode => lift (parse_value BODY_TYPE body) (fun b => lift (parse_value HEAT_MODE mode) (fun m =>
      Call (SetHeatMode (VInt b) (VInt m)) (Call Update
      (show verbose [DEVICE_BODY; KI b; VALUE_HEAT_MODE] (Some (HEAT_MODE, heat_mode_title)) (fin 0)))))
  | GHeatTemp body => lift (parse_value BODY_TYPE body) (fun b =>
      show verbose [DEVICE_BODY; KI b; VALUE_HEAT_SETPOINT] None (fin 0))
  | SHeatTemp body temp => lift (parse_value BODY_TYPE body) (fun b =>
      let k := show verbose [DEVICE_BODY; KI b; VALUE_HEAT_SETPOINT] None (fin 0) in
      if temp =? -1 then k else Call (SetHeatTemp (VInt b) (VInt temp)) (Call Update k))
  | GHeatState body => lift (parse_value BODY_TYPE body) (fun b =>
      show verbose [DEVICE_BODY; KI b; VALUE_HEAT_STATE] (Some (ON_OFF, base_title)) (fin 0))
  | GCurrentTemp body => lift (parse_value BODY_TYPE body) (fun b =>
      show verbose [DEVICE_BODY; KI b; VALUE_LAST_TEMPERATURE] None (fin 0))
  | SColorLights mode => lift (parse_value COLOR_MODE mode) (fun m =>
      Call (SetColorLights (VInt m))
      (if verbose
       then lift (enum_by_value COLOR_MODE m) (fun x => Print (Printed [T (u "Set color mode to "); T (base_title (fst x))]) (fin 0))
       else Print (Printed [V (VInt m)]) (fin 0)))
  | SScg pool spa => set_scg verbose (oint pool) (oint spa) None None fin
  | SSuper state hours => set_scg verbose None None (ostr state) (oint hours) fin
  | SChemSetpoint ph orp => set_chem verbose (ofloat ph) (oint orp) None None None None fin
  | SChemValue ca alk cya tds => set_chem verbose None None (oint ca) (oint alk) (oint cya) (oint tds) fin
  | GDateTime format =>
      Call GetDatetime
      (read (fun d => rbind (get_data true [DEVICE_CONTROLLER; GROUP_DATE_TIME; VALUE_TIMESTAMP] d) utc_time) (fun t =>
       Print (Printed [When t format]) (fin 0)))
  | GAutoDst => Call GetDatetime (show verbose [DEVICE_CONTROLLER; GROUP_DATE_TIME; VALUE_AUTO_DST] None (fin 0))
  | SDateTime date dst => set_date_time now date dst fin
  | GJson => read (fun d => if has_bytes (VDict d) then Err EType else Ok (VDict d)) (fun v => Print (Printed [Js v]) (fin 0))
  | Discover | Export | Dashboard => Raise EAttribute
  end.

(** cli.py:688-695 print_gateway *)
Definition print_gateway (verbose discovered : bool) (k : prog) : prog :=
  Look (fun w =>
  let a := w_addr w in
  Print (Printed [T (u (if discovered then "Discovered" else "Using")); T (u " '"); T (a_name a); T (u "' at ");
                  V (match a_ip a with Some s => VStr s | None => VNone end); T (u ":"); V (VInt (a_port a))])
  (Print (Printed [V (soft (get_value false [DEVICE_CONTROLLER; VALUE_MODEL] (w_data w)))])
  (if verbose then Print (Printed [T (u "Version: "); V (version (w_data w))]) k else k))).

(** str.rjust(5) *)
Definition rjust5 (s : pystr) : pystr := List.repeat 32 (5 - List.length s) ++ s.
Definition text (s : string) : line := Printed [T (u s)].
(** d.items() / d.values(); None has no such attribute *)
Definition items (v : pv) : res (list (key * pv)) := match v with VDict m => Ok m | _ => Err EAttribute end.
Definition key_value (k : key) : pv := match k with KI z => VInt z | KS s => VStr (u s) end.

(** cli.py:697-708 print_circuits, one circuit; None: not shown *)
Definition circuit_line (k : key) (c : pv) : res (option line) :=
  rbind (item ATTR_INTERFACE c) (fun i =>
  if num_eqb i INTERFACE_DONT_SHOW then Ok None
  else rbind (item ATTR_VALUE c) (fun v => rbind (member_of ON_OFF v) (fun m => rbind (item ATTR_NAME c) (fun name =>
       Ok (Some (Printed [V (key_value k); T (u "  "); T (rjust5 (base_title (fst m))); T (u "  "); V name])))))).
Fixpoint print_circuits_loop (l : list (key * pv)) (k : prog) : prog :=
  match l with
  | [] => k
  | (i, c) :: l' => lift (circuit_line i c) (fun o => match o with
                                                      | Some x => Print x (print_circuits_loop l' k)
                                                      | None => print_circuits_loop l' k
                                                      end)
  end.
Definition print_circuits (k : prog) : prog :=
  Print (text " ID  STATE  NAME") (Print (text "--------------------------")
  (read (fun d => items (soft (get_data false [DEVICE_CIRCUIT] d))) (fun l => print_circuits_loop l k))).

(** cli.py:710-738 print_heat, one body: its five lines, printed one at a time *)
Definition heat_line1 (b : pv) : res line :=
  rbind (item ATTR_BODY_TYPE b) (fun ty => rbind (member_of BODY_TYPE ty) (fun m =>
  rbind (item VALUE_LAST_TEMPERATURE b) (fun lt => rbind (item ATTR_VALUE lt) (fun v => rbind (item ATTR_UNIT lt) (fun un =>
  Ok (Printed [T (base_title (fst m)); T (u " temperature is last "); V v; V un])))))).
Definition heat_line2 (b : pv) : res line :=
  rbind (item VALUE_HEAT_SETPOINT b) (fun s => rbind (item ATTR_NAME s) (fun name => rbind (item ATTR_VALUE s) (fun v =>
  rbind (item VALUE_LAST_TEMPERATURE b) (fun lt => rbind (item ATTR_UNIT lt) (fun un =>
  Ok (Printed [V name; T (u ": "); V v; V un])))))).
Definition mode_line (k : key) (b : pv) : res line :=
  rbind (item k b) (fun s => rbind (item ATTR_NAME s) (fun name => rbind (item ATTR_VALUE s) (fun v =>
  rbind (member_of HEAT_MODE v) (fun m => Ok (Printed [V name; T (u ": "); T (heat_mode_title (fst m))]))))).
Fixpoint print_heat_loop (l : list (key * pv)) (k : prog) : prog :=
  match l with
  | [] => k
  | (_, b) :: l' =>
      lift (heat_line1 b) (fun l1 => Print l1 (
      lift (heat_line2 b) (fun l2 => Print l2 (
      lift (mode_line VALUE_HEAT_STATE b) (fun l3 => Print l3 (
      lift (mode_line VALUE_HEAT_MODE b) (fun l4 => Print l4 (
      Print (text "--------------------------") (print_heat_loop l' k)))))))))
  end.
Definition print_heat (k : prog) : prog :=
  read (fun d => items (soft (get_data false [DEVICE_BODY] d))) (fun l => print_heat_loop l k).

(** cli.py:740-746 print_dashboard *)
Definition stars : line := text "**************************".
Definition print_dashboard (verbose discovered : bool) (k : prog) : prog :=
  print_gateway verbose discovered (Print stars (print_heat (Print stars (print_circuits (Print stars k))))).

(** cli.py:677-757: connect and do it *)
Definition fin (r : Z) : prog := Call (Api.Disconnect false) (Return r).
Definition main (verbose discovered : bool) (now : datetime) (x : connect_args) (c : cmd) : prog :=
  Call (Connect x)
  (Call Update
  (Look (fun w =>
   if negb (din DEVICE_CONTROLLER (w_data w)) then Return 1
   else match c with
        | Export => export_data
        | Dashboard => print_dashboard verbose discovered (fin 0)
        | _ => (if verbose then print_gateway verbose discovered else fun k => k) (action verbose now c fin)
        end))).

(** cli.py:650-667: what 'discover' prints for each host *)
Definition host_item (k : string) (h : dict) : res pv := item (KS k) (VDict h).
Definition host_line (verbose : bool) (h : dict) : res line :=
  rbind (host_item "name" h) (fun name => rbind (host_item "ip" h) (fun ip => rbind (host_item "port" h) (fun port =>
  Ok (Printed (if verbose then [T (u "'"); V name; T (u "' at "); V ip; T (u ":"); V port]
               else [V ip; T (u ":"); V port; T (u " '"); V name; T (u "'")]))))).
Fixpoint list_hosts (verbose : bool) (hs : list dict) : prog :=
  match hs with
  | [] => Return 0
  | h :: hs' => lift (host_line verbose h) (fun l => Print l (list_hosts verbose hs'))
  end.

(** async_connect with a host found by discovery as its keyword arguments, cli.py:677 *)
Definition args_of_host (h : dict) : connect_args :=
  let str k := match dget (KS k) h with Some (VStr s) => Some s | _ => None end in
  let num k := match dget (KS k) h with Some (VInt z) => Some z | _ => None end in
  mkArgs (str "ip") (num "port") (num "gtype") (num "gsubtype") (str "name") None.
Definition args_of_options (o : options) : connect_args := mkArgs (o_ip o) (Some (o_port o)) None None None None.

(** cli.py:639-677; [found] is what async_discover returned *)
Definition no_ip (o : options) : bool := match o_ip o with None | Some [] => true | _ => false end.
Definition program (o : options) (now : datetime) (found : res (list dict)) (c : cmd) : prog :=
  if no_ip o then
    lift found (fun hosts =>
    match hosts with
    | [] => Print (text "No ScreenLogic gateways found.") (Return 1)
    | h :: _ =>
        match c with
        | Discover => (if o_verbose o then Print (text "Discovered:") else fun k => k) (list_hosts (o_verbose o) hosts)
        | _ => main (o_verbose o) true now (args_of_host h) c
        end
    end)
  else main (o_verbose o) false now (args_of_options o) c.

(** ScreenLogicException, const/common.py:20-67 *)
Definition is_sl (e : exn) : bool := is_comm_error e || match e with ESLError => true | _ => false end.

(** What a run did: what it printed, what discovery did, what the gateway did, how it ended. *)
Record result := mkResult {
  r_out : list line; r_net : list dev; r_trace : trace; r_world : world; r_end : out Z }.

(** cli.py:34-761.  [w] is the new gateway, [nw] the network during discovery. *)
Definition cli (n : nat) (nw : net) (now : datetime) (o : options) (c : cmd) (w : world) : result :=
  let '(dv, found) := if no_ip o then async_discover nw else ([], Ok []) in
  let '(ls, (t, w', e)) := run n (program o now found c) w in
  match e with
  | Exc x => if is_sl x then mkResult (ls ++ [Printed [Err_ x]]) dv t w' (Val (-1)) else mkResult ls dv t w' e
  | _ => mkResult ls dv t w' e
  end.
