(** The data requests of requests/{gateway,config,status,chemistry,scg,pump,datetime,
    equipment}.py as a caller uses them directly, with a protocol and a data dictionary: what
    each one asks, written down with literal numbers, and which decoder its answer goes to.
    Vocabulary of Prop_Asks.v (C122). *)
From Verif Require Import Py F64 Utf Const Decode World Request Traces Calls.

(** the eight requests for data; a pump is asked for by its index *)
Inductive question :=
| AskVersion | AskConfig | AskStatus | AskChemistry | AskScg | AskPump (i : Z) | AskDate | AskEquipment.

(** the coroutine: gateway.py:8-15, config.py:12-22, status.py:19-26, chemistry.py:26-33,
    scg.py:13-20, pump.py:11-18, datetime.py:12-19, equipment.py:9-16 *)
Definition run_question (q : question) (max_retries : Z) (c : nat) : M (option bytes) :=
  match q with
  | AskVersion => request_gateway_version max_retries c
  | AskConfig => request_pool_config max_retries c
  | AskStatus => request_pool_status max_retries c
  | AskChemistry => request_chemistry max_retries c
  | AskScg => request_scg_config max_retries c
  | AskPump i => request_pump_status i max_retries c
  | AskDate => request_date_time max_retries c
  | AskEquipment => request_equipment_config max_retries c
  end.

(** four bytes, least significant first *)
Definition four (z : Z) : bytes := [z mod 256; z / 256 mod 256; z / 65536 mod 256; z / 16777216 mod 256].
(** the message: its code (const/msg.py) and its payload *)
Definition asked (q : question) : Z * bytes :=
  match q with
  | AskVersion => (8120, [])
  | AskConfig => (12532, [0; 0; 0; 0; 0; 0; 0; 0])
  | AskStatus => (12526, [0; 0; 0; 0])
  | AskChemistry => (12592, [0; 0; 0; 0])
  | AskScg => (12572, [0; 0; 0; 0])
  | AskPump i => (12584, [0; 0; 0; 0] ++ four i)
  | AskDate => (8110, [])
  | AskEquipment => (12566, [0; 0; 0; 0; 0; 0; 0; 0])
  end.
(** a pump index that fits the message *)
Definition askable (q : question) : Prop := match q with AskPump i => 0 <= i < 4294967296 | _ => True end.
(** the message to decode, in the vocabulary of Calls.v *)
Definition reading_of (q : question) (fl : pystr -> option spec_float) (clock : spec_float) (b : bytes) : call :=
  match q with
  | AskVersion => DVersion fl b
  | AskConfig => DConfig b
  | AskStatus => DStatus b
  | AskChemistry => DChem b
  | AskScg => DScg b
  | AskPump i => DPump i b
  | AskDate => DDate clock b
  | AskEquipment => DEquip b
  end.
(** the data dictionary after what the adapter pushed while the request waited (World.v
    [r_data]): the request itself wrote nothing *)
Fixpoint pushed_data (d : dict) (t : trace) : dict :=
  match t with
  | [] => d
  | Got r :: t' => pushed_data (match r_data r with Some d' => d' | None => d end) t'
  | _ :: t' => pushed_data d t'
  end.
(** a trace that touches only connection [c], and there only sends messages and waits *)
Definition only_asks (c : nat) (t : trace) : Prop :=
  Forall (fun e => match e with
                   | Send c' _ _ | AwaitReply c' _ => c' = c
                   | Sleep _ | Got _ | Lost _ | Callback _ => True
                   | _ => False
                   end) t.
