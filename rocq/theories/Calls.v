(** A uniform view of the nine decoders, for statements about histories of messages
    (C36, C39, C42).  requests/status.py:25, config.py:29, chemistry.py:31, pump.py:32,
    scg.py:26, gateway.py:20, datetime.py:26, lights.py:26, equipment.py:20. *)
From Verif Require Import Py F64 Utf Decode.

(** [py_float] is Python's float() on text and [host] the clock of the host: both are inputs. *)
Inductive call :=
| DStatus (buff : bytes)
| DConfig (buff : bytes)
| DChem (buff : bytes)
| DPump (idx : Z) (buff : bytes)
| DScg (buff : bytes)
| DVersion (py_float : pystr -> option spec_float) (buff : bytes)
| DDate (host : spec_float) (buff : bytes)
| DColor (buff : bytes)
| DEquip (buff : bytes).

Definition run_decoder (c : call) : DM unit :=
  match c with
  | DStatus b => decode_pool_status b
  | DConfig b => decode_pool_config b
  | DChem b => decode_chemistry b
  | DPump i b => decode_pump_status b i
  | DScg b => decode_scg_config b
  | DVersion fl b => decode_version fl b
  | DDate h b => decode_date_time h b
  | DColor b => decode_color_update b
  | DEquip b => decode_equipment_config b
  end.

(** the top-level sections a message may touch *)
Definition sections (c : call) : list key :=
  match c with
  | DStatus _ => [KS "controller"; KS "body"; KS "circuit"]
  | DConfig _ => [KS "controller"; KS "circuit"; KS "pump"]
  | DChem _ => [KS "intellichem"]
  | DPump _ _ => [KS "pump"]
  | DScg _ => [KS "scg"]
  | DVersion _ _ => [KS "adapter"]
  | DDate _ _ | DColor _ => [KS "controller"]
  | DEquip _ => [KS "equipment"]
  end.

(** the data after a history of messages, decoding errors being ignored by the caller *)
Fixpoint history (l : list call) (d : dict) : dict :=
  match l with [] => d | c :: r => history r (fst (run_decoder c d)) end.
