(** The calls that ask for a part of the pool's state: gateway.py:196-206, 225-239, the message they
    send, where the bytes of the answer are kept for get_debug(), and how the answer is read
    (the date and time against the host's clock). *)
From Verif Require Import Py F64 Struct Utf Utility Const Enum Decode Calls World Request Gateway Api.
Local Open Scope string_scope.
Inductive fetches : api_call -> Z -> key -> (spec_float -> bytes -> call) -> Prop :=
| F_status : fetches GetStatus 12526 (KS "status") (fun _ b => DStatus b)
| F_chemistry : fetches GetChemistry 12592 (KS "chemistry") (fun _ b => DChem b)
| F_scg : fetches GetScg 12572 (KS "scg") (fun _ b => DScg b)
| F_date_time : fetches GetDatetime 8110 (KS "date_time") DDate.
