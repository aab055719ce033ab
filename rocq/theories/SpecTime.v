(** Vocabulary of Prop_Time.v: how long a call can keep its caller waiting. Times in milliseconds. *)
From Verif Require Import Py World Api.

(** the timers a call starts: a wait for an answer, a pause, an attempt to open a connection *)
Definition timer (e : ev) : Z :=
  match e with AwaitReply _ ms | Sleep ms | Open _ _ ms => ms | _ => 0 end.
Definition timers (t : trace) : Z := fold_right (fun e s => timer e + s) 0 t.

(** one question with [r] retries: r + 1 waits of two seconds, pauses of 1, 2, ..., r seconds *)
Definition question (r : Z) : Z := 2000 * (r + 1) + 500 * (r * (r + 1)).
(** a question, or a vain attempt to connect; if that failed a disconnect, which may tell the
    adapter that the client leaves, a pause, and the same again *)
Definition command (r pause : Z) : Z := 2 * question r + 2000 + pause.
(** by call, as long as it opens no connection *)
Definition longest (r : Z) (c : api_call) : Z :=
  match c with
  | Connect _ => 2000
  | Disconnect _ | Unregister | Ping => 2000
  | GetConfig | GetStatus | GetChemistry | GetScg | GetDatetime => command r 1000
  | GetPumps => 8 * command r 1000
  | Update => 12 * command r 1000
  | SetCircuit _ _ | SetHeatTemp _ _ | SetHeatMode _ _ | SetColorLights _ | SetScgConfig _ _ _ _ | SetChemData _ _ _ _ _ _
  | SetDateTime _ _ | SynchronizeDateTime _ | SendMessage _ _ | Subscribe _ _ => command r 0
  | SetMaxRetries _ | RegisterHandler _ _ | RemoveHandler _ | Unsubscribe _ _ => 0
  end.
(** and for each connection it opens: opening it, a pause, the challenge, the login, the version,
    the configuration and, if there are subscriptions, the registration *)
Definition connecting (r : Z) : Z := 2000 + 250 + 3 * question r + command r 1000 + command r 0.
