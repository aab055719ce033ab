(** Small specification vocabulary over traces (World.v [ev]), used by Prop_Request.v and
    Prop_Gateway.v.  It mentions only the trace and the environment's responses. *)
From Verif Require Import Py World.

(** messages written, in order *)
Definition sends (t : trace) : list (nat * Z * bytes) :=
  flat_map (fun e => match e with Send c code p => [(c, code, p)] | _ => [] end) t.
(** messages written with a given code *)
Definition sends_of (code : Z) (t : trace) : list (nat * bytes) :=
  flat_map (fun e => match e with Send c k p => if k =? code then [(c, p)] else [] | _ => [] end) t.
(** sleeps and waits for replies, in milliseconds *)
Definition sleeps (t : trace) : list Z :=
  flat_map (fun e => match e with Sleep ms => [ms] | _ => [] end) t.
Definition reply_waits (t : trace) : list Z :=
  flat_map (fun e => match e with AwaitReply _ ms => [ms] | _ => [] end) t.
(** connections the task tried to open *)
Definition opens (t : trace) : list (option pystr * Z) :=
  flat_map (fun e => match e with Open ip port _ => [(ip, port)] | _ => [] end) t.
Definition total (l : list Z) : Z := fold_right Z.add 0 l.

(** the trace says only that connections were lost *)
Definition only_losses (t : trace) : Prop :=
  Forall (fun e => match e with Lost _ | Callback _ => True | _ => False end) t.

(** the reply a response carries, also one that came together with the timeout *)
Definition answer_of (r : resp) : option (Z * bytes) :=
  match r_kind r with KReply c b | KTimeoutReply c b => Some (c, b) | _ => None end.

(** the responses to the waits for replies, one per attempt that got one, in order *)
Fixpoint replies (t : trace) : list resp :=
  match t with
  | [] => []
  | e :: t' =>
      match e, t' with
      | AwaitReply _ _, Got r :: _ => r :: replies t'
      | _, _ => replies t'
      end
  end.
(** the responses to the sleeps *)
Fixpoint wakes (t : trace) : list resp :=
  match t with
  | [] => []
  | e :: t' =>
      match e, t' with
      | Sleep _, Got r :: _ => r :: wakes t'
      | _, _ => wakes t'
      end
  end.

(** how a response to an attempt for [code] counts as a failed attempt *)
Inductive failure (code : Z) (r : resp) : exn -> Prop :=
| F_timeout : r_kind r = KTimeout -> failure code r ESLConnection
| F_invalid b : answer_of r = Some (30, b) -> code + 1 <> 30 -> failure code r ESLRequest
| F_bad b : answer_of r = Some (31, b) -> code + 1 <> 31 -> failure code r ESLRequest
| F_other k b : answer_of r = Some (k, b) -> k <> code + 1 -> k <> 13 -> k <> 30 -> k <> 31 ->
    failure code r ESLResponse.

Lemma sends_app a b : sends (a ++ b) = sends a ++ sends b.
Proof. apply flat_map_app. Qed.
Lemma sends_of_app k a b : sends_of k (a ++ b) = sends_of k a ++ sends_of k b.
Proof. apply flat_map_app. Qed.
Lemma sleeps_app a b : sleeps (a ++ b) = sleeps a ++ sleeps b.
Proof. apply flat_map_app. Qed.
Lemma reply_waits_app a b : reply_waits (a ++ b) = reply_waits a ++ reply_waits b.
Proof. apply flat_map_app. Qed.
Lemma opens_app a b : opens (a ++ b) = opens a ++ opens b.
Proof. apply flat_map_app. Qed.

(** no message is sent before a sleep has passed since the previous one *)
Fixpoint spaced (ready : bool) (t : trace) : Prop :=
  match t with
  | [] => True
  | Send _ _ _ :: t' => ready = true /\ spaced false t'
  | Sleep _ :: t' => spaced true t'
  | _ :: t' => spaced ready t'
  end.
