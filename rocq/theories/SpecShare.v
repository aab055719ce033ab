(** Vocabulary of Prop_Share.v: a connection that stays up and answers. *)
From Verif Require Import Py F64 Struct Utf Utility Const Spec Enum Decode Messages Calls World Request Gateway Traces Paths Api Pool SpecPool.

(** the codes whose answer carries nothing *)
Definition commands : list Z := [12530; 12528; 12538; 12556; 12576; 12594; 8112; 12522; 12524; 16].
(** a proper answer to the request [X] *)
Definition right_answer (X : Z) (k : kind) : Prop := exists b, k = KReply (X + 1) b /\ (In X commands -> b = []).
(** [c] is the connection of the gateway and of its client manager, it is up and nobody is
    closing it; the gateway's max_retries is in its range *)
Definition healthy (c : nat) (w : world) : Prop :=
  w_proto w = Some c /\ m_proto (w_cm w) = Some c /\ connected c w = true /\ c_closing (get_conn c w) = false /\ c_open (get_conn c w) = true /\
  1 <= w_retries w <= 5 /\ (c < List.length (w_conns w))%nat.

(** the last thing task [i] did was to send a request [X] and to wait for its answer *)
Definition asked_last (i : nat) (g : log) (X : Z) : Prop := exists t c p ms, own i g = t ++ [Send c X p; AwaitReply c ms].
(** the event is one of a connection [c] that stays up and answers; nobody disconnects *)
Definition serves (c : nat) (P : pool) (e : event) : Prop :=
  match e with
  | Call (Disconnect _) => False
  | Resume i k _ => forall X, asked_last i (p_log P) X -> right_answer X k
  | Lose c' => c' <> c
  | _ => True
  end.
