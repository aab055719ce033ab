(** What it means that two runs differ in the host's clock only, for Prop_Clock.v. *)
From Verif Require Import Py World Traces.

(** the same answer at another time of the host's clock *)
Definition retimed (r r' : resp) : Prop := r_kind r' = r_kind r /\ r_lost r' = r_lost r /\ r_data r' = r_data r.
Definition same_ev (e e' : ev) : Prop :=
  match e, e' with
  | Got r, Got r' => retimed r r'
  | _, _ => e' = e
  end.
(** [w'] is [w] at another time, with an adapter that says the same at other times *)
Definition other_time (w w' : world) : Prop :=
  exists x e, Forall2 retimed (w_env w) e /\ w' = set_env e (set_clock x w).

(** two dictionaries that differ at most in the value at a path of keys *)
Inductive but_for : list key -> dict -> dict -> Prop :=
| bf_same p d : but_for p d d
| bf_here k v v' l r : but_for [k] (l ++ (k, v) :: r) (l ++ (k, v') :: r)
| bf_in k p d d' l r : but_for p d d' -> but_for (k :: p) (l ++ (k, VDict d) :: r) (l ++ (k, VDict d') :: r).
(** where the time at which the host got the adapter's time is kept *)
Definition host_time : list key := [KS "controller"; KS "date_time"; KS "timestamp_host"].
(** the same as [other_time], but for the host time in the decoded data *)
Definition other_time_data (w w' : world) : Prop :=
  exists x e d, Forall2 retimed (w_env w) e /\ but_for host_time (w_data w) d /\ w' = set_env e (set_clock x (set_data d w)).
