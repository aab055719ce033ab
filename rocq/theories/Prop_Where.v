(** C133: the address, the name and the MAC address of a gateway. *)
From Verif Require Import Py F64 Struct Utf Utility Const Spec Enum Decode Messages World Request Gateway Traces Paths Api Tasks Pool SpecPool SpecWhere P_Base.
From Verif Require Import P_Pool P_Pool2 P_Where.
From Verif Require P_Tune Prop_Decode Hostile.
From Verif Require Import Prop_Pool.

Lemma start_rest w : rest (start w). Proof. intros t []. Qed.
Lemma ran_rest n id mr rnd h es P : ran (S n) id mr rnd h es = Some P -> rest P.
Proof. unfold ran. destruct (new_gateway id mr rnd [] h) as [w|]; [|discriminate]. intros E. injection E as <-. apply rest_run, start_rest. Qed.

(** C133.  Address and name are what the last async_connect on an unconnected gateway made of them;
    nothing else changes them, whatever calls overlap. *)
Theorem C133_place n id mr rnd h es P e : ran (S n) id mr rnd h es = Some P ->
  place (p_world (pstep (S n) P e)) =
    match e with
    | Pool.Call (Connect x) => if is_connected (p_world P) then place (p_world P) else moved x (place (p_world P))
    | _ => place (p_world P)
    end.
Proof. intros R. apply (where_step n P e (ran_rest _ _ _ _ _ _ _ R)). Qed.
Print Assumptions C133_place.
Theorem C133_fresh n id mr rnd h P : ran n id mr rnd h [] = Some P ->
  place (p_world P) = (None, 80, 0, 0, u "Unnamed-Screenlogic-Gateway") /\ a_mac (w_addr (p_world P)) = [].
Proof. unfold ran, new_gateway. destruct (_ && _); [|discriminate]. intros E. injection E as <-. split; reflexivity. Qed.
Print Assumptions C133_fresh.
(** Every connection is opened to the address the gateway has when it is opened, and there is one. *)
Theorem C133_dialled n id mr rnd h es P e : ran (S n) id mr rnd h es = Some P ->
  exists x, p_log (pstep (S n) P e) = p_log P ++ x /\
    forall i ip port ms, In (By i (Open ip port ms)) x ->
      ip = a_ip (w_addr (p_world (pstep (S n) P e))) /\ port = a_port (w_addr (p_world (pstep (S n) P e))) /\ ip <> None /\ ip <> Some [].
Proof. intros R. apply (where_step n P e (ran_rest _ _ _ _ _ _ _ R)). Qed.
Print Assumptions C133_dialled.
(** The MAC address is the one the adapter gave on the connection in use, on which the login was accepted. *)
Theorem C133_mac n id mr rnd h es P c : ran n id mr rnd h es = Some P -> w_proto (p_world P) = Some c ->
  accepted c (p_log P) /\
  exists i t1 ms r b t2, own i (p_log P) = t1 ++ Send c 14 [] :: AwaitReply c ms :: Got r :: t2 /\
    answer_of r = Some (15, b) /\ decodeMessageString b = Ok (a_mac (w_addr (p_world P))).
Proof. intros R E. destruct (ran_inv _ _ _ _ _ _ _ R) as (I & _). exact (I_proto _ _ _ _ _ I c E). Qed.
Print Assumptions C133_mac.
(** ... and there is none before the first login. *)
Definition unnamed (w : world) : Prop := w_proto w = None -> a_mac (w_addr w) = [].
Lemma unnamed_closed C : P_Tune.closed C (P_Tune.thru unnamed).
Proof.
  unfold P_Tune.thru, unnamed.
  constructor; [constructor|..]; intros; try assumption; try (match goal with K : w_proto _ = None -> _ |- _ => apply K; assumption end).
  - revert H H0. generalize (map fst (m_listeners (w_cm w))) as l. intros l. revert w. induction l as [|x l IH]; intros w H H0; [apply H; exact H0|].
    cbn [fold_left] in H0 |- *. apply IH; [|exact H0]. exact H.
  - unfold lose in *. destruct (connected c w); [destruct (w_cb w)|]; apply H; assumption.
  - discriminate.
  - unfold pumps_entry in *. destruct (din _ _); apply H; assumption.
  - unfold store_pump in *. destruct (dget _ _) as [[]|]; apply H; assumption.
Qed.
Theorem C133_no_mac n id mr rnd h es P : ran n id mr rnd h es = Some P -> w_proto (p_world P) = None -> a_mac (w_addr (p_world P)) = [].
Proof.
  intros R. assert (T : P_Tune.tuned (fun _ => unnamed) P); [|apply T].
  unfold ran, new_gateway in R. destruct (_ && _); [|discriminate R]. injection R as <-.
  apply P_Tune.tuned_run; [intros C C' w _ H; exact H|exact unnamed_closed|]. apply P_Tune.tuned_start; [intros C C' w _ H; exact H|]. intros _. reflexivity.
Qed.
Print Assumptions C133_no_mac.

(** two overlapping connects, the second with a new port and name and to an adapter that gives
    another MAC address *)
Definition next_door : connect_args := mkArgs None (Some 81) None None (Some (u "next door")) None.
Definition other_mac : bytes := u32le 5 ++ u "other" ++ [0; 0; 0].
Definition login_there (i : nat) : list Pool.event :=
  [done i; done i; reply i 15 other_mac; reply i 28 []; reply i 8121 Hostile.version_reply; reply i 12533 (Messages.wire_config Prop_Decode.some_config)].
Definition moving : list Pool.event := [Pool.Call (Connect Hostile.to_adapter); Pool.Call (Connect next_door)] ++ login_of 0 ++ login_there 1.
Definition opens (g : Pool.log) : list (nat * option pystr * Z) := flat_map (fun x => match x with By i (Open ip port _) => [(i, ip, port)] | _ => [] end) g.
Lemma moved_there : option_map (fun P => (place (p_world P), a_mac (w_addr (p_world P)), w_proto (p_world P), opens (p_log P))) (ran 2 (Some 777) None 0 Hostile.its_host moving) =
  Some (Some (u "10.0.0.9"), 81, 0, 0, u "next door", u "other", Some 1%nat, [(0%nat, Some (u "10.0.0.9"), 80); (1%nat, Some (u "10.0.0.9"), 81)]).
Proof. vm_compute. reflexivity. Qed.
Lemma half_there : option_map (fun P => (a_mac (w_addr (p_world P)), w_proto (p_world P), is_connected (p_world P))) (ran 2 (Some 777) None 0 Hostile.its_host ([Pool.Call (Connect Hostile.to_adapter); Pool.Call (Connect next_door)] ++ login_of 0)) =
  Some (u "mac!", Some 0%nat, true).
Proof. vm_compute. reflexivity. Qed.
Example C133_nonvacuous : exists P, ran 2 (Some 777) None 0 Hostile.its_host moving = Some P /\ w_proto (p_world P) = Some 1%nat /\ a_mac (w_addr (p_world P)) = u "other" /\
  is_connected (p_world P) = true /\ place (p_world P) = (Some (u "10.0.0.9"), 81, 0, 0, u "next door") /\
  opens (p_log P) = [(0%nat, Some (u "10.0.0.9"), 80); (1%nat, Some (u "10.0.0.9"), 81)].
Proof.
  assert (K : option_map (fun P => is_connected (p_world P)) (ran 2 (Some 777) None 0 Hostile.its_host moving) = Some true) by (vm_compute; reflexivity).
  pose proof moved_there as M. destruct (ran 2 (Some 777) None 0 Hostile.its_host moving) as [P|]; [|discriminate M]. cbn [option_map] in M, K. exists P.
  repeat split; congruence.
Qed.
