(** C134: what discovery found can be connected to. *)
From Verif Require Import Py F64 Struct Utf Utility Const Spec Enum Decode Messages World Request Gateway Traces Paths Api Tasks Pool SpecPool SpecWhere P_Base.
From Verif Require Import SpecParse SpecDiscovery Discovery P_Discovery P_Where.
From Verif Require Cli P_Cli2 Hostile Prop_Discovery.
From Verif Require Import Prop_Pool Prop_Where.

Lemma found_in bs hs h : found bs hs -> In h hs -> exists a b, In b bs /\ announces a /\ datagram a b /\ describes h a.
Proof.
  intros F. induction F as [|a b h0 bs hs A D De F IH|b bs hs N F IH]; intros J; [destruct J| |].
  - destruct J as [<-|J]; [exists a, b; cbn; auto|]. destruct (IH J) as (a' & b' & J' & R). exists a', b'. split; [right; exact J'|exact R].
  - destruct (IH J) as (a' & b' & J' & R). exists a', b'. split; [right; exact J'|exact R].
Qed.
Lemma dotted_full s a b c d : dotted s a b c d -> s <> [].
Proof. intros (sa & sb & sc & sd & _ & _ & _ & _ & ->) E. destruct sa; discriminate E. Qed.

(** C134. *)
Theorem C134_connects nw t hosts h n id mr rnd hst es P : async_discover nw = (t, Ok hosts) -> Forall wf_bytes (net_in nw) -> In h hosts ->
  ran (S n) id mr rnd hst es = Some P -> is_connected (p_world P) = false ->
  let P' := pstep (S n) P (Pool.Call (Connect (Cli.args_of_host h))) in
  exists a b x y z w ip name, In b (net_in nw) /\ announces a /\ datagram a b /\
    an_ip a = (x, y, z, w) /\ dotted ip x y z w /\ stripped (an_name a) name /\
    place (p_world P') = (Some ip, an_port a, an_type a, an_subtype a, name) /\
    p_log P' = p_log P ++ [Started (List.length (p_tasks P)) (Connect (Cli.args_of_host h)) (w_data (p_world P)); By (List.length (p_tasks P)) (Open (Some ip) (an_port a) 2000)].
Proof.
  intros D W J R U. cbv zeta. destruct (found_in _ _ _ (Prop_Discovery.C79_discover _ _ _ W D) J) as (a & b & Jb & A & Dg & De).
  pose proof De as De0. unfold describes in De. destruct (an_ip a) as [[[x y] z] w] eqn:Ip. destruct De as (ip & name & Dt & Sn & E).
  exists a, b, x, y, z, w, ip, name. split; [exact Jb|]. split; [exact A|]. split; [exact Dg|]. split; [exact Ip|]. split; [exact Dt|]. split; [exact Sn|].
  assert (Ar : Cli.args_of_host h = mkArgs (Some ip) (Some (an_port a)) (Some (an_type a)) (Some (an_subtype a)) (Some name) None) by (rewrite E; reflexivity).
  rewrite Ar. pose proof (dotted_full _ _ _ _ _ Dt) as NE. split.
  - rewrite (C133_place n id mr rnd hst es P _ R). rewrite U. unfold moved. destruct (place (p_world P)) as [[[[? ?] ?] ?] ?]. reflexivity.
  - cbn [pstep]. cbn [tperform]. rewrite connect_opens.
    change (advance (tbind (tbind (tget is_connected) (fun up : bool => if up then tret true else tbind (tdo (store_args (mkArgs (Some ip) (Some (an_port a)) (Some (an_type a)) (Some (an_subtype a)) (Some name) None))) (fun _ => opening n))) (fun _ => tret tt)) (p_world P))
      with (advance (tbind (if is_connected (p_world P) then tret true else tbind (tdo (store_args (mkArgs (Some ip) (Some (an_port a)) (Some (an_type a)) (Some (an_subtype a)) (Some name) None))) (fun _ => opening n)) (fun _ => tret tt)) (p_world P)).
    rewrite U. cbn [tdo tbind tret advance]. unfold opening. cbn [tget tbind advance].
    set (w1 := store_args _ _). assert (N : no_address w1 = false) by (unfold w1, no_address; cbn; destruct ip; [destruct (NE eq_refl)|reflexivity]).
    rewrite N. reflexivity.
Qed.
Print Assumptions C134_connects.

(** the datagram that says "Pentair: 00-1A-2Bé at 192.168.0.7:80", among others, and a new gateway *)
Definition heard_two : net := {| net_open := None; net_send := None; net_in := [[1; 2]; Prop_Discovery.dg1; [9; 0; 0; 0]]; net_cancelled := false |}.
Lemma heard_hosts : exists t h, async_discover heard_two = (t, Ok [h]) /\
  Cli.args_of_host h = mkArgs (Some (u "192.168.0.7")) (Some 80) (Some 2) (Some 12) (Some (u "Pentair: 00-1A-2B" ++ [233])) None.
Proof. do 2 eexists. split; vm_compute; reflexivity. Qed.
Example C134_nonvacuous : exists t h P, async_discover heard_two = (t, Ok [h]) /\ Forall wf_bytes (net_in heard_two) /\
  ran 2 (Some 777) None 0 Hostile.its_host [] = Some P /\ is_connected (p_world P) = false /\
  p_log (pstep 2 P (Pool.Call (Connect (Cli.args_of_host h)))) = [Started 0 (Connect (Cli.args_of_host h)) []; By 0 (Open (Some (u "192.168.0.7")) 80 2000)].
Proof.
  destruct heard_hosts as (t & h & D & Ar). assert (K : option_map (fun P => (is_connected (p_world P), p_log (pstep 2 P (Pool.Call (Connect (Cli.args_of_host h)))))) (ran 2 (Some 777) None 0 Hostile.its_host []) =
    Some (false, [Started 0 (Connect (Cli.args_of_host h)) []; By 0 (Open (Some (u "192.168.0.7")) 80 2000)])) by (rewrite Ar; vm_compute; reflexivity).
  destruct (ran 2 (Some 777) None 0 Hostile.its_host []) as [P|]; [|discriminate K]. cbn [option_map] in K. exists t, h, P. split; [exact D|]. split; [|repeat split; congruence].
  unfold heard_two, Prop_Discovery.dg1, wf_bytes, is_byte. cbn [net_in]. vm_compute u. cbn [app].
  repeat (constructor; [repeat (constructor; [Lia.lia|]); constructor|]). constructor.
Qed.
