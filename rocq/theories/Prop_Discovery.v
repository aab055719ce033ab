(** C78, C79, C88: discovery of protocol adapters.  Vocabulary: SpecDiscovery.v. *)
From Verif Require Import Py F64 Struct Utf Utility Spec SpecParse SpecDiscovery Discovery P_Discovery.

(** C78: what an adapter announces is what the application gets, *)
Theorem C78_decodes a b : announces a -> datagram a b ->
  exists h, process_discovery_response b = Ok h /\ describes h a.
Proof. apply process_valid. Qed.
Print Assumptions C78_decodes.
(** nothing but an announcement is accepted, *)
Theorem C78_only b h : wf_bytes b -> process_discovery_response b = Ok h ->
  exists a, announces a /\ datagram a b /\ describes h a.
Proof. apply process_only_valid. Qed.
Print Assumptions C78_only.
(** another check word raises ScreenLogicError whatever follows it, *)
Theorem C78_check_word w rest : is_u32 w -> w <> 2 ->
  process_discovery_response (u32le w ++ rest) = Err ESLError.
Proof. apply process_check. Qed.
Print Assumptions C78_check_word.
(** a datagram too short for the fixed part raises struct.error (unless its check word is wrong), *)
Theorem C78_short b : zlen b < 12 ->
  (zlen b < 4 \/ exists rest, b = u32le 2 ++ rest) ->
  process_discovery_response b = Err EStruct.
Proof.
  intros L [H|(r & ->)]; [apply process_short, H|]. apply process_truncated.
  unfold zlen in *. rewrite app_length in L. change (List.length (u32le 2)) with 4%nat in L. Lia.lia.
Qed.
Print Assumptions C78_short.
(** and one whose name is not UTF-8 raises UnicodeDecodeError; nothing else is ever raised. *)
Theorem C78_bad_name x y z t port ty sub n : is_u16 port -> wf_bytes n ->
  (~ exists s, Forall scalar s /\ utf8_encode s = Ok n) ->
  process_discovery_response (u32le 2 ++ [x; y; z; t] ++ u16le port ++ [ty; sub] ++ n) = Err EUnicodeDecode.
Proof.
  intros P W N. rewrite process_full by assumption. destruct (utf8_decode n) as [s|e] eqn:E.
  - exfalso. apply N. exists s. exact (utf8_decode_inv _ n s (le_n _) W E).
  - cbn [rbind]. rewrite (utf8_decode_exn _ n e (le_n _) E). reflexivity.
Qed.
Print Assumptions C78_bad_name.
Theorem C78_exceptions b e : wf_bytes b -> process_discovery_response b = Err e ->
  e = EStruct \/ e = ESLError \/ e = EUnicodeDecode.
Proof. apply process_exn. Qed.
Print Assumptions C78_exceptions.

(** Pentair: 00-1A-2B at 192.168.0.7:80 *)
Definition an1 : announcement :=
  {| an_ip := (192, 168, 0, 7); an_port := 80; an_type := 2; an_subtype := 12;
     an_name := u "Pentair: 00-1A-2B" ++ [233; 0; 0; 0] |}.
Definition dg1 : bytes :=
  [2;0;0;0; 192;168;0;7; 80;0; 2;12] ++ u "Pentair: 00-1A-2B" ++ [195; 169; 0; 0; 0].
Example C78_nonvacuous :
  announces an1 /\ datagram an1 dg1
  /\ process_discovery_response dg1
     = Ok [(KS "ip", VStr (u "192.168.0.7")); (KS "port", VInt 80); (KS "gtype", VInt 2);
           (KS "gsubtype", VInt 12); (KS "name", VStr (u "Pentair: 00-1A-2B" ++ [233]))]
  /\ process_discovery_response (firstn 11 dg1) = Err EStruct
  /\ process_discovery_response (1 :: tl dg1) = Err ESLError
  /\ process_discovery_response (dg1 ++ [255]) = Err EUnicodeDecode.
Proof.
  split; [|split; [|vm_compute; repeat split; reflexivity]].
  - unfold announces, an1, is_byte, is_u16; cbn [an_ip an_port an_type an_subtype an_name].
    repeat (split; [Lia.lia|]). unfold scalar. vm_compute u. cbn [app].
    repeat (constructor; [Lia.lia|]). constructor.
  - eexists; split; vm_compute; reflexivity.
Qed.

(** C79: whatever datagrams arrive, the host list describes the discovery responses among them,
    in order of arrival, and nothing else *)
Theorem C79_hosts bs hosts : Forall wf_bytes bs ->
  exists new, fold_left datagram_received bs hosts = hosts ++ new /\ found bs new.
Proof. intros W. exact (fold_found bs W hosts). Qed.
Print Assumptions C79_hosts.
(** and that is what async_discover returns when it is not interrupted *)
Theorem C79_discover n t hosts : Forall wf_bytes (net_in n) ->
  async_discover n = (t, Ok hosts) -> found (net_in n) hosts.
Proof.
  intros W. unfold async_discover. destruct (net_open n); [discriminate|]. destruct (net_send n); [discriminate|].
  destruct (net_cancelled n); [discriminate|]. intros H; injection H as <- <-.
  destruct (fold_found _ W []) as (hs & -> & F). exact F.
Qed.
Print Assumptions C79_discover.
(** a bad datagram never makes it fail *)
Theorem C79_total n : net_open n = None -> net_send n = None -> net_cancelled n = false ->
  exists t hosts, async_discover n = (t, Ok hosts).
Proof. intros A B C. unfold async_discover. rewrite A, B, C. eauto. Qed.
Print Assumptions C79_total.
Example C79_nonvacuous :
  let n := {| net_open := None; net_send := None; net_in := [[1; 2]; dg1; dg1 ++ [200]; [9;0;0;0]; dg1]; net_cancelled := false |} in
  Forall wf_bytes (net_in n) /\ exists t h, async_discover n = (t, Ok [h; h]).
Proof.
  split.
  - unfold dg1, wf_bytes, is_byte. cbn [net_in]. vm_compute u. cbn [app].
    repeat (constructor; [repeat (constructor; [Lia.lia|]); constructor|]). constructor.
  - vm_compute. eauto.
Qed.

(** C88: discovery broadcasts its eight-byte question exactly once, to port 1444, and closes its
    socket however it ends. *)
Theorem C88_socket n :
  let t := fst (async_discover n) in
  (net_open n <> None -> t = [])
  /\ (net_open n = None ->
      exists mid, t = DOpened :: DSent [1; 0; 0; 0; 0; 0; 0; 0] (u "255.255.255.255") 1444 :: mid ++ [DClosed]
        /\ (mid = [] \/ mid = [DSlept 1])).
Proof.
  unfold async_discover. destruct (net_open n); cbn [fst]; split; intros H; try congruence.
  destruct (net_send n); cbn [fst].
  - exists []. auto.
  - exists [DSlept 1]. destruct (net_cancelled n); cbn [fst]; auto.
Qed.
Print Assumptions C88_socket.
Example C88_nonvacuous :
  fst (async_discover {| net_open := None; net_send := Some ERuntime; net_in := []; net_cancelled := false |})
  = [DOpened; DSent [1; 0; 0; 0; 0; 0; 0; 0] (u "255.255.255.255") 1444; DClosed].
Proof. vm_compute. reflexivity. Qed.
