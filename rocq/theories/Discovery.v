(** Model of screenlogicpy/discovery.py: finding protocol adapters by UDP broadcast. *)
From Verif Require Import Py F64 Struct Utf Utility.

(** discovery.py:18-24 *)
Definition DISCOVERY_PAYLOAD : bytes := [1; 0; 0; 0; 0; 0; 0; 0].   (* struct.pack("<8b", 1, 0, ...) *)
Definition DISCOVERY_ADDRESS : pystr := u "255.255.255.255".
Definition DISCOVERY_PORT : Z := 1444.
Definition DISCOVERY_CHKSUM : Z := 2.
Definition DISCOVERY_TIMEOUT : Z := 1.                              (* seconds *)

(** discovery.py:38-71 process_discovery_response; the keys are const/common.py:13-17. *)
Definition process_discovery_response (data : bytes) : res dict :=
  rbind (getSome FI data 0) (fun '(chk, offset) =>
  if negb (chk =? DISCOVERY_CHKSUM) then Err ESLError else
  rbind (getSome FB data offset) (fun '(ip1, offset) =>
  rbind (getSome FB data offset) (fun '(ip2, offset) =>
  rbind (getSome FB data offset) (fun '(ip3, offset) =>
  rbind (getSome FB data offset) (fun '(ip4, offset) =>
  let gateway_ip := str_of_Z ip1 ++ u "." ++ str_of_Z ip2 ++ u "." ++ str_of_Z ip3 ++ u "." ++ str_of_Z ip4 in
  rbind (getSome FH data offset) (fun '(gateway_port, offset) =>
  rbind (getSome FB data offset) (fun '(gateway_type, offset) =>
  rbind (getSome FB data offset) (fun '(gateway_subtype, offset) =>
  rbind (getSomeBytes (zlen data - offset) data offset) (fun '(gateway_name, offset) =>
  rbind (utf8_decode gateway_name) (fun name =>
  Ok [(KS "ip", VStr gateway_ip);
      (KS "port", VInt gateway_port);
      (KS "gtype", VInt gateway_type);
      (KS "gsubtype", VInt gateway_subtype);
      (KS "name", VStr (strip is_nul name))])))))))))).

(** discovery.py:89-94 datagram_received: every exception is caught and only logged. *)
Definition datagram_received (hosts : list dict) (data : bytes) : list dict :=
  match process_discovery_response data with
  | Ok host => hosts ++ [host]
  | Err _ => hosts
  end.

(** What the network does while async_discover runs: [net_open] and [net_send] are the exceptions
    that creating the endpoint and sending raise, [net_in] the datagrams that arrive while the task
    sleeps, in order (from anyone), [net_cancelled] whether the sleep is ended by a cancellation. *)
Record net := { net_open : option exn; net_send : option exn;
                net_in : list bytes; net_cancelled : bool }.
(** What async_discover does to its socket. *)
Inductive dev :=
| DOpened
| DSent (payload : bytes) (address : pystr) (port : Z)
| DSlept (seconds : Z)
| DClosed.

(** discovery.py:99-112 async_discover.  asyncio's datagram transport is not modelled beyond the
    calls to it; a datagram that arrives after close() is not delivered. *)
Definition async_discover (n : net) : list dev * res (list dict) :=
  match net_open n with
  | Some e => ([], Err e)
  | None =>
      match net_send n with
      | Some e => ([DOpened; DSent DISCOVERY_PAYLOAD DISCOVERY_ADDRESS DISCOVERY_PORT; DClosed], Err e)
      | None =>
          let t := [DOpened; DSent DISCOVERY_PAYLOAD DISCOVERY_ADDRESS DISCOVERY_PORT;
                    DSlept DISCOVERY_TIMEOUT; DClosed] in
          let hosts := fold_left datagram_received (net_in n) [] in
          if net_cancelled n then (t, Err ECancelled) else (t, Ok hosts)
      end
  end.
