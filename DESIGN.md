# Design of the formal model of screenlogicpy

Generated by `tools/design.py` from `properties.jsonl`, `MANIFEST.json` and `tools/design_text.py`.
Coq files are in `rocq/theories`; everything a reader needs to judge a theorem is in the model files, the
specification files and the `Prop_*.v` files. `P_*.v` files hold proofs only.

## Model

| file | code modelled |
|---|---|
| Py.v | Python values (int, str as code points, bytes, list, tuple, ordered dict, float, enum members), exceptions as values, truth, equality |
| F64.v | binary64 arithmetic used by the code, on `Coq.Floats.SpecFloat` (no axioms) |
| Struct.v, Utf.v | `struct.pack/unpack(_from)` for the formats used; `str.encode` / `bytes.decode` strict, UTF-8 and UTF-16 |
| Utility.v | requests/utility.py, const/msg.py |
| Const.v, Enum.v | const/*.py, device_const/*.py (tables generated by tools/gen_const.py), SLIntEnum, SLValueRange, system.py, chemistry balance |
| Decode.v | the decoders of requests/{status,chemistry,config,pump,scg,gateway,datetime,lights,equipment}.py |
| Protocol.v | requests/protocol.py as an event machine: calls, received chunks, cancellations, timers, loss, in any order |
| World.v | the world of one gateway (connections, data, debug, clock, lock) and the coroutine monad: every wait consumes one step of an arbitrary script |
| Request.v | requests/request.py, login.py, ping.py, client requests, the async_request_* coroutines |
| Gateway.v | gateway.py; client.py as run by one task |
| Client.v | client.py under all schedules of its tasks, the application's callbacks and the push messages |
| Net.v | Pool.v over Protocol.v: bytes in, futures resolved, tasks resumed |
| Tasks.v, Pool.v | the coroutines of Request.v/Gateway.v as trees of steps, and the event loop running any number of them |
| Data.v, Discovery.v, Cli.v | data.py, discovery.py, cli.py |
| Fixtures.v, Const.v checks | the recorded responses of /repo/tests/data are decoded by the model and compared with what the repository recorded (validation, not theorems) |

Specification vocabulary, written without the model's helpers: Spec.v (byte layouts), Messages.v and Meaning.v (messages
and what they mean), Shape.v (the shape of the data), Paths.v (paths in the data), SpecEnum.v, SpecParse.v (names and numbers),
Calls.v (histories of messages), Traces.v (what can be read off a trace), Api.v (the public calls as data, histories of
calls), Hostile.v (an adapter), SpecDiscovery.v, SpecData.v, SpecCli.v, SpecPool.v, SpecNet.v.

Each property theorem has a short proof, `Print Assumptions` under it and an `Example Cxx_nonvacuous` (or a witness in
a `_refuted` theorem) that meets its hypotheses on a concrete non-trivial case.

## Properties

| id | property | status | theorems in | what is modelled, and how it is proved |
|---|---|---|---|---|
| C01 | makeMessage/takeMessage round trip and layout | proved | Prop_Wire.v | Utility.v; the frames are described in Spec.v by explicit little-endian layout; equalities by lemmas on byte lists, C03 by induction on the list of frames. |
| C02 | takeMessage accepts exactly the well-formed frames | proved | Prop_Wire.v | Utility.v; the frames are described in Spec.v by explicit little-endian layout; equalities by lemmas on byte lists, C03 by induction on the list of frames. |
| C03 | takeMessages splits a concatenation of frames and never returns a partial list | proved | Prop_Wire.v | Utility.v; the frames are described in Spec.v by explicit little-endian layout; equalities by lemmas on byte lists, C03 by induction on the list of frames. |
| C04 | Stream reassembly does not depend on packetisation | proved | Prop_Protocol.v | Protocol.v `data_received`; induction over the list of chunks, with the buffer as the unconsumed suffix of the stream. |
| C05 | Stream reassembly loses, duplicates and reorders nothing | proved | Prop_Protocol.v | Protocol.v `data_received`; induction over the list of chunks, with the buffer as the unconsumed suffix of the stream. |
| C06 | Message strings round trip (UTF-8 and UTF-16) | proved | Prop_Wire.v | Utf.v, Utility.v; round trips by induction on code points / UTF-16 units; padding by arithmetic mod 4. |
| C07 | A string field is read back with its padding consumed | proved | Prop_Wire.v | Utf.v, Utility.v; round trips by induction on code points / UTF-16 units; padding by arithmetic mod 4. |
| C08 | Time encoding | proved | Prop_Wire.v | Utility.v encodeMessageTime/decodeMessageTime against the calendar; arithmetic. |
| C09 | Array field is read back with its padding consumed | proved | Prop_Wire.v | Utility.v getArray/getSome; induction on the array; exact acceptance sets of every struct format used. |
| C10 | Field reads are bounds-checked and exact | proved | Prop_Wire.v | Utility.v getArray/getSome; induction on the array; exact acceptance sets of every struct format used. |
| C11 | A request returns data only from a matching answer | proved | Prop_Request.v | Request.v: the retry loop is a fixpoint over the attempts left, run against an arbitrary script of adapter behaviour (World.v); induction on attempts. |
| C12 | Retries are bounded and spaced | proved | Prop_Request.v | Request.v: the retry loop is a fixpoint over the attempts left, run against an arbitrary script of adapter behaviour (World.v); induction on attempts. |
| C13 | A rejected login is not retried | proved | Prop_Request.v | Request.v: the retry loop is a fixpoint over the attempts left, run against an arbitrary script of adapter behaviour (World.v); induction on attempts. |
| C14 | The final error names the last failure | proved | Prop_Request.v | Request.v: the retry loop is a fixpoint over the attempts left, run against an arbitrary script of adapter behaviour (World.v); induction on attempts. |
| C15 | No request is sent without a connection | proved | Prop_Request.v | Request.v: the retry loop is a fixpoint over the attempts left, run against an arbitrary script of adapter behaviour (World.v); induction on attempts. |
| C16 | Cancelling the caller of a request propagates | partial | Prop_Request.v | Request.v: the retry loop is a fixpoint over the attempts left, run against an arbitrary script of adapter behaviour (World.v); induction on attempts. |
| C17 | Message IDs stay in the lower half and do not collide | proved | Prop_Protocol.v | Protocol.v as an event machine (calls, bytes, cancellations, timers, loss, in any order) with a ghost history of every future; invariants by induction over event lists (P_Proto1-4). |
| C18 | Replies reach the request they answer, once | proved | Prop_Protocol.v | Protocol.v as an event machine (calls, bytes, cancellations, timers, loss, in any order) with a ghost history of every future; invariants by induction over event lists (P_Proto1-4). |
| C19 | Adapter-initiated messages never complete a request | proved | Prop_Protocol.v | Protocol.v as an event machine (calls, bytes, cancellations, timers, loss, in any order) with a ghost history of every future; invariants by induction over event lists (P_Proto1-4). |
| C20 | Unsolicited messages are dispatched exactly once | proved | Prop_Protocol.v | Protocol.v as an event machine (calls, bytes, cancellations, timers, loss, in any order) with a ghost history of every future; invariants by induction over event lists (P_Proto1-4). |
| C21 | A closing connection neither sends nor delivers | proved | Prop_Protocol.v | Protocol.v as an event machine (calls, bytes, cancellations, timers, loss, in any order) with a ghost history of every future; invariants by induction over event lists (P_Proto1-4). |
| C22 | A forced close cancels every outstanding request | proved | Prop_Protocol.v | Protocol.v as an event machine (calls, bytes, cancellations, timers, loss, in any order) with a ghost history of every future; invariants by induction over event lists (P_Proto1-4). |
| C23 | A graceful close waits for outstanding requests and lets their replies in | partial | Prop_Protocol.v | As C17; keepalive by refinement to `time since last send` (P_Proto4, P_Proto5). |
| C24 | Connection loss releases every waiter | proved | Prop_Protocol.v | As C17; keepalive by refinement to `time since last send` (P_Proto4, P_Proto5). |
| C25 | At most one keepalive timer, always measured from the last send | proved | Prop_Protocol.v | As C17; keepalive by refinement to `time since last send` (P_Proto4, P_Proto5). |
| C26 | The last registered handler wins | proved | Prop_Protocol.v | As C17; keepalive by refinement to `time since last send` (P_Proto4, P_Proto5). |
| C27 | Pool status decoding | proved | Prop_Decode.v | Decode.v, a state-and-exception monad over the ordered dict tree. Messages.v gives the wire format as records and an encoder, Meaning.v the entries they must produce; theorem: decoding the encoding over every well-shaped prior tree stores exactly the meaning. |
| C28 | Chemistry decoding | proved | Prop_Decode.v | Decode.v, a state-and-exception monad over the ordered dict tree. Messages.v gives the wire format as records and an encoder, Meaning.v the entries they must produce; theorem: decoding the encoding over every well-shaped prior tree stores exactly the meaning. |
| C29 | Configuration decoding | proved | Prop_Decode.v | Decode.v, a state-and-exception monad over the ordered dict tree. Messages.v gives the wire format as records and an encoder, Meaning.v the entries they must produce; theorem: decoding the encoding over every well-shaped prior tree stores exactly the meaning. |
| C30 | Pump decoding | proved | Prop_Decode.v | Decode.v, a state-and-exception monad over the ordered dict tree. Messages.v gives the wire format as records and an encoder, Meaning.v the entries they must produce; theorem: decoding the encoding over every well-shaped prior tree stores exactly the meaning. |
| C31 | Salt generator decoding | proved | Prop_Decode.v | Decode.v, a state-and-exception monad over the ordered dict tree. Messages.v gives the wire format as records and an encoder, Meaning.v the entries they must produce; theorem: decoding the encoding over every well-shaped prior tree stores exactly the meaning. |
| C32 | Firmware version decoding | proved | Prop_Decode.v | Decode.v, a state-and-exception monad over the ordered dict tree. Messages.v gives the wire format as records and an encoder, Meaning.v the entries they must produce; theorem: decoding the encoding over every well-shaped prior tree stores exactly the meaning. |
| C33 | Date/time decoding | proved | Prop_Decode.v | Decode.v, a state-and-exception monad over the ordered dict tree. Messages.v gives the wire format as records and an encoder, Meaning.v the entries they must produce; theorem: decoding the encoding over every well-shaped prior tree stores exactly the meaning. |
| C34 | Colour update decoding | proved | Prop_Decode.v | Decode.v, a state-and-exception monad over the ordered dict tree. Messages.v gives the wire format as records and an encoder, Meaning.v the entries they must produce; theorem: decoding the encoding over every well-shaped prior tree stores exactly the meaning. |
| C35 | Equipment configuration decoding | proved | Prop_Decode.v | Decode.v, a state-and-exception monad over the ordered dict tree. Messages.v gives the wire format as records and an encoder, Meaning.v the entries they must produce; theorem: decoding the encoding over every well-shaped prior tree stores exactly the meaning. |
| C36 | Each decoder touches only its own section | proved | Prop_Decode.v | Every run of a decoder is a list of dictionary operations (P_Shape, P_Trace) whose paths start with the section's key. |
| C37 | A truncated message is never accepted | proved | Prop_Decode.v | Reads beyond the end fail; a run on a prefix agrees with the run on the whole up to the first failing read (P_Trunc). |
| C38 | A failed decode leaves the data unchanged | partial | Prop_Decode.v | Runs as lists of operations; replaying operations on their own result (P_Idem). |
| C39 | Decoding is idempotent | proved | Prop_Decode.v | Runs as lists of operations; replaying operations on their own result (P_Idem). |
| C40 | Wild pump states are ignored | proved | Prop_Decode.v | Decode.v; case analysis on the guard, frame lemma for the rest. |
| C41 | Unknown equipment flags are masked on old firmware | proved | Prop_Decode.v | Decode.v; case analysis on the guard, frame lemma for the rest. |
| C42 | No message history wedges the decoders | partial | Prop_Decode.v | The shape invariant is kept by every message, accepted or not (Shape.v, P_Shape); witnesses for the two kinds that can be wedged. |
| C43 | get_data path semantics | proved | Prop_Gateway.v | Gateway.v get_data; `Paths.v` describes path lookup as a relation; induction over the path. |
| C44 | get_value/get_name are shortcuts | proved | Prop_Gateway.v | Gateway.v get_data; `Paths.v` describes path lookup as a relation; induction over the path. |
| C45 | strict raises exactly when the value is missing | proved | Prop_Gateway.v | Gateway.v get_data; `Paths.v` describes path lookup as a relation; induction over the path. |
| C46 | async_set_circuit only sends valid commands | proved | Prop_Gateway.v | Gateway.v setters over World.v; what is sent on every run (closure framework P_Sat/P_Gw1), when a call is refused with no effect, and the undisturbed run. |
| C47 | async_set_heat_temp respects the configured limits | proved | Prop_Gateway.v | Gateway.v setters over World.v; what is sent on every run (closure framework P_Sat/P_Gw1), when a call is refused with no effect, and the undisturbed run. |
| C48 | async_set_heat_mode only sends modes 0..4 | proved | Prop_Gateway.v | Gateway.v setters over World.v; what is sent on every run (closure framework P_Sat/P_Gw1), when a call is refused with no effect, and the undisturbed run. |
| C49 | async_set_color_lights only sends commands 0..21 | proved | Prop_Gateway.v | Gateway.v setters over World.v; what is sent on every run (closure framework P_Sat/P_Gw1), when a call is refused with no effect, and the undisturbed run. |
| C50 | async_set_scg_config only sends in-range values and keeps unspecified ones | proved | Prop_Gateway.v | Gateway.v setters over World.v; what is sent on every run (closure framework P_Sat/P_Gw1), when a call is refused with no effect, and the undisturbed run. |
| C51 | async_set_chem_data only sends in-range values and keeps unspecified ones | proved | Prop_Gateway.v | Gateway.v setters over World.v; what is sent on every run (closure framework P_Sat/P_Gw1), when a call is refused with no effect, and the undisturbed run. |
| C52 | The pH setpoint survives the float round trip | proved | Prop_Gateway.v | F64.v (binary64 on SpecFloat): int(x*100) of a float read as n/100 is n, for the whole range, by error bounds and a finite check inside the proof (P_Ph, P_Float). |
| C53 | An invalid super-chlorinate value is rejected | partial | Prop_Gateway.v | As C46; date/time through Struct/time model, float timestamps in P_Stamp. |
| C54 | async_set_date_time payload | proved | Prop_Gateway.v | As C46; date/time through Struct/time model, float timestamps in P_Stamp. |
| C55 | Setting only auto-DST keeps the controller clock | partial | Prop_Gateway.v | As C46; date/time through Struct/time model, float timestamps in P_Stamp. |
| C56 | max_retries always lies in 1..5 | proved | Prop_Connect.v | Gateway state invariant over all histories of API calls (Api.v `session`). |
| C57 | A failed command is retried once after one reconnect | proved | Prop_Connect.v | The trace of one command on every script: at most two rounds, second round only after a reconnect (P_Gw8, P_Gw9). |
| C58 | async_connect on a live connection does nothing | proved | Prop_Connect.v | Gateway.v async_connect on every script; closure framework for all API calls (P_Gw6, P_Gw7, P_Gw12). |
| C59 | No address, no I/O | proved | Prop_Connect.v | Gateway.v async_connect on every script; closure framework for all API calls (P_Gw6, P_Gw7, P_Gw12). |
| C60 | Reconnecting reuses the previous connection information | partial | Prop_Connect.v | Gateway.v async_connect on every script; closure framework for all API calls (P_Gw6, P_Gw7, P_Gw12). |
| C61 | A failed connection attempt leaves no open transport | partial | Prop_Connect.v | Gateway.v async_connect on every script; closure framework for all API calls (P_Gw6, P_Gw7, P_Gw12). |
| C62 | Communication failures surface as ScreenLogic errors | partial | Prop_Connect.v | Gateway.v async_connect on every script; closure framework for all API calls (P_Gw6, P_Gw7, P_Gw12). |
| C63 | Connecting terminates | partial | Prop_Connect.v | Recursion of async_connect bounded by granted connections; fuel irrelevance (P_Gw10); adversarial adapter as a script family (Hostile.v, P_Hostile). |
| C64 | Exactly the configured pumps are polled | proved | Prop_Connect.v | async_update/async_get_pumps: traces related to a list of expected queries (Api.v). |
| C65 | async_update polls in the documented order and stops at the first failure | proved | Prop_Connect.v | async_update/async_get_pumps: traces related to a list of expected queries (Api.v). |
| C66 | get_debug holds the last good raw response | partial | Prop_Connect.v | Debug entries as a fold over the accepted answers of the history (P_Gw13-16). |
| C67 | Client registration requests never overlap | proved | Prop_Client.v | Client.v: client.py as interleaved task steps with the asyncio.Lock, listener table, handlers of each connection; invariants over all event lists (P_Client1-8). |
| C68 | Subscribing terminates | partial | Prop_Subscribe.v | client.py as run by one task inside Gateway.v (P_Cm, P_Cm2, P_Cm3). |
| C69 | Unsubscribing removes exactly one listener, idempotently | proved | Prop_Client.v | Client.v: client.py as interleaved task steps with the asyncio.Lock, listener table, handlers of each connection; invariants over all event lists (P_Client1-8). |
| C70 | Listeners are notified after the data is updated | proved | Prop_Client.v | Client.v: client.py as interleaved task steps with the asyncio.Lock, listener table, handlers of each connection; invariants over all event lists (P_Client1-8). |
| C71 | A subscribed listener is served | partial | Prop_Client.v | Client.v: client.py as interleaved task steps with the asyncio.Lock, listener table, handlers of each connection; invariants over all event lists (P_Client1-8). |
| C72 | Reconnecting restores subscriptions | proved | Prop_Subscribe.v | client.py as run by one task inside Gateway.v (P_Cm, P_Cm2, P_Cm3). |
| C73 | Subscribing while disconnected does nothing | proved | Prop_Subscribe.v | client.py as run by one task inside Gateway.v (P_Cm, P_Cm2, P_Cm3). |
| C74 | A listener may unsubscribe itself while being notified | partial | Prop_Client.v | Client.v: client.py as interleaved task steps with the asyncio.Lock, listener table, handlers of each connection; invariants over all event lists (P_Client1-8). |
| C75 | Response collections keep the raw responses | partial | Prop_Data.v | Data.v: collections and JSON at tree level (str keys, lists for tuples, repr/literal text for bytes); structural induction with a nested-list principle. |
| C76 | Export/import round trip | partial | Prop_Data.v | Data.v: collections and JSON at tree level (str keys, lists for tuples, repr/literal text for bytes); structural induction with a nested-list principle. |
| C77 | Raw bytes survive JSON | proved | Prop_Data.v | Data.v: collections and JSON at tree level (str keys, lists for tuples, repr/literal text for bytes); structural induction with a nested-list principle. |
| C78 | Discovery response decoding | proved | Prop_Discovery.v | Discovery.v: datagrams in, hosts out, for every list of datagrams and errors. |
| C79 | Discovery ignores bad datagrams | proved | Prop_Discovery.v | Discovery.v: datagrams in, hosts out, for every list of datagrams and errors. |
| C80 | Every parsable value parses to its member | proved | Prop_Enum.v | Enum.v; enumerations by their tables, ranges by a comparison theory of Python numbers incl. floats (P_Num), models by exhaustive tables inside a proof for all integers. |
| C81 | Range checks are exact | proved | Prop_Enum.v | Enum.v; enumerations by their tables, ranges by a comparison theory of Python numbers incl. floats (P_Num), models by exhaustive tables inside a proof for all integers. |
| C82 | Controller model lookup is total | proved | Prop_Enum.v | Enum.v; enumerations by their tables, ranges by a comparison theory of Python numbers incl. floats (P_Num), models by exhaustive tables inside a proof for all integers. |
| C83 | Water balance classification partitions the line | proved | Prop_Enum.v | Enum.v; enumerations by their tables, ranges by a comparison theory of Python numbers incl. floats (P_Num), models by exhaustive tables inside a proof for all integers. |
| C84 | The login message layout | proved | Prop_Request.v | Request.v create_login_message against Spec.v layout; then the decoder on the result. |
| C85 | The CLI shows the heat state that was reported | partial | Prop_Cli.v | Cli.v: a run of the command line against every script; SpecCli.v says which API calls a command stands for and what it prints; simulation of the run by those calls (P_Cli1-5). |
| C86 | CLI auto-DST option is sent to the controller | partial | Prop_Cli.v | Cli.v: a run of the command line against every script; SpecCli.v says which API calls a command stands for and what it prints; simulation of the run by those calls (P_Cli1-5). |
| C87 | The connection-closed callback runs once per lost connection | partial | Prop_Protocol.v | Protocol.v; counting callback events over histories. |
| C88 | Discovery broadcasts once and closes its socket | proved | Prop_Discovery.v | Discovery.v: datagrams in, hosts out, for every list of datagrams and errors. |
| C89 | A failing callback does not silence the others | partial | Prop_Client.v | Client.v: client.py as interleaved task steps with the asyncio.Lock, listener table, handlers of each connection; invariants over all event lists (P_Client1-8). |
| C90 | A failed subscription leaves no listener behind | partial | Prop_Client.v | Client.v: client.py as interleaved task steps with the asyncio.Lock, listener table, handlers of each connection; invariants over all event lists (P_Client1-8). |
| C91 | Each command makes exactly its API calls | proved | Prop_Cli.v | Cli.v: a run of the command line against every script; SpecCli.v says which API calls a command stands for and what it prints; simulation of the run by those calls (P_Cli1-5). |
| C92 | The exit code tells what happened | proved | Prop_Cli.v | Cli.v: a run of the command line against every script; SpecCli.v says which API calls a command stands for and what it prints; simulation of the run by those calls (P_Cli1-5). |
| C93 | Commands that look do not write | proved | Prop_Cli.v | Cli.v: a run of the command line against every script; SpecCli.v says which API calls a command stands for and what it prints; simulation of the run by those calls (P_Cli1-5). |
| C94 | Settings are sent as typed | proved | Prop_Cli.v | Cli.v: a run of the command line against every script; SpecCli.v says which API calls a command stands for and what it prints; simulation of the run by those calls (P_Cli1-5). |
| C95 | The command line closes its connection | partial | Prop_Cli.v | Cli.v: a run of the command line against every script; SpecCli.v says which API calls a command stands for and what it prints; simulation of the run by those calls (P_Cli1-5). |
| C96 | 'discover' lists the adapters that answered | partial | Prop_Cli.v | Cli.v: a run of the command line against every script; SpecCli.v says which API calls a command stands for and what it prints; simulation of the run by those calls (P_Cli1-5). |
| C97 | Questions are answered from the data | proved | Prop_Cli.v | Cli.v: a run of the command line against every script; SpecCli.v says which API calls a command stands for and what it prints; simulation of the run by those calls (P_Cli1-5). |
| C98 | The dashboard shows every body and circuit | proved | Prop_Cli.v | Cli.v: a run of the command line against every script; SpecCli.v says which API calls a command stands for and what it prints; simulation of the run by those calls (P_Cli1-5). |
| C99 | Overlapping calls do not multiply retries | proved | Prop_Pool.v | Tasks.v: the same coroutines as trees of steps; Pool.v: the event loop over any number of them, any schedule, any answers; a rely/guarantee logic (P_Pool) with two instances (P_Pool2-4); P_Moves lists every atomic change any call makes, P_Disc follows one disconnect through a schedule. `task_is_call` proves that a task run alone is the call of Gateway.v. |
| C100 | Overlapping calls send only their own messages | proved | Prop_Pool.v | Tasks.v: the same coroutines as trees of steps; Pool.v: the event loop over any number of them, any schedule, any answers; a rely/guarantee logic (P_Pool) with two instances (P_Pool2-4); P_Moves lists every atomic change any call makes, P_Disc follows one disconnect through a schedule. `task_is_call` proves that a task run alone is the call of Gateway.v. |
| C101 | Nothing is asked before the login, whatever overlaps | proved | Prop_Pool.v | Tasks.v: the same coroutines as trees of steps; Pool.v: the event loop over any number of them, any schedule, any answers; a rely/guarantee logic (P_Pool) with two instances (P_Pool2-4); P_Moves lists every atomic change any call makes, P_Disc follows one disconnect through a schedule. `task_is_call` proves that a task run alone is the call of Gateway.v. |
| C102 | Nothing is sent or taken on a connection being closed | proved | Prop_Pool.v | Tasks.v: the same coroutines as trees of steps; Pool.v: the event loop over any number of them, any schedule, any answers; a rely/guarantee logic (P_Pool) with two instances (P_Pool2-4); P_Moves lists every atomic change any call makes, P_Disc follows one disconnect through a schedule. `task_is_call` proves that a task run alone is the call of Gateway.v. |
| C103 | The data is what was reported, whatever overlaps | proved | Prop_Pool.v | Tasks.v: the same coroutines as trees of steps; Pool.v: the event loop over any number of them, any schedule, any answers; a rely/guarantee logic (P_Pool) with two instances (P_Pool2-4); P_Moves lists every atomic change any call makes, P_Disc follows one disconnect through a schedule. `task_is_call` proves that a task run alone is the call of Gateway.v. |
| C104 | A disconnect after overlapping calls leaves nothing open | partial | Prop_Pool.v | Tasks.v: the same coroutines as trees of steps; Pool.v: the event loop over any number of them, any schedule, any answers; a rely/guarantee logic (P_Pool) with two instances (P_Pool2-4); P_Moves lists every atomic change any call makes, P_Disc follows one disconnect through a schedule. `task_is_call` proves that a task run alone is the call of Gateway.v. |
| C105 | A setting that returned was acknowledged, whatever overlaps | proved | Prop_Pool.v | Tasks.v: the same coroutines as trees of steps; Pool.v: the event loop over any number of them, any schedule, any answers; a rely/guarantee logic (P_Pool) with two instances (P_Pool2-4); P_Moves lists every atomic change any call makes, P_Disc follows one disconnect through a schedule. `task_is_call` proves that a task run alone is the call of Gateway.v. |
| C106 | Registration exchanges never overlap, whatever calls overlap | proved | Prop_Pool.v | As C99; who holds the lock is read off the tasks themselves by a typing of task trees (P_Lock: outside / inside the lock / registration message just sent), kept by every step of every schedule. |
| C107 | No finished call keeps the lock | proved | Prop_Pool.v | As C99; who holds the lock is read off the tasks themselves by a typing of task trees (P_Lock: outside / inside the lock / registration message just sent), kept by every step of every schedule. |
| C108 | Asking for the MAC address only asks | proved | Prop_Login.v | The requests of Request.v composed as in login.py (get_mac_address) and client.py (Ping.async_ping), in World.v; proved from C11/C12 and the run relation of make_request (P_Request) by inversion of the monad. |
| C109 | A keepalive ping is harmless | proved | Prop_Login.v | The requests of Request.v composed as in login.py (get_mac_address) and client.py (Ping.async_ping), in World.v; proved from C11/C12 and the run relation of make_request (P_Request) by inversion of the monad. |
| C110 | The keepalive runs exactly as long as the registration | proved | Prop_Client.v | An abstraction of the event machine of Client.v to the registration flag, the current connection and each connection (up, timer) pair (P_KeepAlive.step_view: every event either leaves it alone or makes one of five changes), and an invariant over all histories. |
| C111 | Overlapping calls share a healthy connection | proved | Prop_Share.v | P_Share: a logic for one task that assumes the connection healthy and each wait ended by a proper answer (steady/talks, and deals for what was sent together with how the call ended), proved for every call by composition; then an invariant of the pool along every schedule that serves the connection. Vocabulary in SpecShare. |
| C112 | An answer is a frame with the id of the question | proved | Prop_Net.v | Net.v: the pool of Pool.v over one Protocol.v machine per connection; the log interleaves what calls do, what protocol objects do and the bytes that arrive. P_Net1: a task sends at most one message per go and then waits for its answer; P_Net2-3: what one event does to one link; P_Net4-5: the invariant (links reachable, their logs and bytes those of the net log, slots of waiting tasks, answers are exchanges), kept by every event. Vocabulary in SpecNet. |
| C113 | Messages go out at once, in order, numbered | proved | Prop_Net.v | Net.v: the pool of Pool.v over one Protocol.v machine per connection; the log interleaves what calls do, what protocol objects do and the bytes that arrive. P_Net1: a task sends at most one message per go and then waits for its answer; P_Net2-3: what one event does to one link; P_Net4-5: the invariant (links reachable, their logs and bytes those of the net log, slots of waiting tasks, answers are exchanges), kept by every event. Vocabulary in SpecNet. |
| C114 | A setting that returned was acknowledged on the wire | proved | Prop_Net.v | Net.v: the pool of Pool.v over one Protocol.v machine per connection; the log interleaves what calls do, what protocol objects do and the bytes that arrive. P_Net1: a task sends at most one message per go and then waits for its answer; P_Net2-3: what one event does to one link; P_Net4-5: the invariant (links reachable, their logs and bytes those of the net log, slots of waiting tasks, answers are exchanges), kept by every event. Vocabulary in SpecNet. |
| C115 | A lost connection releases every waiting call | proved | Prop_Net.v | P_Net6: see C118-C119. |
| C116 | Pushed data is what came on the wire | proved | Prop_Net.v | P_Net7: every prefix of the log has its pushes among the frames that answered nothing (`backed`), links have no handlers of their own (`bare`), one delivery pushes the subscribed ones (`shoves_log`). No invariant of the calls is needed. |
| C117 | The byte stream of a connection | proved | Prop_Net.v | C113 counts the frames, C101_greeting_first and C101_greeted (new clauses of the invariant of P_Pool2: nobody has used a new connection, the first two messages come from the one who greeted) order them. |
| C118 | A forced disconnect releases every waiting call | proved | Prop_Net.v | P_Net6: after the cleanup task of a lost connection nothing current is pending, and that stays; P_Net8: the same for a forced close (Protocol.v: step_closing, force_close) and for waits whose timer expired; `answers`: a waiting call whose future is not pending is resumed by NResume. |
| C119 | No wait for an answer outlasts its timer | proved | Prop_Net.v | P_Net6: after the cleanup task of a lost connection nothing current is pending, and that stays; P_Net8: the same for a forced close (Protocol.v: step_closing, force_close) and for waits whose timer expired; `answers`: a waiting call whose future is not pending is resumed by NResume. |
| C120 | Every call ends | proved | Prop_Each.v | SpecTerm.v: infinite schedules; P_Term: no task gets stuck while connections are left (sturdy, by structural induction over every coroutine), every step leads to a smaller task (well-founded order on task trees, product order on pools), so a fair schedule comes to rest; at rest every task is over or queued. P_Each: the same for a single task, whose history is a path through its own tree (P_Path), whatever the others do. |
| C121 | The subscription lock deadlocks only across a reconnect | proved | Prop_Each.v | P_Dead: every coroutine is followed with the place of its task (outside the lock, inside, inside and not registered, inside after a new connection); inside without a new connection it never asks for the lock again; the other tasks keep is_client false meanwhile (rely/guarantee). With C120 the schedule comes to rest with the lock free. C121_each: a lock held for ever has one holder (handed), which comes to rest and so is over or waits for the lock, both excluded. |
| C122 | A data request used directly | proved | Prop_Asks.v | Asks.v writes down the eight messages with literal numbers and names the coroutine of each; by induction on the runs of the request loop (P_Request.lrun) the trace holds only that message, the data at the end are the pushed data, and the decoder runs once on the last reply. |
| C123 | What the client manager does by itself | proved | Prop_Keep.v | P_Path.v: what one task did along a schedule is a path through its tree; the trees of the ping and of the removal are followed to the end; the effect of the unsubscribe function is computed. |
| C124 | How long a call can keep its caller waiting | proved | Prop_Time.v | SpecTime.v: the bound. P_Timer.v: every coroutine gets a budget (dear/costs, by structural induction over its tree), opening a connection refunds the price of the login; along a path (P_Path) what was spent and what is left never exceed the budget. The non-vacuity example reaches the bound exactly. |
| C125 | Pushed messages wait their turn and are not lost | proved | Prop_Told.v | The log has an entry for the arrival of a pushed message (Pushed) and one for its handler's run (Applied); the invariant that the messages of the second kind are a prefix of those of the first holds at every prefix of the log (turn_prefix). C125_served counts runs of the loop. C125_wire adds C116_came. |
| C126 | Exactly the current subscribers are told | proved | Prop_Told.v | P_Tune's walk over all calls with the relation `same listeners`: after its first step no call changes the table; then induction over the events (subscribed_now). |
| C127 | A subscriber is told whatever else goes on | proved | Prop_Hand.v | P_Hand: a weakest-precondition style logic for tasks (wpc) whose invariant V says the handler of a subscribed code is on the client manager's connection unless a remove-client went out there; proved for every call (kp_*), the removal of all handlers being followed by that message before anybody else runs; then along every schedule, and joined with C125 (order) and C126 (who is told). |
| C128 | From the bytes on the wire to the subscriber | proved | Prop_Wired.v | Prop_Wired: every step on the wire is a list of steps of Pool.v with the same calls and handler runs (nstep_pool, plays), so C127 applies to the run of calls inside the run on the wire; C116 gives what the bytes complete; the turn of each message is found by C125/C126 and carried back to the wire (plays_at). |
| C129 | A handler of the user's own gets each message once | partial | Prop_Own.v | Net.v logs the run of a handler of the user (Own). P_Net7: what one delivery logs is the `dealt` of each message that answers nothing, so the runs are those of the handler table before it. P_Own: a logic for tasks as in P_Hand with the invariant that no task of a run without Subscribe removes or overwrites the handler of the code; Prop_Own puts the two together and refutes the general claim by a run. |
| C130 | An answer that came reaches the call that asked | proved | Prop_Answer.v | SpecAnswer.v: the first message taken with an id. P_Answer: an invariant of one protocol object (Protocol.v): the future of a request whose id was not reused is pending as long as no message with its id was taken since, done with the first one, and cancelled only when nothing is taken any more. P_Answer2 carries it through Net.v for every future some task waits for without a timeout or cancellation. |
| C131 | With the answer to its message a call is done | proved | Prop_Prompt.v | SpecPrompt.v: the queries. P_Prompt: by the shape of the task of a call, wherever it sends its message it waits for the answer, and with it one step leads to the end; P_Path and P_Prompt: what a task did is a path through the task of its call. C130 gives that the answer is what it goes on with. |
| C132 | A disconnect says goodbye first | proved | Prop_Bye.v | SpecKeep.v, SpecBye.v: one exchange, closing a connection. P_Bye: a path through a sequence of tasks is a path through the first and, when it returned, one through the second; the first is the task of async_unsubscribe_gateway (C123), the second only closes. |
| C133 | The address, the name and the MAC address | proved | Prop_Where.v | SpecWhere.v: the address and name of a world and what connect's arguments make of them. P_Where: a predicate on tasks - from any world the others may leave, no step up to the next wait changes address or name, and a wait that opens a connection is for the address of that world - shown for every coroutine of Tasks.v; the one exception is the first step of async_connect. The MAC address is a part of the pool invariant of P_Pool2 and P_Pool3: the connection in use is one on which some task was answered 15 to its challenge with that string and 28 to a login. |
| C134 | What discovery found can be connected to | proved | Prop_Found.v | C79 (what async_discover returns describes announcing datagrams, in order) composed with the pool model of C133: the host's five entries become the arguments of Connect, and the first step of that task stores them and waits for the connection to the stored address and port. |
| C135 | Answers that come late change nothing but the time | proved | Prop_Slow.v | A relation 'slower' between the effects of a run in which every message is answered at once, the script of what the waits bring when answers come late, and the effects then (SpecSlow.v). A property of coroutines, closed under the combinators of the monad: on the script of the slower run the coroutine does the slower effects, ends alike and in the same world. Base case: induction over the failed tries of one message against request_loop; the traces of complete coroutines can be cut apart because none ends in a message or a wait. Then each coroutine of Gateway.v in turn, async_connect by induction on its fuel. |
| C136 | The command line does not show how late the answers came | proved | Prop_SlowCli.v | The closure property of C135 carried over to the command line programs of Cli.v: each construct (print, call, pause, look at the gateway's attributes) keeps it, because no attribute it reads depends on what the adapter is going to say; then every command's program. |
| C137 | The retry setting matters only when answers are late | proved | Prop_Limit.v | A two-run closure property in the style of C135: a run in which every message is answered at once is repeated, in a state that differs in the retry setting and the client manager's copy of it only, with the same trace and result; shown for each construct, one message (any two non-negative limits), each coroutine and each call. The late answers then come from C135 in the changed state. |
| C138 | The host's clock matters to nothing but the recorded host time | proved | Prop_Clock.v | A bisimulation: states that differ in the clock only, and scripts of answers that differ in their times only, stay so under every construct of the model, hence every coroutine and call; where the date and time answer is decoded the two dictionaries part at one path, shown for the nested update of Py.v, and nothing reads the data after that within the call. |
| C139 | The client id matters to nothing but the subscription messages | proved | Prop_Id.v | A bisimulation in the style of C138 between states that differ in the client manager's id only; the programs differ where the id is read, and there the two payloads pack to the same length, so that the message is built in both runs or in neither. |

## Partial and refuted properties

A theorem whose name contains `_refuted` exhibits a run of the model, found by reading the code, in which the English claim
fails; `_partial` theorems say what holds instead.

* **C16** Refuted as stated: C16_cancel_swallowed_refuted shows a cancellation while waiting for the reply is swallowed (None returned on a live connection). Proved: cancellation in a retry pause propagates; a result-less return means cancelled or closing.
* **C23** False of the code, both halves: while closing, replies are discarded (C23_refuted_reply_lost), and one cancelled (timed-out) request in the table ends the wait at once (C23_refuted_no_wait). Proved: the wait ends only when all outstanding requests are cancelled or some older one is a cancelled one.
* **C38** False of the code: a message that ends early is applied up to where it ends (C38_atomic_refuted). Proved: a failed decode leaves all other sections untouched and the data well shaped.
* **C42** False for pump messages after a status that mentions an undescribed circuit, and for status messages after a configuration cut between a minimum and a maximum set point (refuted theorems). Proved: the other seven kinds are decoded after every history, and any configuration message makes status messages decodable again.
* **C53** False of the code: any integer other than 1 (and unknown names) is silently sent as Off (C53_invalid_rejected_refuted). Proved: what goes on the wire is always 0 or 1, and valid values go unchanged.
* **C55** False of the code in every host time zone but UTC (C55_clock_kept_refuted: host at UTC+1 moves the controller clock by one hour). Proved for hosts in UTC, all valid times 1970..2105.
* **C60** False for the connection-closed callback (C60_callback_refuted): a parameterless connect and every automatic reconnect reset it to None. Proved for address, port, type, subtype and name over all histories.
* **C61** False of the code: when the login dialogue fails after the connection was accepted, the transport stays open and is not referenced any more (C61_leak_refuted). Proved: at most one open transport per granted connection, none if none was granted.
* **C62** False of the code: before the first successful connect the reconnect logic raises AttributeError (C62_attribute_error_refuted). Proved for every gateway that once had a connection.
* **C63** False of the code: async_connect recurses through async_get_config and attach, so an adapter that drops the connection at that point keeps one call connecting for ever (C63_unbounded_refuted, for every k). Proved: depth bounded by the number of granted connections, termination for every finite script, fuel irrelevance.
* **C66** Proved for status, chemistry, chlorinator, date/time, pumps and the configuration (also when a reconnect inside another call reads it). The version entry violates the rule (C66_version_refuted).
* **C68** False of the code: when the add-client request fails, the gateway reconnects while the client manager's lock is held, and the reconnect waits for that lock (C68_refuted: a reachable state and an adapter that ignores two messages make the call hang for ever). Proved: without a reconnect the call only waits for its environment; the lock is free after every call that ended.
* **C71** False of the code (C71_served_refuted): subscribing between the last unsubscribe and the start of the task it creates ends, without any failure, with a listener on a live connection that is not registered and has no handler. Proved for tidy histories (C71_served_partial). Missing here: failed exchanges, cancelled tasks, disconnect by the user, reconnects during other calls; for those C127 shows that the handler is in place on every live connection on which the client was not signed off.
* **C74** False of the code (C74_self_unsubscribe_refuted): RuntimeError, the remaining listeners are not called. Proved: callbacks may unsubscribe listeners of other codes.
* **C75** False of the code: pump responses come back numbered from 0, so those of pumps 1 and 3 return as 0 and 1 (C75_pump_index_refuted); an empty response comes back as None. Proved: never fails, every non-empty response is returned, pump responses keep their order (and their keys when these are 0..n-1).
* **C76** False of the code: a negative circuit id, which a configuration message can carry, becomes a text key (C76_negative_circuit_refuted). Proved for every exportable collection, and for every collection built after any history of messages as long as no dictionary has a negative key. JSON text itself is CPython's and not modelled.
* **C85** False of the code: the dashboard uses the names of the heat modes (heated by the heater is shown as Solar Preferred, by both as Heater), and 'get heat-state' reads the state as off/on and raises ValueError for 2 and 3. Proved: states 0 and 1 are named right on the dashboard; what 'get heat-state' shows when it exits with 0.
* **C86** False of the code for every value: the option's text goes to the encoder as it is, which raises struct.error; nothing is ever sent.
* **C87** Fails in one corner (C87_refuted): cancelling the task that awaits async_close/async_disconnect makes connection_lost raise InvalidStateError before the callback. Proved: at most once always, exactly once if no such task is cancelled.
* **C89** False of the code: the exception ends the loop over the listeners. Proved: those reached before it were called, and nothing but the data, the log and the queue changed, so the next message reaches everybody.
* **C90** False of the code: the callback is added before the add-client request and stays when that fails; the function to remove it is never returned. Proved: nobody else's subscription changes, and subscribing again gives a function that removes it.
* **C95** False of the code for 'export' (exits with 0, connection open), for errors that are not ScreenLogic's (ValueError of an out-of-range value) and for exit codes 1 (no controller data) and -1. Proved for all other commands and the exit codes 0, 4, 65, 129.
* **C96** False of the code with --ip: it connects and then fails with AttributeError, leaving the connection open. Proved without an address.
* **C104** False of the code: two overlapping calls on a disconnected gateway both log in; the first connection is forgotten and stays open for good. Proved: a disconnect that returned has closed the connection that was the gateway's, for good, and with no other call running is_connected is False.
* **C129** Half is proved for every run: C129_once, the arriving bytes make exactly the handlers registered at that moment run, once per message, in order. The other half, that the handler stays, holds when nobody subscribes (C129_kept_partial, all calls but Subscribe) and is false otherwise (C129_refuted): async_unsubscribe_gateway, started when the last subscription of another code ends, calls remove_all_async_message_callbacks, which takes off the handlers of the user as well (client.py:214, protocol.py:192); a lost connection also loses them, which the claim allows. A message whose id is that of a waiting request is taken as its answer.

## Trusted base

* Coq 8.16.1's kernel, including its VM (`vm_compute` is used in examples, in `_refuted` theorems and in finite checks inside proofs).
* `Print Assumptions` answers "Closed under the global context" for every property theorem: no axiom is used, neither our own
  nor the standard library's. (vcheck's list of library axioms shows only the parameters of module types of `Coq.ssr.ssrunder`, which
  is loaded and not used.)
* The reading of the Python code into Gallina: each definition cites file and lines and says what was simplified.
* CPython's semantics as written down in Py.v, Struct.v, Utf.v, F64.v; asyncio's as written down in Protocol.v (futures, cancellation,
  callbacks), World.v (what an await may end with), Client.v and Pool.v (tasks are switched only at awaits that wait; a lock goes
  to a waiter when released). Pool.v over-approximates: the lock may go to any waiter and answers come in any order.

## Not modelled

* logging, exception message texts (exceptions are identified by class), memory and time limits, recursion limits.
* wall-clock time: timeouts are events that may come at any point; the order of timers is not fixed.
* `validation.py`: it cannot be imported (it imports names `const/__init__.py` does not export) and nothing uses it.
* argparse itself (Cli.v starts from the parsed options; what argparse refuses is an input) and the column layout of printed text.
* JSON text (CPython's json module): Data.v works on the tree it reads and writes.
* sockets and the event loop implementation; DNS.
* Pool.v and Net.v: callbacks of subscriptions that raise, subscribe or unsubscribe (they are Client.v); Pool.v has no ids on the wire (Net.v has). The keepalive ping and the task that unregisters the client are calls (Ping, Unregister) that may start at any moment: more runs than the program has (Client.v says when the program starts them).

## Findings in the code

Each is shown by a theorem or can be read off one; they were found while modelling.

* Two overlapping calls on a disconnected gateway open two connections; the first is forgotten and never closed (C104).
* Subscribing can deadlock: a failing add-client request reconnects while the client manager's lock is held (C68). A failed
  add-client leaves the listener in place and its unsubscribe function is never returned (C90). Subscribing between the last
  unsubscribe and the start of its task loses the registration (C71). A callback that unsubscribes itself (C74) or raises (C89) stops the
  others. Subscribing the same callback twice shares one entry (C69).
* `remove_all_async_message_callbacks` also drops handlers registered by the user on unsubscribe and reconnect.
* A failed login leaves its transport open and unreferenced (C61); before the first connect a failed connect ends in AttributeError
  (C62); `async_connect` recurses without bound against an adapter that drops the connection at the right moment (C63); the
  connection-closed callback is lost on reconnect (C60); a connect that reconnects inside re-attaches twice.
* Cancelling a request is swallowed and returns None (C16); polls return silently when their request was cancelled; cancelling a
  graceful close cancels all requests and swallows the cancellation; cancelling a task that awaits the close suppresses the closed callback (C87);
  a graceful close discards the replies it waits for (C23).
* A late reply to a timed-out request is treated as an unsolicited message; a request pending for 32767 further requests is orphaned (C18).
  `await_send_message` with an out-of-range code leaves a pending future behind.
* Truncated messages are applied partially (C38); a truncated configuration makes later status messages fail (C42); pump messages fail after
  a status with unknown circuits (C42); more than two bodies are misread (C27); circuit ids are signed in one message and unsigned in another;
  `UNKNOWN(offset)` keys depend on absolute offsets; decode errors surface as struct.error; array counts are not bounded.
* Out-of-range super-chlorinate values are sent as Off (C53); setting only auto-DST shifts the controller's clock by the host's UTC offset (C55);
  `encodeMessageTime` drops seconds (C08); `set_max_retries(2.5)` is accepted and fails later.
* get_debug's version entry becomes None on an empty reply (C66).
* Importing a collection `eval`s text from the file; negative circuit ids do not round trip (C76); pump responses are renumbered and empty
  responses dropped (C75).
* CLI: heat state shown with the heat mode's names (C85); auto-DST never sent (C86); `discover --ip` fails after connecting (C96); connection left
  open by `export`, by errors and when there is no controller data (C95); ValueError escapes.
* `BALANCE.from_saturation(NaN)` is Scaling (C83); `PUMP_TYPE.title` has a replace that never matches; discovery leaks its socket when the endpoint
  cannot be created (C88 says when it is closed).
