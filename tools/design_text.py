how("C01-C03", "Utility.v; the frames are described in Spec.v by explicit little-endian layout; equalities by lemmas on byte lists, C03 by induction on the list of frames.")
how("C04-C05", "Protocol.v `data_received`; induction over the list of chunks, with the buffer as the unconsumed suffix of the stream.")
how("C06-C07", "Utf.v, Utility.v; round trips by induction on code points / UTF-16 units; padding by arithmetic mod 4.")
how("C08", "Utility.v encodeMessageTime/decodeMessageTime against the calendar; arithmetic.")
how("C09-C10", "Utility.v getArray/getSome; induction on the array; exact acceptance sets of every struct format used.")
how("C11-C16", "Request.v: the retry loop is a fixpoint over the attempts left, run against an arbitrary script of adapter behaviour (World.v); induction on attempts.")
how("C17-C22", "Protocol.v as an event machine (calls, bytes, cancellations, timers, loss, in any order) with a ghost history of every future; invariants by induction over event lists (P_Proto1-4).")
how("C23-C26", "As C17; keepalive by refinement to `time since last send` (P_Proto4, P_Proto5).")
how("C27-C35", "Decode.v, a state-and-exception monad over the ordered dict tree. Messages.v gives the wire format as records and an encoder, Meaning.v the entries they must produce; theorem: decoding the encoding over every well-shaped prior tree stores exactly the meaning.")
how("C36", "Every run of a decoder is a list of dictionary operations (P_Shape, P_Trace) whose paths start with the section's key.")
how("C37", "Reads beyond the end fail; a run on a prefix agrees with the run on the whole up to the first failing read (P_Trunc).")
how("C38-C39", "Runs as lists of operations; replaying operations on their own result (P_Idem).")
how("C40-C41", "Decode.v; case analysis on the guard, frame lemma for the rest.")
how("C42", "The shape invariant is kept by every message, accepted or not (Shape.v, P_Shape); witnesses for the two kinds that can be wedged.")
how("C43-C45", "Gateway.v get_data; `Paths.v` describes path lookup as a relation; induction over the path.")
how("C46-C51", "Gateway.v setters over World.v; what is sent on every run (closure framework P_Sat/P_Gw1), when a call is refused with no effect, and the undisturbed run.")
how("C52", "F64.v (binary64 on SpecFloat): int(x*100) of a float read as n/100 is n, for the whole range, by error bounds and a finite check inside the proof (P_Ph, P_Float).")
how("C53-C55", "As C46; date/time through Struct/time model, float timestamps in P_Stamp.")
how("C56", "Gateway state invariant over all histories of API calls (Api.v `session`).")
how("C57", "The trace of one command on every script: at most two rounds, second round only after a reconnect (P_Gw8, P_Gw9).")
how("C58-C62", "Gateway.v async_connect on every script; closure framework for all API calls (P_Gw6, P_Gw7, P_Gw12).")
how("C63", "Recursion of async_connect bounded by granted connections; fuel irrelevance (P_Gw10); adversarial adapter as a script family (Hostile.v, P_Hostile).")
how("C64-C65", "async_update/async_get_pumps: traces related to a list of expected queries (Api.v).")
how("C66", "Debug entries as a fold over the accepted answers of the history (P_Gw13-16).")
how("C67 C69-C71 C74 C89-C90", "Client.v: client.py as interleaved task steps with the asyncio.Lock, listener table, handlers of each connection; invariants over all event lists (P_Client1-8).")
how("C68 C72-C73", "client.py as run by one task inside Gateway.v (P_Cm, P_Cm2, P_Cm3).")
how("C75-C77", "Data.v: collections and JSON at tree level (str keys, lists for tuples, repr/literal text for bytes); structural induction with a nested-list principle.")
how("C78-C79 C88", "Discovery.v: datagrams in, hosts out, for every list of datagrams and errors.")
how("C80-C83", "Enum.v; enumerations by their tables, ranges by a comparison theory of Python numbers incl. floats (P_Num), models by exhaustive tables inside a proof for all integers.")
how("C84", "Request.v create_login_message against Spec.v layout; then the decoder on the result.")
how("C85-C86 C91-C98", "Cli.v: a run of the command line against every script; SpecCli.v says which API calls a command stands for and what it prints; simulation of the run by those calls (P_Cli1-5).")
how("C87", "Protocol.v; counting callback events over histories.")
how("C99-C105", "Tasks.v: the same coroutines as trees of steps; Pool.v: the event loop over any number of them, any schedule, any answers; a rely/guarantee logic (P_Pool) with two instances (P_Pool2-4); P_Moves lists every atomic change any call makes, P_Disc follows one disconnect through a schedule. `task_is_call` proves that a task run alone is the call of Gateway.v.")
how("C106-C107", "As C99; who holds the lock is read off the tasks themselves by a typing of task trees (P_Lock: outside / inside the lock / registration message just sent), kept by every step of every schedule.")
how("C110", "An abstraction of the event machine of Client.v to the registration flag, the current connection and each connection (up, timer) pair (P_KeepAlive.step_view: every event either leaves it alone or makes one of five changes), and an invariant over all histories.")
how("C111", "P_Share: a logic for one task that assumes the connection healthy and each wait ended by a proper answer (steady/talks, and deals for what was sent together with how the call ended), proved for every call by composition; then an invariant of the pool along every schedule that serves the connection. Vocabulary in SpecShare.")
how("C108-C109", "The requests of Request.v composed as in login.py (get_mac_address) and client.py (Ping.async_ping), in World.v; proved from C11/C12 and the run relation of make_request (P_Request) by inversion of the monad.")
how("C112-C114", "Net.v: the pool of Pool.v over one Protocol.v machine per connection; the log interleaves what calls do, what protocol objects do and the bytes that arrive. P_Net1: a task sends at most one message per go and then waits for its answer; P_Net2-3: what one event does to one link; P_Net4-5: the invariant (links reachable, their logs and bytes those of the net log, slots of waiting tasks, answers are exchanges), kept by every event. Vocabulary in SpecNet.")
how("C115", "P_Net6: see C118-C119.")
how("C118-C119", "P_Net6: after the cleanup task of a lost connection nothing current is pending, and that stays; P_Net8: the same for a forced close (Protocol.v: step_closing, force_close) and for waits whose timer expired; `answers`: a waiting call whose future is not pending is resumed by NResume.")
how("C116", "P_Net7: every prefix of the log has its pushes among the frames that answered nothing (`backed`), links have no handlers of their own (`bare`), one delivery pushes the subscribed ones (`shoves_log`). No invariant of the calls is needed.")
how("C117", "C113 counts the frames, C101_greeting_first and C101_greeted (new clauses of the invariant of P_Pool2: nobody has used a new connection, the first two messages come from the one who greeted) order them.")
how("C120", "SpecTerm.v: infinite schedules; P_Term: no task gets stuck while connections are left (sturdy, by structural induction over every coroutine), every step leads to a smaller task (well-founded order on task trees, product order on pools), so a fair schedule comes to rest; at rest every task is over or queued. P_Each: the same for a single task, whose history is a path through its own tree (P_Path), whatever the others do.")
how("C121", "P_Dead: every coroutine is followed with the place of its task (outside the lock, inside, inside and not registered, inside after a new connection); inside without a new connection it never asks for the lock again; the other tasks keep is_client false meanwhile (rely/guarantee). With C120 the schedule comes to rest with the lock free. C121_each: a lock held for ever has one holder (handed), which comes to rest and so is over or waits for the lock, both excluded.")

how("C122", "Asks.v writes down the eight messages with literal numbers and names the coroutine of each; by induction on the runs of the request loop (P_Request.lrun) the trace holds only that message, the data at the end are the pushed data, and the decoder runs once on the last reply.")
how("C123", "P_Path.v: what one task did along a schedule is a path through its tree; the trees of the ping and of the removal are followed to the end; the effect of the unsubscribe function is computed.")
how("C124", "SpecTime.v: the bound. P_Timer.v: every coroutine gets a budget (dear/costs, by structural induction over its tree), opening a connection refunds the price of the login; along a path (P_Path) what was spent and what is left never exceed the budget. The non-vacuity example reaches the bound exactly.")
how("C125", "The log has an entry for the arrival of a pushed message (Pushed) and one for its handler's run (Applied); the invariant that the messages of the second kind are a prefix of those of the first holds at every prefix of the log (turn_prefix). C125_served counts runs of the loop. C125_wire adds C116_came.")
how("C126", "P_Tune's walk over all calls with the relation `same listeners`: after its first step no call changes the table; then induction over the events (subscribed_now).")
how("C127", "P_Hand: a weakest-precondition style logic for tasks (wpc) whose invariant V says the handler of a subscribed code is on the client manager's connection unless a remove-client went out there; proved for every call (kp_*), the removal of all handlers being followed by that message before anybody else runs; then along every schedule, and joined with C125 (order) and C126 (who is told).")
how("C128", "Prop_Wired: every step on the wire is a list of steps of Pool.v with the same calls and handler runs (nstep_pool, plays), so C127 applies to the run of calls inside the run on the wire; C116 gives what the bytes complete; the turn of each message is found by C125/C126 and carried back to the wire (plays_at).")
how("C129", "Net.v logs the run of a handler of the user (Own). P_Net7: what one delivery logs is the `dealt` of each message that answers nothing, so the runs are those of the handler table before it. P_Own: a logic for tasks as in P_Hand with the invariant that no task of a run without Subscribe removes or overwrites the handler of the code; Prop_Own puts the two together and refutes the general claim by a run.")
how("C130", "SpecAnswer.v: the first message taken with an id. P_Answer: an invariant of one protocol object (Protocol.v): the future of a request whose id was not reused is pending as long as no message with its id was taken since, done with the first one, and cancelled only when nothing is taken any more. P_Answer2 carries it through Net.v for every future some task waits for without a timeout or cancellation.")

how("C131", "SpecPrompt.v: the queries. P_Prompt: by the shape of the task of a call, wherever it sends its message it waits for the answer, and with it one step leads to the end; P_Path and P_Prompt: what a task did is a path through the task of its call. C130 gives that the answer is what it goes on with.")
how("C132", "SpecKeep.v, SpecBye.v: one exchange, closing a connection. P_Bye: a path through a sequence of tasks is a path through the first and, when it returned, one through the second; the first is the task of async_unsubscribe_gateway (C123), the second only closes.")
how("C133", "SpecWhere.v: the address and name of a world and what connect's arguments make of them. P_Where: a predicate on tasks - from any world the others may leave, no step up to the next wait changes address or name, and a wait that opens a connection is for the address of that world - shown for every coroutine of Tasks.v; the one exception is the first step of async_connect. The MAC address is a part of the pool invariant of P_Pool2 and P_Pool3: the connection in use is one on which some task was answered 15 to its challenge with that string and 28 to a login.")
how("C134", "C79 (what async_discover returns describes announcing datagrams, in order) composed with the pool model of C133: the host's five entries become the arguments of Connect, and the first step of that task stores them and waits for the connection to the stored address and port.")
how("C135", "A relation 'slower' between the effects of a run in which every message is answered at once, the script of what the waits bring when answers come late, and the effects then (SpecSlow.v). A property of coroutines, closed under the combinators of the monad: on the script of the slower run the coroutine does the slower effects, ends alike and in the same world. Base case: induction over the failed tries of one message against request_loop; the traces of complete coroutines can be cut apart because none ends in a message or a wait. Then each coroutine of Gateway.v in turn, async_connect by induction on its fuel.")
how("C136", "The closure property of C135 carried over to the command line programs of Cli.v: each construct (print, call, pause, look at the gateway's attributes) keeps it, because no attribute it reads depends on what the adapter is going to say; then every command's program.")
how("C137", "A two-run closure property in the style of C135: a run in which every message is answered at once is repeated, in a state that differs in the retry setting and the client manager's copy of it only, with the same trace and result; shown for each construct, one message (any two non-negative limits), each coroutine and each call. The late answers then come from C135 in the changed state.")
how("C138", "A bisimulation: states that differ in the clock only, and scripts of answers that differ in their times only, stay so under every construct of the model, hence every coroutine and call; where the date and time answer is decoded the two dictionaries part at one path, shown for the nested update of Py.v, and nothing reads the data after that within the call.")
how("C139", "A bisimulation in the style of C138 between states that differ in the client manager's id only; the programs differ where the id is read, and there the two payloads pack to the same length, so that the message is built in both runs or in neither.")
HEAD = r'''
# Design of the formal model of screenlogicpy

Generated by `tools/design.py` from `properties.jsonl`, `MANIFEST.json` and `tools/design_text.py`.
Coq files are in `rocq/theories`; everything a reader needs to judge a theorem is in the model files, the
specification files and the `Prop_*.v` files. `P_*.v` files hold proofs only.

## Model

| file | code modelled |
|---|---|
| Py.v | Python values (int, str as code points, bytes, list, tuple, ordered dict, float, enum members), exceptions as values, truth, equality |
| F64.v | binary64 arithmetic used by the code, on `Coq.Floats.SpecFloat` (no axioms) |
| Struct.v, Utf.v | `struct.pack/unpack(_from)` for the formats used; `str.encode` / `bytes.decode` strict, UTF-8 and UTF-16 |
| Utility.v | requests/utility.py, const/msg.py |
| Const.v, Enum.v | const/*.py, device_const/*.py (tables generated by tools/gen_const.py), SLIntEnum, SLValueRange, system.py, chemistry balance |
| Decode.v | the decoders of requests/{status,chemistry,config,pump,scg,gateway,datetime,lights,equipment}.py |
| Protocol.v | requests/protocol.py as an event machine: calls, received chunks, cancellations, timers, loss, in any order |
| World.v | the world of one gateway (connections, data, debug, clock, lock) and the coroutine monad: every wait consumes one step of an arbitrary script |
| Request.v | requests/request.py, login.py, ping.py, client requests, the async_request_* coroutines |
| Gateway.v | gateway.py; client.py as run by one task |
| Client.v | client.py under all schedules of its tasks, the application's callbacks and the push messages |
| Net.v | Pool.v over Protocol.v: bytes in, futures resolved, tasks resumed |
| Tasks.v, Pool.v | the coroutines of Request.v/Gateway.v as trees of steps, and the event loop running any number of them |
| Data.v, Discovery.v, Cli.v | data.py, discovery.py, cli.py |
| Fixtures.v, Const.v checks | the recorded responses of /repo/tests/data are decoded by the model and compared with what the repository recorded (validation, not theorems) |

Specification vocabulary, written without the model's helpers: Spec.v (byte layouts), Messages.v and Meaning.v (messages
and what they mean), Shape.v (the shape of the data), Paths.v (paths in the data), SpecEnum.v, SpecParse.v (names and numbers),
Calls.v (histories of messages), Traces.v (what can be read off a trace), Api.v (the public calls as data, histories of
calls), Hostile.v (an adapter), SpecDiscovery.v, SpecData.v, SpecCli.v, SpecPool.v, SpecNet.v.

Each property theorem has a short proof, `Print Assumptions` under it and an `Example Cxx_nonvacuous` (or a witness in
a `_refuted` theorem) that meets its hypotheses on a concrete non-trivial case.
'''
TAIL = r'''
## Trusted base

* Coq 8.16.1's kernel, including its VM (`vm_compute` is used in examples, in `_refuted` theorems and in finite checks inside proofs).
* `Print Assumptions` answers "Closed under the global context" for every property theorem: no axiom is used, neither our own
  nor the standard library's. (vcheck's list of library axioms shows only the parameters of module types of `Coq.ssr.ssrunder`, which
  is loaded and not used.)
* The reading of the Python code into Gallina: each definition cites file and lines and says what was simplified.
* CPython's semantics as written down in Py.v, Struct.v, Utf.v, F64.v; asyncio's as written down in Protocol.v (futures, cancellation,
  callbacks), World.v (what an await may end with), Client.v and Pool.v (tasks are switched only at awaits that wait; a lock goes
  to a waiter when released). Pool.v over-approximates: the lock may go to any waiter and answers come in any order.

## Not modelled

* logging, exception message texts (exceptions are identified by class), memory and time limits, recursion limits.
* wall-clock time: timeouts are events that may come at any point; the order of timers is not fixed.
* `validation.py`: it cannot be imported (it imports names `const/__init__.py` does not export) and nothing uses it.
* argparse itself (Cli.v starts from the parsed options; what argparse refuses is an input) and the column layout of printed text.
* JSON text (CPython's json module): Data.v works on the tree it reads and writes.
* sockets and the event loop implementation; DNS.
* Pool.v and Net.v: callbacks of subscriptions that raise, subscribe or unsubscribe (they are Client.v); Pool.v has no ids on the wire (Net.v has). The keepalive ping and the task that unregisters the client are calls (Ping, Unregister) that may start at any moment: more runs than the program has (Client.v says when the program starts them).

## Findings in the code

Each is shown by a theorem or can be read off one; they were found while modelling.

* Two overlapping calls on a disconnected gateway open two connections; the first is forgotten and never closed (C104).
* Subscribing can deadlock: a failing add-client request reconnects while the client manager's lock is held (C68). A failed
  add-client leaves the listener in place and its unsubscribe function is never returned (C90). Subscribing between the last
  unsubscribe and the start of its task loses the registration (C71). A callback that unsubscribes itself (C74) or raises (C89) stops the
  others. Subscribing the same callback twice shares one entry (C69).
* `remove_all_async_message_callbacks` also drops handlers registered by the user on unsubscribe and reconnect.
* A failed login leaves its transport open and unreferenced (C61); before the first connect a failed connect ends in AttributeError
  (C62); `async_connect` recurses without bound against an adapter that drops the connection at the right moment (C63); the
  connection-closed callback is lost on reconnect (C60); a connect that reconnects inside re-attaches twice.
* Cancelling a request is swallowed and returns None (C16); polls return silently when their request was cancelled; cancelling a
  graceful close cancels all requests and swallows the cancellation; cancelling a task that awaits the close suppresses the closed callback (C87);
  a graceful close discards the replies it waits for (C23).
* A late reply to a timed-out request is treated as an unsolicited message; a request pending for 32767 further requests is orphaned (C18).
  `await_send_message` with an out-of-range code leaves a pending future behind.
* Truncated messages are applied partially (C38); a truncated configuration makes later status messages fail (C42); pump messages fail after
  a status with unknown circuits (C42); more than two bodies are misread (C27); circuit ids are signed in one message and unsigned in another;
  `UNKNOWN(offset)` keys depend on absolute offsets; decode errors surface as struct.error; array counts are not bounded.
* Out-of-range super-chlorinate values are sent as Off (C53); setting only auto-DST shifts the controller's clock by the host's UTC offset (C55);
  `encodeMessageTime` drops seconds (C08); `set_max_retries(2.5)` is accepted and fails later.
* get_debug's version entry becomes None on an empty reply (C66).
* Importing a collection `eval`s text from the file; negative circuit ids do not round trip (C76); pump responses are renumbered and empty
  responses dropped (C75).
* CLI: heat state shown with the heat mode's names (C85); auto-DST never sent (C86); `discover --ip` fails after connecting (C96); connection left
  open by `export`, by errors and when there is no controller data (C95); ValueError escapes.
* `BALANCE.from_saturation(NaN)` is Scaling (C83); `PUMP_TYPE.title` has a replace that never matches; discovery leaks its socket when the endpoint
  cannot be created (C88 says when it is closed).
'''
