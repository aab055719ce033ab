NOTES = {
"C18": "Completion needs that the request's id was not handed out again (32767 later requests while it is still pending); such an orphaned request is never completed by a wrong message either.",
"C21": "Calls of protocol.send_message by the application itself are excluded: the library only sends through requests.",
"C22": "Requests whose id was handed out again are not in the table any more and are not cancelled; the statement excludes them.",
"C23": "False of the code, both halves: while closing, replies are discarded (C23_refuted_reply_lost), and one cancelled (timed-out) request in the table ends the wait at once (C23_refuted_no_wait). Proved: the wait ends only when all outstanding requests are cancelled or some older one is a cancelled one.",
"C87": "Fails in one corner (C87_refuted): cancelling the task that awaits async_close/async_disconnect makes connection_lost raise InvalidStateError before the callback. Proved: at most once always, exactly once if no such task is cancelled.",
"C27": "Bodies: at most two (a count above two is clamped to two by the code and the rest misread). The set point limits stored earlier must be complete or absent for pool and spa (C42 shows how they can be incomplete).",
"C38": "False of the code: a message that ends early is applied up to where it ends (C38_atomic_refuted). Proved: a failed decode leaves all other sections untouched and the data well shaped.",
"C42": "False for pump messages after a status that mentions an undescribed circuit, and for status messages after a configuration cut between a minimum and a maximum set point (refuted theorems). Proved: the other seven kinds are decoded after every history, and any configuration message makes status messages decodable again.",
 "C16": "Refuted as stated: C16_cancel_swallowed_refuted shows a cancellation while waiting for the reply is swallowed (None returned on a live connection). Proved: cancellation in a retry pause propagates; a result-less return means cancelled or closing.",

"C53": "False of the code: any integer other than 1 (and unknown names) is silently sent as Off (C53_invalid_rejected_refuted). Proved: what goes on the wire is always 0 or 1, and valid values go unchanged.",
"C55": "False of the code in every host time zone but UTC (C55_clock_kept_refuted: host at UTC+1 moves the controller clock by one hour). Proved for hosts in UTC, all valid times 1970..2105.",
"C57": "Requests whose code is one of the codes of connecting (only reachable through async_send_message) are excluded, since connecting sends them too.",
"C60": "False for the connection-closed callback (C60_callback_refuted): a parameterless connect and every automatic reconnect reset it to None. Proved for address, port, type, subtype and name over all histories.",
"C61": "False of the code: when the login dialogue fails after the connection was accepted, the transport stays open and is not referenced any more (C61_leak_refuted). Proved: at most one open transport per granted connection, none if none was granted.",
"C62": "False of the code: before the first successful connect the reconnect logic raises AttributeError (C62_attribute_error_refuted). Proved for every gateway that once had a connection.",
"C63": "False of the code: async_connect recurses through async_get_config and attach, so an adapter that drops the connection at that point keeps one call connecting for ever (C63_unbounded_refuted, for every k). Proved: depth bounded by the number of granted connections, termination for every finite script, fuel irrelevance.",
"C64": "The 'exactly' direction assumes the connection stays up and no push changes the flags during the call; C64_turns covers all executions.",
"C66": "Proved for status, chemistry, chlorinator, date/time, pumps and the configuration (also when a reconnect inside another call reads it). The version entry violates the rule (C66_version_refuted).",
"C75": "False of the code: pump responses come back numbered from 0, so those of pumps 1 and 3 return as 0 and 1 (C75_pump_index_refuted); an empty response comes back as None. Proved: never fails, every non-empty response is returned, pump responses keep their order (and their keys when these are 0..n-1).",
"C76": "False of the code: a negative circuit id, which a configuration message can carry, becomes a text key (C76_negative_circuit_refuted). Proved for every exportable collection, and for every collection built after any history of messages as long as no dictionary has a negative key. JSON text itself is CPython's and not modelled.",
"C68": "False of the code: when the add-client request fails, the gateway reconnects while the client manager's lock is held, and the reconnect waits for that lock (C68_refuted: a reachable state and an adapter that ignores two messages make the call hang for ever). Proved: without a reconnect the call only waits for its environment; the lock is free after every call that ended.",
"C72": "Stated for a connect that returned True and whose connection is still up. Outside: when the add-client request of the reconnect itself fails, see C68.",
"C69": "Proved for every history. Set objects are identified by callback and code: the theorem C69_same_callback_shares shows the one case in which an old unsubscribe function is not inert, namely when the same callback is subscribed to the same code again while others listen.",
"C70": "Proved for every history and every order of the set. C70_never_otherwise holds for all callbacks; that everybody is called needs callbacks that return normally (C74, C89 are the exceptions).",
"C71": "False of the code (C71_served_refuted): subscribing between the last unsubscribe and the start of the task it creates ends, without any failure, with a listener on a live connection that is not registered and has no handler. Proved for tidy histories (C71_served_partial). Missing here: failed exchanges, cancelled tasks, disconnect by the user, reconnects during other calls; for those C127 shows that the handler is in place on every live connection on which the client was not signed off.",
"C74": "False of the code (C74_self_unsubscribe_refuted): RuntimeError, the remaining listeners are not called. Proved: callbacks may unsubscribe listeners of other codes.",
"C89": "False of the code: the exception ends the loop over the listeners. Proved: those reached before it were called, and nothing but the data, the log and the queue changed, so the next message reaches everybody.",
"C90": "False of the code: the callback is added before the add-client request and stays when that fails; the function to remove it is never returned. Proved: nobody else's subscription changes, and subscribing again gives a function that removes it.",
"C85": "False of the code: the dashboard uses the names of the heat modes (heated by the heater is shown as Solar Preferred, by both as Heater), and 'get heat-state' reads the state as off/on and raises ValueError for 2 and 3. Proved: states 0 and 1 are named right on the dashboard; what 'get heat-state' shows when it exits with 0.",
"C86": "False of the code for every value: the option's text goes to the encoder as it is, which raises struct.error; nothing is ever sent.",
"C91": "argparse's own checking of the words is an input of the model ([accepted]). 'set date-time --auto-dst' is C86, 'discover' is C96. Dates that argparse let through but datetime.fromisoformat rejects are N_bad_date.",
"C92": "As C91. -1 is every ScreenLogic error, which may come after the setting was acknowledged.",
"C95": "False of the code for 'export' (exits with 0, connection open), for errors that are not ScreenLogic's (ValueError of an out-of-range value) and for exit codes 1 (no controller data) and -1. Proved for all other commands and the exit codes 0, 4, 65, 129.",
"C96": "False of the code with --ip: it connects and then fails with AttributeError, leaving the connection open. Proved without an address.",
"C97": "'get heat-state' is C85; the confirmations of color-lights, chlorinator and chemistry commands are not covered.",
"C98": "The heat state is C85.",
"C100": "Schedules of Pool.v: the lock may go to any waiter and any answer may come at any time; which request an answer belongs to is C06-C09.",
"C101": "As C100.",
"C102": "As C100.",
"C103": "As C100. Answers to messages of async_send_message are not decoded.",
"C104": "False of the code: two overlapping calls on a disconnected gateway both log in; the first connection is forgotten and stays open for good. Proved: a disconnect that returned has closed the connection that was the gateway's, for good, and with no other call running is_connected is False.",
"C99": "As C100. Calls whose message is also one of the connection dialogue (async_get_config, raw messages with such a code) are not covered.",
"C105": "As C100.",
"C106": "As C100. Messages of async_send_message with the two codes are the caller's own business and excluded.",
"C107": "As C100. A call that hangs for ever (C68) has not ended.",
"C108": "login.py async_get_mac_address. That an error leaves the connection open is a finding, not part of the claim.",
"C110": "Event machine of Client.v; the timer of a connection is a flag set by enable_keepalive, cleared by disable_keepalive and connection_lost (its firing and re-arming are C64). Attaching a new connection drops the registration without touching the old connection: excluded in C110_given_up.",
"C129": "Half is proved for every run: C129_once, the arriving bytes make exactly the handlers registered at that moment run, once per message, in order. The other half, that the handler stays, holds when nobody subscribes (C129_kept_partial, all calls but Subscribe) and is false otherwise (C129_refuted): async_unsubscribe_gateway, started when the last subscription of another code ends, calls remove_all_async_message_callbacks, which takes off the handlers of the user as well (client.py:214, protocol.py:192); a lost connection also loses them, which the claim allows. A message whose id is that of a waiting request is taken as its answer.",
"C128": "As C116 and C127 for the model and the exceptions. A message whose id is that of a waiting request is taken as its answer and not handed over; that is what answers no request excludes.",
"C127": "As C100 and C126 for the model. The client id must fit in 32 bits (the random ones do); otherwise remove-client cannot be packed. The exception 'no remove-client sent on it' is the race of C71; 'being closed' covers disconnects. Whether the adapter sends anything is C110's registration, not this property's.",
"C111": "As C100 for the model. A proper answer has the code of the request plus one, and is empty for the nine commands and registrations, which is what the code takes for an acknowledgement. Needs fuel >= 1. A call may still fail for reasons of its own: ValueError for a bad argument, an answer that cannot be decoded. Calls that wait for the lock may be cancelled.",
"C112": "Net.v composes Pool.v (the calls) with Protocol.v (a protocol object per connection): the answers of Pool.v are no longer free, they come out of the futures of Protocol.v. C112_calls: every run of Net.v is a run of Pool.v, so C99-C107 and C111 hold of it. Bytes are 0..255 (octets).",
"C113": "As C112. Keepalive pings and the greeting CONNECTSERVERHOST (C101) are written outside these frames; pings are in Client.v and Protocol.v (C25).",
"C114": "As C112, with C105.",
"C115": "As C112. The cleanup task is the event NLostTask, the release the event NResume. The bound of 32767 messages: an id that is handed out again overwrites the entry of the older future (C10), which no cleanup then reaches.",
"C116": "As C112. The handlers that count are those of the client manager (Pool.v): when the handlers run and what they do is C125, C126 and C103; only codes 12500, 12504, 12505 change data.",
"C125": "The tasks data_received makes for the handlers run in the order they were made (asyncio), each to its end at once, at any later moment.",
"C126": "Callbacks that return normally and subscribe or unsubscribe nobody (others: Client.v, C74, C89). The function that ends a subscription is identified with its (callback, code); C69 has the sets themselves.",
"C117": "As C113, with C101_greeting_first and C101_greeted. Keepalive pings are in Client.v and Protocol.v (C25, C64), not in this stream.",
"C118": "As C115.",
"C121": "As C120; C121_each is about one call and allows infinitely many others. With a reconnect the claim is false (C68, C120_lock_nonvacuous).",
"C123": "Ping and Unregister may start at any moment of Pool.v, also when the program would not start them; the theorems ask that the client manager was attached once (the program starts them only then) and, for the removal, that the client id fits the message.",
"C124": "The sum of the timers started; a timer that is still running counts in full. Time in the event loop itself, closing the transport and waiting for the lock have no timer in the code and are not counted.",
"C120": "Schedules are functions from time to events; waits_end and lock_fair are the fairness hypotheses (SpecTerm.v); calls may be cancelled at any await, while they wait for the lock too (cancels_end: not for ever, which is needed because the proof is constructive; C120_each does not need it). The bound on opened connections is the fuel of the reconnect recursion: any finite number. C120_each is about one call and allows infinitely many others (lock_served: first come, first served). The exception is the deadlock of C68; C120_lock_nonvacuous exhibits it.",
"C119": "As C112; the timer is the event NTimeout; that asyncio fires it is trusted.",
"C109": "client.py _async_ping alone; when it is sent is C64 and the event machine of Client.v.",
 "C130": "As C112; the wait of the call is the slot of Net.v (the future of await_send_message), its wake-up the event NResume.",
 "C131": "As C130. For a query the theorem has the hypothesis that the decoder accepts the answer; C75 and C76 are about answers it rejects. The codes 14, 27, 8120, 12522, 12524 and 12532, with which connecting is done, are left out for async_send_message.",
 "C132": "A message sent on a connection whose transport is already closing is not written (SpecKeep.v). The client id must fit a 32-bit number, as the packing of the message demands.",
 "C133": "The argument connection_closed_callback is not part of this (C60, C87). The name given with an argument that is the empty string replaces the name, an empty ip makes the connect fail (C59).",
 "C134": "The datagrams are byte strings; the sockets of discovery are a list of datagrams received in the one second it listens. A host is the dict as returned; async_connect(**host) is modelled by reading the five keys (Cli.args_of_host) - the theorem shows that they are all there and of the right type.",
 "C135": "One task at a time; failed tries in which nothing else happens (no connection lost, no data pushed meanwhile): with such events the state of course differs by them. The answers themselves may come with any events. A run that has failed tries of its own is not a run this speaks of, C12-C14 and C57 do. A message 16 or 12524 sent through async_send_message is, like the ping and the removal, taken as answered at once, though it could be late too.",
 "C136": "The restrictions of C135 apply. The host's clock is read where the command line reads it and is the one of the last answer, the same in both runs.",
 "C137": "The client manager keeps a copy of the setting from when it was attached (client.py:76), which nothing reads; it may differ in the two final states (j in the statement). As in C135 the call runs alone. set_max_retries itself is excluded: it replaces the setting.",
 "C138": "The moment given to async_synchronize_date_time (datetime.now() in the code) is an argument of the modelled call, so it is the same in both runs. Timeouts and pauses run on the event loop's monotonic clock, which the host's clock does not set; the model has durations for them and no clock. The keepalive reads time.monotonic (protocol.py:71) and is in Protocol.v, not here. The two final states are compared after one call; data that already differ in the host time are not a starting point.",
 "C139": "That the subscription messages do carry the id is not said here but by the properties of subscribing; a payload the caller passes to async_send_message is his own and stays as it is. Ids outside 0..2^32-1, which cannot be packed, are excluded.",
}
