#!/usr/bin/env python3
"""Generates ../properties.jsonl (run from anywhere)."""
import json, os
P = []
def p(id, title, statement, quantifier, why, anchors):
    P.append(dict(id=id, title=title, statement=statement, quantifier=quantifier, why_tests_cant=why, anchors=anchors))

U = "screenlogicpy/requests/utility.py"
PR = "screenlogicpy/requests/protocol.py"
RQ = "screenlogicpy/requests/request.py"
GW = "screenlogicpy/gateway.py"
CL = "screenlogicpy/client.py"

# ---- wire codec
p("C01","makeMessage/takeMessage round trip and layout",
  "makeMessage(id, code, payload) succeeds exactly when id and code fit 16 unsigned bits and the payload length fits 32 bits; it then yields little-endian id, code, payload length, payload, and takeMessage of that is (id, code, payload).",
  "all integers id and code, all byte payloads of any length",
  "16-bit ids, codes and unbounded payloads cannot be enumerated",
  [U+":makeMessage",U+":takeMessage"])
p("C02","takeMessage accepts exactly the well-formed frames",
  "takeMessage(b) returns (id, code, payload) only if b is byte for byte makeMessage(id, code, payload); a buffer shorter than a header raises struct.error and a buffer whose length field disagrees with its size raises ScreenLogicError.",
  "all byte strings", "the set of malformed frames is infinite",
  [U+":takeMessage"])
p("C03","takeMessages splits a concatenation of frames and never returns a partial list",
  "takeMessages of the concatenation of any list of frames returns exactly that list in order; if the bytes do not end on a frame boundary it raises ScreenLogicError instead of returning a prefix.",
  "all lists of messages, all byte strings", "number, size and truncation points are unbounded",
  [U+":takeMessages",U+":getSome"])
p("C04","Stream reassembly does not depend on packetisation",
  "However a received byte stream is split into data_received calls, the sequence of messages delivered and the bytes kept for later are the same as if it came in one call.",
  "all byte streams (well-formed or not), all splittings", "exponentially many splittings of unboundedly long streams",
  [PR+":ScreenLogicProtocol.data_received"])
p("C05","Stream reassembly loses, duplicates and reorders nothing",
  "If the stream is the concatenation of frames for messages m1..mn followed by an incomplete frame, then after any splitting exactly m1..mn are delivered in order, and exactly the incomplete bytes are kept.",
  "all message lists, all incomplete tails, all splittings", "unbounded lists and splittings",
  [PR+":ScreenLogicProtocol.data_received",U+":takeMessage"])
p("C06","Message strings round trip (UTF-8 and UTF-16)",
  "For every Unicode text whose encoding is shorter than 2^31 bytes, decodeMessageString(encodeMessageString(s, utf_16)) = s, the output length is a multiple of 4, and the high bit of the length word is set exactly for UTF-16.",
  "all strings of Unicode scalar values, both encodings", "all texts over 1.1M code points",
  [U+":encodeMessageString",U+":decodeMessageString"])
p("C07","A string field is read back with its padding consumed",
  "When an encoded string sits at an offset inside a larger message, reading it there gives the original text (with leading and trailing NULs removed) and the offset of the next field, so that following fields are read at the right place.",
  "all texts, both encodings, all surrounding bytes and offsets", "every length modulo 4, every surrounding context",
  [U+":getString",U+":encodeMessageString"])
p("C08","Time encoding",
  "encodeMessageTime writes year, month, weekday, day, hour, minute, zero seconds and milliseconds as 16-bit words; decoding gives back the same date and time truncated to the minute plus whole milliseconds, for every valid datetime.",
  "all datetimes (years 1..9999, every calendar day, every microsecond)", "about 3*10^17 datetimes",
  [U+":encodeMessageTime",U+":decodeMessageTime",U+":getTime"])
p("C09","Array field is read back with its padding consumed",
  "An array written as count, bytes, padding to a multiple of four is read back exactly, with the offset of the next field; a truncated array raises struct.error.",
  "all arrays, contexts and offsets", "unbounded arrays",
  [U+":getArray"])
p("C10","Field reads are bounds-checked and exact",
  "Reading a field of any format at any offset succeeds exactly when the field lies inside the buffer, returns the integer those bytes denote (endianness and sign as the format says), and advances by the field size.",
  "all buffers, offsets and formats", "all buffers and offsets",
  [U+":getSome"])
# ---- request layer
p("C11","A request returns data only from a matching answer",
  "If a request for code c returns bytes, then the adapter answered the last attempt with message code c+1 and exactly those bytes.",
  "all request codes, payloads, retry limits and adapter behaviours", "adapter behaviours are unbounded histories",
  [RQ+":async_make_request"])
p("C12","Retries are bounded and spaced",
  "A request sends at most max_retries+1 messages, all with the same code and payload, and waits 1, 2, 3, ... seconds between them; total waiting is bounded by the per-attempt timeout plus those delays.",
  "all codes, payloads, retry limits, adapter behaviours", "unbounded retry limits and histories",
  [RQ+":async_make_request"])
p("C13","A rejected login is not retried",
  "If the adapter answers an attempt with the login-rejected code (and that is not the expected answer code), the request raises ScreenLogicLoginError at once and sends nothing more.",
  "all codes, retry limits and adapter behaviours", "histories",
  [RQ+":async_make_request"])
p("C14","The final error names the last failure",
  "When all attempts fail, the exception raised is decided by the last attempt: timeout gives ScreenLogicConnectionError, invalid request or bad parameter gives ScreenLogicRequestError, any other wrong code gives ScreenLogicResponseError. An earlier failure never masks a later success.",
  "all histories of failures", "histories of any length",
  [RQ+":async_make_request"])
p("C15","No request is sent without a connection",
  "If the connection is down when an attempt starts, nothing is written and ScreenLogicConnectionError is raised.",
  "all histories, including connections dropped between attempts", "drop points",
  [RQ+":async_make_request"])
p("C16","Cancelling the caller of a request propagates",
  "Cancelling a task that awaits a request makes the await raise CancelledError.",
  "all requests, all cancellation points", "cancellation points",
  [RQ+":async_make_request"])
# ---- protocol
p("C17","Message IDs stay in the lower half and do not collide",
  "Every request uses an ID in 0..32766, and any 32767 consecutive requests use pairwise different IDs.",
  "all histories of any number of requests", "needs more than 32767 requests in any order",
  [PR+":ScreenLogicProtocol.await_send_message"])
p("C18","Replies reach the request they answer, once",
  "A pending request is completed only by an incoming message that carries its ID, with that message as its result; once completed or cancelled its outcome never changes, and no message completes two requests.",
  "all interleavings of requests, cancellations, incoming bytes, close and connection loss", "interleavings",
  [PR+":ScreenLogicProtocol.FutureManager",PR+":ScreenLogicProtocol.data_received"])
p("C19","Adapter-initiated messages never complete a request",
  "An incoming message whose ID is 32767 or more never completes a request; it goes to the handler registered for its code, if any.",
  "all histories", "histories",
  [PR+":ScreenLogicProtocol"])
p("C20","Unsolicited messages are dispatched exactly once",
  "Each delivered message either completes one request, or starts exactly one run of the handler currently registered for its code with its payload and arguments, or (no handler) is dropped; never two of these, and handlers run in arrival order.",
  "all histories of registrations and messages", "histories",
  [PR+":ScreenLogicProtocol.data_received"])
p("C21","A closing connection neither sends nor delivers",
  "Once async_close has been called, incoming bytes change nothing, new requests come back cancelled and are not written, and no message is delivered.",
  "all histories after a close", "histories",
  [PR+":ScreenLogicProtocol"])
p("C22","A forced close cancels every outstanding request",
  "async_close(force=True) cancels every request still pending (whose ID has not been handed out again by 32767 later requests).",
  "all protocol states", "states",
  [PR+":ScreenLogicProtocol.async_close",PR+":ScreenLogicProtocol.FutureManager.all_done"])
p("C23","A graceful close waits for outstanding requests and lets their replies in",
  "async_close() closes the transport only after every outstanding request has been resolved, and a reply that arrives meanwhile still completes its request.",
  "all histories", "histories",
  [PR+":ScreenLogicProtocol.async_close",PR+":ScreenLogicProtocol.FutureManager.all_done"])
p("C24","Connection loss releases every waiter",
  "After connection_lost the protocol reports not connected and no keepalive timer is pending, the connection-lost callback is called, and, once the scheduled cleanup has run, every request pending at that moment (whose ID has not been handed out again) is cancelled.",
  "all histories", "crash points",
  [PR+":ScreenLogicProtocol.connection_lost"])
p("C25","At most one keepalive timer, always measured from the last send",
  "At most one keepalive timer is pending at any time; whenever keepalive is enabled it is set interval seconds after the last send (or enabling); after disabling there is none.",
  "all histories of sends, enables, disables, timer expiries", "histories",
  [PR+":ScreenLogicProtocol._set_keepalive",PR+":ScreenLogicProtocol.enable_keepalive",PR+":ScreenLogicProtocol.disable_keepalive"])
p("C26","The last registered handler wins",
  "The handler run for a message code is the one from the latest registration not followed by a removal of that code (or of all codes).",
  "all histories of register/remove", "histories",
  [PR+":ScreenLogicProtocol.register_async_message_callback",PR+":ScreenLogicProtocol.remove_async_message_callback",PR+":ScreenLogicProtocol.remove_all_async_message_callbacks"])
# ---- decoders
D="screenlogicpy/requests/"
p("C27","Pool status decoding","Decoding a status message for any controller state, any 0..2 bodies and any number of circuits makes every value in the data equal to the wire value (temperatures, setpoints, modes, circuit states, colour settings, chemistry), whatever was in the data before.",
  "all field values, all circuit lists, all prior well-shaped data","field values and list lengths unbounded",[D+"status.py:decode_pool_status"])
p("C28","Chemistry decoding","Decoding a chemistry message makes every IntelliChem value equal to the big-endian/byte wire value, flags split into the documented bits, saturation index signed.",
  "all 47-byte messages (and longer), all prior well-shaped data","2^376 messages",[D+"chemistry.py:decode_chemistry"])
p("C29","Configuration decoding","Decoding a configuration message gives setpoint limits, model, equipment flags, every circuit (any number, any names), every colour, pump data and trailing flags as sent.",
  "all field values, circuit lists, colour lists, names","unbounded lists and strings",[D+"config.py:decode_pool_config"])
p("C30","Pump decoding","Decoding a pump message for pump i sets type, watts, rpm, gpm, and eight presets of pump i as sent, and names the pump after the first configured circuit matching the earliest matching preset.",
  "all messages, all pump indices, all circuit tables","unbounded circuit tables",[D+"pump.py:decode_pump_status"])
p("C31","Salt generator decoding","Decoding an SCG message gives presence, on/off state, pool and spa setpoints, salt*50 ppm, flags, super-chlorinate bit and timer as sent.",
  "all 28-byte messages (and longer)","2^224 messages",[D+"scg.py:decode_scg_config"])
p("C32","Firmware version decoding","Decoding a version reply stores the text as sent and the second and fourth words as numbers; a reply with fewer than four words raises.",
  "all texts","all texts",[D+"gateway.py:decode_version"])
p("C33","Date/time decoding","Decoding a date/time reply stores the POSIX timestamp of that UTC date and time and the auto-DST flag; an impossible calendar date raises ValueError.",
  "all 20-byte messages","2^160 messages",[D+"datetime.py:decode_date_time"])
p("C34","Colour update decoding","Decoding a colour update stores mode, progress, limit and text as sent.",
  "all messages","all texts",[D+"lights.py:decode_color_update"])
p("C35","Equipment configuration decoding","Decoding an equipment message stores the twelve arrays as sent.",
  "all messages","unbounded arrays",[D+"equipment.py:decode_equipment_config"])
p("C36","Each decoder touches only its own section","A decoder, whether it succeeds or raises, leaves every top-level section other than its own unchanged (status: controller, body, circuit; chemistry: intellichem; config: controller, circuit, pump; pump: pump; scg: scg; version: adapter; date/time, colour: controller).",
  "all byte strings, all prior data","all inputs, including malformed ones",[D+"status.py",D+"chemistry.py",D+"config.py",D+"pump.py",D+"scg.py",D+"gateway.py",D+"datetime.py",D+"lights.py"])
p("C37","A truncated message is never accepted","Every proper prefix of the minimum-length part of a message makes the decoder raise; no decoder reports success on a message that ends before its last field.",
  "all messages, all truncation points","truncation points",[D+"status.py",D+"chemistry.py",D+"config.py",D+"pump.py",D+"scg.py",D+"datetime.py",D+"lights.py",D+"equipment.py"])
p("C38","A failed decode leaves the data unchanged","If decoding raises, get_data() is what it was before the message.",
  "all malformed messages, all prior data","malformed inputs",[D+"chemistry.py:decode_chemistry"])
p("C39","Decoding is idempotent","Decoding the same message twice leaves the same data as decoding it once.",
  "all messages, all prior data","all messages",[D+"status.py",D+"chemistry.py",D+"scg.py",D+"pump.py"])
p("C40","Wild pump states are ignored","A pump state with the top bit set never changes the stored pump state value; any other state is stored.",
  "all messages, all prior data","2^32 states times histories",[D+"pump.py:decode_pump_status"])
p("C41","Unknown equipment flags are masked on old firmware","With adapter firmware minor <= 736 the stored equipment flags are the low 16 bits; otherwise all 32; the list holds exactly the names of the set known flags in bit order.",
  "all flags, all firmware versions","2^32 flags",[D+"config.py:decode_pool_config","screenlogicpy/device_const/system.py:EQUIPMENT_FLAG"])
p("C42","No message history wedges the decoders","Starting from empty data, after any sequence of messages (malformed ones included) the data still has the shape every decoder needs: a well-formed message is still decoded.",
  "all histories of messages","histories",[D+"status.py",D+"config.py",D+"chemistry.py",D+"scg.py"])
# ---- data access
p("C43","get_data path semantics","get_data(k1..kn) returns the value reached by following the keys through dicts and lists, None if a step is missing; get_data() returns everything; extending a path composes.",
  "all data trees, all paths","all trees and paths",[GW+":ScreenLogicGateway.get_data"])
p("C44","get_value/get_name are shortcuts","get_value(path) = get_data(path, 'value') and get_name(path) = get_data(path, 'name') for every tree, path and strict flag, errors included.",
  "all data trees, all paths, strict or not","all trees and paths",[GW+":ScreenLogicGateway.get_value",GW+":ScreenLogicGateway.get_name"])
p("C45","strict raises exactly when the value is missing","With strict=True get_data raises KeyError exactly when the non-strict call returns None on a nonempty path, and otherwise returns the same value; falsy values such as 0 count as present.",
  "all data trees, all paths","all trees and paths",[GW+":ScreenLogicGateway.get_data"])
# ---- gateway commands
p("C46","async_set_circuit only sends valid commands","A button-press message is sent only for a circuit id in the known circuits and state 0 or 1, with payload (0, id, state); an invalid call raises ValueError and sends nothing.",
  "all gateway states, arguments, adapter behaviours","all states and histories",[GW+":ScreenLogicGateway.async_set_circuit",D+"button.py"])
p("C47","async_set_heat_temp respects the configured limits","A set-temperature message is sent only for a known body with min <= temp <= max of that body at call time; anything else raises and sends nothing.",
  "all gateway states, arguments, adapter behaviours","all states and histories",[GW+":ScreenLogicGateway.async_set_heat_temp",D+"heat.py"])
p("C48","async_set_heat_mode only sends modes 0..4","A set-heat-mode message is sent only for a known body and mode 0..4; anything else raises and sends nothing.",
  "all gateway states, arguments, adapter behaviours","all states and histories",[GW+":ScreenLogicGateway.async_set_heat_mode",D+"heat.py"])
p("C49","async_set_color_lights only sends commands 0..21","A light command is sent only with a command in 0..21.",
  "all gateway states, arguments, adapter behaviours","all states and histories",[GW+":ScreenLogicGateway.async_set_color_lights",D+"lights.py"])
p("C50","async_set_scg_config only sends in-range values and keeps unspecified ones","An SCG message carries pool and spa setpoints 0..100, super-chlorinate 0/1 and timer 0..72; each argument left out is sent as the current value.",
  "all gateway states, arguments, adapter behaviours","all states and histories",[GW+":ScreenLogicGateway.async_set_scg_config",D+"scg.py"])
p("C51","async_set_chem_data only sends in-range values and keeps unspecified ones","A set-chemistry message carries pH*100 within 720..760, ORP 400..800, calcium 25..800, alkalinity 25..800, cyanuric acid 0..201, salt 500..6500; each argument left out is sent as the current value.",
  "all gateway states, arguments, adapter behaviours","all states, floats and histories",[GW+":ScreenLogicGateway.async_set_chem_data",D+"chemistry.py:async_request_set_chem_data"])
p("C52","The pH setpoint survives the float round trip","The pH setpoint decoded from the controller (n/100) is sent back as exactly n for every admissible n, and every two-decimal pH in range is sent as its exact hundredfold.",
  "all admissible setpoints","floating-point rounding at every value",[GW+":ScreenLogicGateway.async_set_chem_data",D+"chemistry.py:decode_chemistry"])
p("C53","An invalid super-chlorinate value is rejected","async_set_scg_config(super_chlorinate=v) with v neither 0/1 nor on/off raises and sends nothing.",
  "all values","all values",[GW+":ScreenLogicGateway.async_set_scg_config","screenlogicpy/const/common.py:SLIntEnum.parse"])
p("C54","async_set_date_time payload","The set-date/time message carries the given datetime (minute resolution) and DST flag, unspecified parts taken from the controller; with neither given it raises ValueError and sends nothing.",
  "all datetimes, flags, gateway states","all datetimes",[GW+":ScreenLogicGateway.async_set_date_time",D+"datetime.py"])
p("C55","Setting only auto-DST keeps the controller clock","async_set_date_time(auto_dst=x) sends the date and time last read from the controller.",
  "all controller times, all host time zones","time zones",[GW+":ScreenLogicGateway.async_set_date_time"])
p("C56","max_retries always lies in 1..5","After construction and any sequence of set_max_retries calls max_retries is in 1..5; an out-of-range call raises ValueError and changes nothing.",
  "all call sequences","histories",[GW+":ScreenLogicGateway.set_max_retries"])
p("C57","A failed command is retried once after one reconnect","A gateway command issues its request at most twice; the second time only after the first failed with a communication error and the old connection was force-closed; any other exception propagates at once.",
  "all commands, gateway states, adapter behaviours","histories",[GW+":ScreenLogicGateway._async_connected_request"])
p("C58","async_connect on a live connection does nothing","If already connected, async_connect returns True without any I/O and without changing address, callback or data.",
  "all gateway states, arguments","states",[GW+":ScreenLogicGateway.async_connect"])
p("C59","No address, no I/O","async_connect without a known address raises ScreenLogicError without touching the network.",
  "all gateway states without address","states",[GW+":ScreenLogicGateway.async_connect"])
p("C60","Reconnecting reuses the previous connection information","A parameterless async_connect uses the previous address, port, name and connection-closed callback.",
  "all gateway states","histories",[GW+":ScreenLogicGateway.async_connect"])
p("C61","A failed connection attempt leaves no open transport","If async_connect raises, every transport it opened has been closed.",
  "all adapter behaviours","failure points",[GW+":ScreenLogicGateway.async_connect","screenlogicpy/requests/login.py:async_connect_to_gateway"])
p("C62","Communication failures surface as ScreenLogic errors","A gateway command that cannot reach the adapter raises a ScreenLogicCommunicationError.",
  "all gateway states, adapter behaviours","failure points",[GW+":ScreenLogicGateway._async_connected_request"])
p("C63","Connecting terminates","async_connect returns or raises after a bounded number of requests, whatever the adapter does.",
  "all adapter behaviours","needs adversarial adapters",[GW+":ScreenLogicGateway.async_connect",GW+":ScreenLogicGateway._async_connected_request"])
p("C64","Exactly the configured pumps are polled","async_get_pumps requests pump i, for i in 0..7 in increasing order, exactly when the equipment flags have the bit of pump i.",
  "all flag words, gateway states","2^32 flag words",[GW+":ScreenLogicGateway.async_get_pumps"])
p("C65","async_update polls in the documented order and stops at the first failure","async_update requests status, pumps, chemistry, SCG, date/time in that order, raises the first failure, and raises ScreenLogicError without I/O when no data has been loaded.",
  "all gateway states, adapter behaviours","failure points",[GW+":ScreenLogicGateway.async_update"])
p("C66","get_debug holds the last good raw response","After each poll, get_debug()[kind] is the raw payload of the last successful response of that kind; a failed poll leaves it unchanged.",
  "all histories of polls","histories",[GW+":ScreenLogicGateway.async_get_status"])
# ---- client manager
p("C67","Client registration requests never overlap","At most one add-client/remove-client exchange is in progress at a time.",
  "all schedules of subscribe/unsubscribe/reconnect","schedules",[CL+":ClientManager.async_subscribe_gateway",CL+":ClientManager.async_unsubscribe_gateway"])
p("C68","Subscribing terminates","async_subscribe_client returns or raises, also when the add-client request fails and a reconnect is needed.",
  "all adapter behaviours","needs a lost reply at one point",[CL+":ClientManager.async_subscribe_gateway",CL+":ClientManager.attach",GW+":ScreenLogicGateway._async_connected_request"])
p("C69","Unsubscribing removes exactly one listener, idempotently","Calling an unsubscribe function removes its callback from its code and nothing else; calling it again does nothing, even after others have subscribed anew.",
  "all histories of subscribe/unsubscribe","histories",[CL+":ClientManager.async_subscribe"])
p("C70","Listeners are notified after the data is updated","When a push message for a code is handled, the gateway data is updated first and then every listener subscribed to that code, and no other, is called exactly once (as long as the callbacks return normally and unsubscribe nobody: see C74 and C89).",
  "all listener tables, messages","histories",[CL+":ClientManager._async_common_callback",CL+":ClientManager._notify_listeners"])
p("C71","A subscribed listener is served","Whenever nothing is in progress and a listener is subscribed on a live connection, the gateway is registered as client and the push handler of that code is installed.",
  "all schedules of subscribe/unsubscribe","schedules",[CL+":ClientManager.async_subscribe",CL+":ClientManager.async_unsubscribe_gateway"])
p("C72","Reconnecting restores subscriptions","After attach to a new connection every code with listeners has its push handler installed on the new connection and an add-client request has been made.",
  "all listener tables","states",[CL+":ClientManager.attach"])
p("C73","Subscribing while disconnected does nothing","async_subscribe_client on a gateway that is not connected returns None and changes nothing.",
  "all states","states",[CL+":ClientManager.async_subscribe"])
p("C74","A listener may unsubscribe itself while being notified","Calling the unsubscribe function from inside the callback does not disturb the notification of the other listeners.",
  "all listener tables","states",[CL+":ClientManager._notify_listeners"])
# ---- data.py, discovery
p("C75","Response collections keep the raw responses","deconstruct(build(raw, data)) gives back every raw response under its key and pump index, and data.",
  "all raw response tables","all tables",["screenlogicpy/data.py:build_response_collection","screenlogicpy/data.py:deconstruct_response_collection"])
p("C76","Export/import round trip","Importing an exported response collection gives an equal collection.",
  "all collections the decoders can produce","unbounded trees",["screenlogicpy/data.py:export_response_collection","screenlogicpy/data.py:import_response_collection"])
p("C77","Raw bytes survive JSON","Every bytes value is read back identically from its exported JSON form.",
  "all byte strings","all byte strings",["screenlogicpy/data.py:bytes_json_encoder","screenlogicpy/data.py:bytes_json_decoder"])
p("C78","Discovery response decoding","A discovery datagram with check word 2 yields the dotted IP, port, type, subtype and NUL-trimmed name as sent; another check word raises ScreenLogicError; a short datagram raises struct.error.",
  "all datagrams","all datagrams",["screenlogicpy/discovery.py:process_discovery_response"])
p("C79","Discovery ignores bad datagrams","After any sequence of datagrams the host list is exactly the decodings of the valid ones, in arrival order.",
  "all datagram sequences","histories",["screenlogicpy/discovery.py:ScreenLogicDiscoveryProtocol.datagram_received"])
# ---- enums, ranges, cli
p("C80","Every parsable value parses to its member","For each enumeration used by the CLI, parse of every advertised parsable value (number or lower-case name) is the member it names.",
  "all enumerations and members, any letter case, spaces for underscores","all spellings",["screenlogicpy/const/common.py:SLIntEnum.parse","screenlogicpy/const/common.py:SLIntEnum.parsable_values"])
p("C81","Range checks are exact","check accepts exactly the closed interval, for ints and floats, NaN rejected; parse_check returns the parsed number only if it is in range.",
  "all ints and floats","all numbers",["screenlogicpy/const/common.py:SLValueRange"])
p("C82","Controller model lookup is total","model_from_type returns a table entry for a known pair and otherwise a text naming both numbers; it never raises.",
  "all pairs of integers","all pairs",["screenlogicpy/device_const/system.py:CONTROLLER.model_from_type"])
p("C83","Water balance classification partitions the line","from_saturation returns exactly one of the four classes per documented thresholds, corrosive below -0.5, scaling above 0.5 (and for a NaN).",
  "all floats","all floats",["screenlogicpy/device_const/chemistry.py:BALANCE.from_saturation"])
p("C84","The login message layout","create_login_message has the fixed layout schema 348, type 0, client string, 16-character password string, pad byte, pid 2.",
  "the single message and its re-decoding","layout is a fixed point of the string codec",["screenlogicpy/requests/login.py:create_login_message"])
p("C85","The CLI shows the heat state that was reported","The dashboard and 'get heat-state' show the name/value of the reported heat state.",
  "all heat states","all states",["screenlogicpy/cli.py:print_heat","screenlogicpy/cli.py:async_get_heat_state"])
p("C86","CLI auto-DST option is sent to the controller","'set date-time --auto-dst X' sends X as 0/1 to the controller.",
  "all accepted spellings","all spellings",["screenlogicpy/cli.py:async_set_date_time"])
p("C87","The connection-closed callback runs once per lost connection","Each loss of the connection calls the callback given to async_connect exactly once.",
  "all histories","histories",[GW+":ScreenLogicGateway._common_connection_closed_callback"])
p("C88","Discovery broadcasts once and closes its socket","async_discover sends its eight-byte question exactly once to 255.255.255.255:1444 and closes its socket whether it returns, fails or is cancelled.",
  "all outcomes of the network calls and all datagrams","failure and cancellation points",["screenlogicpy/discovery.py:async_discover"])
p("C89","A failing callback does not silence the others","When one listener's callback raises, the other listeners of the code are still called.",
  "all listener tables and callback behaviours","histories",[CL+":ClientManager._notify_listeners"])
p("C90","A failed subscription leaves no listener behind","If async_subscribe_client raises, its callback is not subscribed, or the caller holds a function that unsubscribes it.",
  "all histories","failure points",[CL+":ClientManager.async_subscribe"])
CLI="screenlogicpy/cli.py"
p("C91","Each command makes exactly its API calls","A run of the command line connects to the adapter given by --ip/--port, or else to the first that answered discovery, updates, and makes exactly the API calls the command stands for, with the values typed, in order, stopping at the first that fails, and then disconnects.",
  "all commands, options, network behaviours and adapter behaviours","the calls depend on every reply and failure point",[CLI+":cli"])
p("C92","The exit code tells what happened","Exit code 0 of a setting command means the adapter acknowledged it; a positive exit code means nothing was set: 1 no adapter or no controller data, 4 no such circuit, 65 and 129 no value given.",
  "all commands, options, network and adapter behaviours","every failure point",[CLI+":cli"])
p("C93","Commands that look do not write","The dashboard, discover, export and get commands send no message other than those of connecting and polling.",
  "all reading commands, options and adapter behaviours","every schedule of replies",[CLI+":cli"])
p("C94","Settings are sent as typed","Every message of a set command other than connecting and polling carries exactly the typed values; what was not typed keeps the value last reported.",
  "all accepted spellings and numbers, all adapter behaviours","all spellings and numbers",[CLI+":cli"])
p("C95","The command line closes its connection","When a run ends, its connection to the adapter is closed.",
  "all commands and adapter behaviours","every failure point",[CLI+":cli"])
p("C96","'discover' lists the adapters that answered","'discover' prints one line per adapter that answered, in order of arrival, connects to none, and exits with 0, or with 1 when none answered.",
  "all options and datagrams","all sequences of datagrams",[CLI+":cli"])
p("C97","Questions are answered from the data","A get or set command for circuit, heat mode, heat temperature, current temperature, date-time, auto-dst or json that exits with 0 prints as its last line the value the gateway then holds (with -v its name and title), and without -v nothing else.",
  "all commands, options and adapter behaviours","all data the adapter can report",[CLI+":cli"])
p("C98","The dashboard shows every body and circuit","The dashboard lists every body with its temperature, setpoint and heat mode, and every circuit that is not hidden with its state, in order, as the gateway holds them.",
  "all data and adapter behaviours","all data the adapter can report",[CLI+":print_dashboard"])

p("C99","Overlapping calls do not multiply retries","When calls overlap in any way, a call that makes one kind of request sends its message at most 2 x (1 + max_retries) times, max_retries being what the gateway's setting was when the call was made (so at most twelve times), whatever is set meanwhile, and never again after an answer it takes has come.",
  "all schedules of any number of overlapping calls, answers, timeouts, cancellations, lost connections and pushed messages","all interleavings of any number of tasks",[GW+":ScreenLogicGateway._async_connected_request",RQ+":async_make_request"])
p("C100","Overlapping calls send only their own messages","When calls of one gateway overlap in any way, every message a call sends is either one of the connection dialogue (challenge, login, version, configuration, adding or removing the client) or the one that carries out that very call, built from its arguments and the data at the time it was made.",
  "all schedules of any number of overlapping calls, answers, timeouts, cancellations, lost connections and pushed messages","all interleavings of any number of tasks",[GW+":ScreenLogicGateway",RQ+":async_make_request"])
p("C101","Nothing is asked before the login, whatever overlaps","When calls overlap in any way, no message but challenge and login goes out on a connection whose login has not been accepted, and nothing at all before the greeting CONNECTSERVERHOST, which is written once per connection and first.",
  "all schedules of any number of overlapping calls, answers, timeouts, cancellations, lost connections and pushed messages","all interleavings of any number of tasks",[GW+":ScreenLogicGateway","screenlogicpy/requests/login.py:async_gateway_connect"])
p("C102","Nothing is sent or taken on a connection being closed","When calls overlap in any way, no message goes out on a connection after any call began to close it or after it was lost, and no unsolicited message that arrives from it after that is taken (one taken before may still be decoded after).",
  "all schedules of any number of overlapping calls, answers, timeouts, cancellations, lost connections and pushed messages","all interleavings of any number of tasks",[RQ+":async_make_request",GW+":ScreenLogicGateway.async_disconnect"])
p("C103","The data is what was reported, whatever overlaps","When calls overlap in any way, get_data() is at every moment the result of decoding, one after the other and each as a whole, the answers to queries received and the pushed messages dealt with so far, and nothing else.",
  "all schedules of any number of overlapping calls, answers, timeouts, cancellations, lost connections and pushed messages","all interleavings of any number of tasks",[GW+":ScreenLogicGateway",CL+":ClientManager._async_common_callback"])
p("C104","A disconnect after overlapping calls leaves nothing open","When all calls have ended and async_disconnect() returns, no connection opened by the gateway is still open.",
  "all schedules of overlapping calls","all interleavings of any number of tasks",[GW+":ScreenLogicGateway.async_connect",GW+":ScreenLogicGateway.async_disconnect"])
p("C105","A setting that returned was acknowledged, whatever overlaps","When calls overlap in any way and a setting call returns normally, the adapter has acknowledged a message of that call that carries exactly its values, and the call sent no further such message.",
  "all schedules of any number of overlapping calls, answers, timeouts, cancellations, lost connections and pushed messages","all interleavings of any number of tasks",[GW+":ScreenLogicGateway"])
p("C106","Registration exchanges never overlap, whatever calls overlap","When calls overlap in any way, no add-client or remove-client message goes out while another call waits for the answer to one.",
  "all schedules of any number of overlapping calls (none of them async_send_message with one of these two codes), answers, timeouts, cancellations, lost connections and pushed messages","all interleavings of any number of tasks",[CL+":ClientManager._async_subscribe_gateway",CL+":ClientManager._async_unsubscribe_gateway",GW+":ScreenLogicGateway"])
p("C107","No finished call keeps the lock","When all the calls made so far, overlapping in any way, have returned or raised, the client manager's lock is free: no later subscription waits for a call that is over.",
  "all schedules of any number of overlapping calls (as C106) after which every call has ended","all interleavings of any number of tasks",[CL+":ClientManager._async_subscribe_gateway",CL+":ClientManager._async_unsubscribe_gateway"])
p("C108","Asking for the MAC address only asks","async_get_mac_address(ip, port, max_retries) opens exactly one connection, to that address, writes on it only the challenge message (after the connect string), at most max_retries+1 times, and never logs in or registers, whatever happens. When it returns, what it returns is the string carried by an answer to that challenge (for every string and encoding), and the connection it made is closed. (When it raises instead, the connection made may stay open.)",
  "all addresses, retry counts, gateway states, adapter behaviours (answers, errors, silence, losses, cancellation at any await)","all adapter behaviours",["screenlogicpy/requests/login.py:async_get_mac_address","screenlogicpy/requests/login.py:async_gateway_connect"])
p("C109","A keepalive ping is harmless","The ping a registered client sends now and then writes at most one message (a ping, with no payload) on its connection, waits for an answer at most once, never retries or sleeps, opens and closes nothing, changes neither the gateway's address, connection, last snapshot nor subscriptions, and never raises: every failure is only logged.",
  "all gateway states and adapter behaviours (answer, wrong answer, rejection, silence, loss, cancellation)","all adapter behaviours",[CL+":ClientManager._async_ping","screenlogicpy/requests/ping.py:async_request_ping"])
p("C110","The keepalive runs exactly as long as the registration","Whenever the gateway says it is a client, the connection it is a client on is up and its keepalive timer runs. When the registration is given up on a connection (the last listener left, or a disconnect), the timer is stopped and every push handler of that connection is dropped in the same step; when a connection is lost its timer is stopped at once.",
  "all histories of subscribe, unsubscribe, connect, disconnect, loss, pushed messages, task starts, cancellations and exchange outcomes","all histories and interleavings",[CL+":ClientManager.async_subscribe_gateway",CL+":ClientManager.async_unsubscribe_gateway","screenlogicpy/requests/protocol.py:ScreenLogicProtocol.enable_keepalive","screenlogicpy/requests/protocol.py:ScreenLogicProtocol.disable_keepalive"])

p("C111","Overlapping calls share a healthy connection","While the gateway's connection stays up and the adapter answers every request properly, and nobody disconnects: any number of overlapping calls (polls, updates, switches, settings, subscriptions, raw messages, further connects) leave the connection alone. No call opens, closes or reconnects anything or waits for anything but its own answers, every message goes to that one connection, no call ends in a communication error, no call sends a message twice, a call that has sent a command and has ended has returned normally (so a setting either is refused before anything is sent, or is sent exactly once, confirmed and reported as done), and the gateway is still connected by the same connection afterwards.",
  "all schedules of any number of overlapping calls other than disconnects, from any connected state with no call running, with any proper answers in any order, any pushed messages and losses of other connections","all interleavings of any number of tasks",[GW+":ScreenLogicGateway",CL+":ClientManager","screenlogicpy/requests/request.py:async_make_request"])

PR="screenlogicpy/requests/protocol.py"
p("C112","An answer is a frame with the id of the question","From the bytes on the wire to the calls: whatever bytes arrive, in whatever pieces and order, an answer a call is given is one complete frame among the bytes that arrived on the connection it asked on, with the id of the frame its latest message was written as, and complete only after that frame was written; its code and payload are those of the frame; and no frame answers two questions, of whatever calls.",
  "all schedules of overlapping calls, all byte streams on all connections in all divisions into pieces, all losses, timeouts and cancellations at any time","a test sends a few well-formed answers in the expected order; the claim is about all byte streams and interleavings",[PR+":ScreenLogicProtocol.data_received",PR+":ScreenLogicProtocol.await_send_message","screenlogicpy/requests/request.py:async_make_request",GW+":ScreenLogicGateway"])
p("C113","Messages go out at once, in order, numbered","Every message a call sends is written to its connection at once and once, as one frame with its code and payload; the frames written to a connection are its messages in the order they were sent, numbered 0, 1, 2, ... modulo 32767 per connection; nothing else is ever written as a frame.",
  "all schedules of overlapping calls, all byte streams, losses, timeouts and cancellations","all interleavings of any number of tasks and connections",[PR+":ScreenLogicProtocol.send_message",PR+":ScreenLogicProtocol.await_send_message",GW+":ScreenLogicGateway"])
p("C114","A setting that returned was acknowledged on the wire","When a setting command returns without an exception, a frame that carries exactly that command was written to a connection, and a complete frame with the same id, the code plus one and no payload arrived on that connection after it was written.",
  "all schedules of overlapping calls, all byte streams in all pieces, all setting commands and arguments","the claim composes request, gateway and protocol over all byte streams and interleavings",[PR+":ScreenLogicProtocol","screenlogicpy/requests/request.py:async_make_request",GW+":ScreenLogicGateway.async_set_circuit"])
p("C115","A lost connection releases every waiting call","When a connection is lost, every call that waits for an answer on it is released as soon as the cleanup task that the loss created has run, whatever else happened before and after: running the call then ends its wait (it gets the answer that had come, or an error), however many calls wait.",
  "all schedules of overlapping calls, all byte streams, losses, timeouts and cancellations, up to 32767 messages per connection","all interleavings of any number of tasks",[PR+":ScreenLogicProtocol.connection_lost",PR+":FutureManager.all_done","screenlogicpy/requests/request.py:async_make_request"])
p("C116","Pushed data is what came on the wire","Every message handed to the client manager without being asked for is a complete frame that arrived on that connection and answered no request; frames are handed over in the order they came, none twice; and of the frames that arrive in one go exactly those with a subscribed code are handed over, a code being subscribed only after a subscription call for it. get_data() is then the answers and the pushed frames, decoded one after the other.",
  "all schedules of overlapping calls, all byte streams in all pieces, all losses, timeouts and cancellations","all byte streams and interleavings",[PR+":ScreenLogicProtocol.data_received",CL+":ClientManager._async_common_callback"])
p("C117","The byte stream of a connection","What is written to a connection, whatever calls overlap and whatever happens, is nothing at all, or the greeting followed by the frames of the messages sent on it, in order, numbered from 0, without a gap and without anything in between.",
  "all schedules of overlapping calls, all byte streams, losses, timeouts and cancellations","all interleavings of any number of tasks and connections",[PR+":ScreenLogicProtocol.send_message","screenlogicpy/requests/login.py:async_gateway_connect",GW+":ScreenLogicGateway"])
p("C118","A forced disconnect releases every waiting call","Once a connection is being closed with force, every call that waits for an answer on it is released: running the call ends its wait, without any timeout.",
  "all schedules of overlapping calls, all byte streams, losses, timeouts and cancellations, up to 32767 messages per connection","all interleavings of any number of tasks",[PR+":ScreenLogicProtocol.async_close",PR+":FutureManager.all_done",GW+":ScreenLogicGateway.async_disconnect"])
p("C119","No wait for an answer outlasts its timer","Whatever bytes arrived and whatever else happened, a call that waits for an answer waits with a timer of 2 seconds, and when the timer expires the wait is over: the call goes on with the answer that had come, or with a timeout.",
  "all schedules of overlapping calls, all byte streams in all pieces, losses, earlier timeouts and cancellations","all byte streams and interleavings",["screenlogicpy/requests/request.py:async_make_request",PR+":ScreenLogicProtocol.data_received"])
p("C120","Every call ends","If every wait ends (a reply or a timeout, a pause, an opened or refused connection, a closed one, a cancellation) and only finitely many connections are opened, then after the last call was made there is a moment from which on every call has returned or raised an error; the one exception is that all calls left wait for the subscription lock while it is held. Without a subscription call or the removal of a registration there is no exception. Also when other calls are made without end: each call that does not itself open connection after connection is over in the end, or waits for a lock that is never released again.",
  "all sets of overlapping calls, all infinite schedules with any answers, timeouts, losses and pushes, number of connections opened finite but unbounded","liveness over infinite schedules",[GW+":ScreenLogicGateway",CL+":ClientManager","screenlogicpy/requests/request.py:async_make_request"])
p("C121","The subscription lock deadlocks only across a reconnect","From a moment at which nobody holds the subscription lock, and as long as no further connection is opened, every call ends, subscriptions and disconnects included, if every wait ends and the lock is handed out fairly: no call ever waits for the lock it holds itself. Also for each call while others are made without end.",
  "all sets of overlapping calls, all infinite schedules with any answers, timeouts, losses and pushes","liveness over infinite schedules and lock interleavings",[CL+":ClientManager.async_subscribe_gateway",CL+":ClientManager.async_unsubscribe_gateway",GW+":ScreenLogicGateway.async_disconnect"])
p("C122","A data request used directly","Each of the eight data request functions, called directly with a connection and a data dictionary, sends only its own message (its code and its exact payload), on that connection, at most max_retries + 1 times, and opens or closes nothing. It returns the payload of the last reply that came, which has the code plus one and is not empty; the dictionary is changed only by decoding that payload, apart from messages pushed meanwhile. Without such a reply it writes nothing. A pump index that does not fit 32 bits is an error before anything is sent.",
  "all eight requests, all pump indices, all retry limits, all answers, timeouts, losses, cancellations and pushed data","all environment behaviours",["screenlogicpy/requests/equipment.py:async_request_equipment_config","screenlogicpy/requests/pump.py:async_request_pump_status","screenlogicpy/requests/config.py:async_request_pool_config","screenlogicpy/requests/status.py:async_request_pool_status","screenlogicpy/requests/gateway.py:async_request_gateway_version","screenlogicpy/requests/datetime.py:async_request_date_time"])

p("C123","What the client manager does by itself","While any other calls run: a keepalive ping sends at most one ping message, on the client manager's connection, waits once for its answer, and never raises, whatever the answer is or if none comes; the task that removes the client's registration sends at most one remove-client message with the client's id, waits once for its answer, and never raises, except that it ends at once with CancelledError, having sent nothing, when it is cancelled while it waits for the lock; the function that ends a subscription sends nothing, returns at once, takes exactly that callback off that code, removes the handler of that code only if no callback is left for it, and changes no data.",
  "all schedules of any number of overlapping calls, answers, timeouts, cancellations, lost connections and pushed messages before and after the ping, the removal or the end of the subscription","all interleavings of any number of tasks; these tasks are nobody's calls, so nobody sees what they raise",[CL+":ClientManager._async_ping",CL+":ClientManager.async_unsubscribe_gateway",CL+":ClientManager.async_subscribe"])
p("C124","How long a call can keep its caller waiting","While any other calls run, the timers a call starts for itself (waiting for an answer, pausing before a retry, opening a connection) add up to a bound fixed by the call and max_retries r: with q(r) = 2(r+1) + (1+2+...+r) seconds for one question with its retries, a setting or SendMessage or subscription at most 2q(r)+2 s, one get call 2q(r)+3 s, async_get_pumps eight times and async_update twelve times that, connect and disconnect 2 s; and for each connection it opens itself, 2.25 s + 3q(r) + one get + one subscription more. A negative answer, a lost connection or somebody else's reconnect never makes it longer. (The time a call waits for the client manager's lock is that of the call that holds it.)",
  "all calls, all max_retries and all schedules of any number of overlapping calls, answers, timeouts, cancellations, lost connections and pushed messages","retries inside a request, reconnect and retry around it, and the requests of the reconnect multiply; the worst schedule is not one a test would contain",[RQ+":async_make_request",GW+":ScreenLogicGateway._async_connected_request",GW+":ScreenLogicGateway.async_connect"])
p("C125","Pushed messages wait their turn and are not lost","While any other calls run: the pushed messages taken from the connections are dealt with (decoded, subscribers told) in the order in which they arrived, each exactly once, and none is skipped: at every moment those dealt with are the first ones of those that arrived; and nothing another call does (waiting, failing, holding the lock, closing the connection) keeps a message that was taken from its turn. On one connection they are complete frames that came in that order and answered no request.",
  "all schedules of overlapping calls, answers, losses, cancellations and pushed messages, and all moments at which the handlers' tasks run; for the frames all byte streams in all pieces",
  "it must hold for all interleavings of the handlers' tasks with all other calls: a test fixes one",
  [PR+":ScreenLogicProtocol.data_received",CL+":ClientManager._async_common_callback"])
p("C126","Exactly the current subscribers are told","While any other calls run: when a pushed message is dealt with, the data is updated from it and then the callbacks called are, each once, exactly those that were subscribed to its code by a call made while connected and whose unsubscribe function has not been called since, however often the gateway disconnected, reconnected or failed in between, and none if the message cannot be decoded; nothing else of the gateway changes.",
  "all schedules of overlapping calls, answers, losses, reconnects, cancellations and pushed messages",
  "it must hold for all histories of subscriptions, reconnects and pushes: a test fixes one",
  [CL+":ClientManager.async_subscribe",CL+":ClientManager._notify_listeners",CL+":ClientManager._async_common_callback"])
p("C127","A subscriber is told whatever else goes on","Take a callback subscribed to a message code and not unsubscribed, in any history of overlapping calls with losses, failures, cancellations and reconnects. As long as the client manager's connection is up and not being closed, no remove-client message was sent on it and the user has no handler of his own for the code, every unsolicited message with that code arriving there is handed over; and when the messages that came before have been dealt with, the callback is called (if the message can be decoded), whatever happens in between, even if the connection is lost.","every schedule of any calls, every adapter behaviour and loss, every subscribed code and message, every continuation of the schedule","the handler is dropped and put back at several places (reconnecting, last unsubscribe, disconnect inside a failing request); a test runs one order of them",[CL+":ClientManager.attach",CL+":ClientManager.async_subscribe",CL+":ClientManager.async_unsubscribe_gateway",CL+":ClientManager._async_common_callback",PR+":ScreenLogicProtocol.data_received"])
p("C128","From the bytes on the wire to the subscriber","Whatever pieces the adapter's bytes come in, and whatever calls are in progress: while a callback is subscribed to a code (as in C127), every message the arriving bytes complete that answers no request and has that code is handed over, exactly once and in the order of the bytes; and each of them is given to the callback in its turn if it can be decoded.","every packetisation of the incoming bytes, every schedule of calls, losses, timeouts and cancellations, every content","A test chooses a few ways to cut the stream and a few moments; here the cut may fall inside a header while other requests, reconnects and unsubscriptions of other callbacks are going on.",[PR+":ScreenLogicProtocol.data_received",PR+":ScreenLogicProtocol.register_async_message_callback",CL+":ClientManager.async_subscribe",CL+":ClientManager._async_common_callback"])
p("C129","A handler of the user's own gets each message once","A handler the user registered himself for a message code stays registered until he replaces it, removes it or the connection ends; and every message of that code that arrives on the connection and answers no request makes it run exactly once, in the order of the bytes, with that message, and makes no other handler of his run.","every packetisation of the incoming bytes, every schedule of calls, losses, timeouts and cancellations, every handler and code","A test registers one handler and pushes a message; the runs that matter have requests, subscriptions and unsubscriptions of others in between.",[GW+":ScreenLogicGateway.register_async_message_handler",GW+":ScreenLogicGateway.remove_async_message_handler",PR+":ScreenLogicProtocol.data_received",PR+":ScreenLogicProtocol.remove_all_async_message_callbacks",CL+":ClientManager.async_unsubscribe_gateway"])
p("C130","An answer that came reaches the call that asked","When a call has sent a message and waits for its answer, and neither its timer expires nor the call is cancelled, then the first message that comes with the id of that message is what the call goes on with, with its code and data: whatever other messages came before or after it in whatever pieces, whatever other calls asked, timed out or were cancelled, and also if the connection was lost or closed after it came and before the call ran again. (Less than 32767 further messages sent on the connection: then the ids start again.)",
  "all schedules of overlapping calls, all byte streams in all pieces, all timeouts and cancellations of other calls, losses and disconnects after the answer came","all byte streams and interleavings",["screenlogicpy/requests/request.py:async_make_request",PR+":ScreenLogicProtocol.data_received",PR+":ScreenLogicProtocol.connection_lost",PR+":ScreenLogicProtocol.await_send_message"])
p("C131","With the answer to its message a call is done","When a call waits for the answer to its own message and that answer has come in time (see C130), then the call ends the next time it runs, without sending anything more: a setting whose answer is an empty acknowledgement returns and leaves get_data() alone; a message sent with async_send_message returns whatever the answer holds; a query (status, chemistry, chlorinator, date and time) returns with get_data() being what its decoder makes of the old data and the answer, the bytes of the answer being in get_debug(), or, when the answer is empty, with get_data() as it was.",
  "every setting, message and query with every argument, every answer, every schedule of other calls, deliveries, timeouts, losses and reconnects before and between",
  "the answer may come in any of the attempts of a call, after a reconnect, and be followed by anything before the call runs",
  [GW+":ScreenLogicGateway._async_connected_request", "screenlogicpy/requests/request.py:async_make_request"])
p("C132","A disconnect says goodbye first","While any other calls run: async_disconnect(force) sends at most one message, the remove-client message with the client's id, waits once for its answer, and only when that wait is over begins to close one connection, with the force it was asked for, sending nothing more; the only other way it goes is that, cancelled while it waits for the subscription lock, it ends at once with CancelledError, having sent and closed nothing. If the gateway is a registered client on a connection that is open and not being closed, and the lock is free, the goodbye goes out in the same step as the call, before any other call runs.",
  "all states reachable by overlapping calls, all schedules, timeouts, cancellations, losses and answers after the call",
  "other calls may run, reconnect or be cancelled at every point at which the disconnect waits",
  [GW+":ScreenLogicGateway.async_disconnect", CL+":ClientManager.async_unsubscribe_gateway", PR+":ScreenLogicProtocol.async_close"])
p("C133","The address, the name and the MAC address","Whatever calls overlap: gateway.ip, .port and .name (and the adapter's type and subtype) start as None, 80, 'Unnamed-Screenlogic-Gateway' and change only when async_connect is called on a gateway that is not connected, which replaces exactly those it was given; every connection is opened to the ip and port the gateway then has, and never without an ip; gateway.mac is empty before the first login and afterwards always the MAC address that the adapter gave, in answer to the challenge, on the connection that is in use, on which the login was accepted.",
  "all schedules of any number of overlapping calls with any arguments, any answers, timeouts, cancellations, losses and pushed messages","all interleavings; a stale MAC address or address after some overlap of connects, retries and reconnects would not show in a test",[GW+":ScreenLogicGateway","screenlogicpy/requests/login.py:async_connect_to_gateway"])
p("C134","What discovery found can be connected to","Take any host that async_discover returned, whatever datagrams arrived and in whatever form, and pass it as the arguments of async_connect (as the README and the command line do) of a gateway that is not connected, whatever has gone on with it before: then one of the datagrams announces an adapter, and the gateway takes on exactly the announced address (in dotted form), port, type, subtype and name (without the trailing NULs), and opens a connection to exactly that address and port.",
  "all sequences of datagrams received, all hosts returned, all histories of a gateway that end disconnected","The datagrams come from any device on the network, in any number; tests use one canned response and one fresh gateway.",
  ["screenlogicpy/discovery.py:process_discovery_response","screenlogicpy/discovery.py:async_discover",GW+":ScreenLogicGateway.async_connect"])
p("C135","Answers that come late change nothing but the time","Take any state of a gateway and any call in which the adapter answers every message at its first try. Let the same answers now come later: each only after some tries of that message timed out, were refused or were answered with something else, at most as many as the retry setting (none for the keepalive ping and the removal of the client id, which are sent once), with the 1, 2, 3... second pauses between them. Then the call ends in the same way, with the same result or exception, and leaves exactly the same state - data, raw answers, connections, subscription, address - and does the same things in the same order, each late message being sent again after its pause.",
  "all states of the gateway and its client manager, all 25 kinds of calls with all arguments, all answers, all numbers and kinds of failed tries within the limit for each message of the call, including the logins and reconnects inside it","A call may send dozens of messages, each with its own number of failed tries of different kinds; tests retry single requests with a mocked protocol and never a whole call.",
  ["screenlogicpy/requests/request.py:async_make_request",GW+":ScreenLogicGateway.async_connect",GW+":ScreenLogicGateway.async_update","screenlogicpy/client.py:ClientManager.attach"])
p("C136","The command line does not show how late the answers came","Take any command line, any network during discovery and any adapter that answers every message of the run at its first try. When the same answers come later instead, each after at most as many timed out, refused or wrongly answered tries as the retry setting allows, the run prints exactly the same lines, writes the same file, broadcasts the same, ends with the same exit code or the same escaping exception, and leaves the gateway in the same state.",
  "all commands with all arguments and options, all discovery networks, all answers, all numbers and kinds of failed tries for each of the messages of the run","A run sends fifteen to thirty messages, each of which may be late in its own way; tests of the command line use a mocked gateway that always answers.",
  ["screenlogicpy/cli.py:cli","screenlogicpy/requests/request.py:async_make_request",GW+":ScreenLogicGateway.async_update"])
p("C137","The retry setting matters only when answers are late","Take any gateway, any call other than set_max_retries and any adapter that answers every message of the call at its first try: with any other (non-negative) retry setting the call sends the same messages, waits for the same things, ends in the same way and leaves the same state, the setting itself excepted. And if the answers come later, each after at most as many failed tries as the other setting allows, the call still ends in that way and leaves that state: raising the setting never changes what a call that would have succeeded does, lowering it changes nothing while the adapter keeps up.","any state, any call and arguments, any pair of non-negative retry settings, any sequence of answers and any number of failed tries within the setting","A test runs one call under one or two settings; the claim compares every call in every state under every two settings.",["screenlogicpy/client.py:ClientManager.attach",GW+":ScreenLogicGateway._async_connected_request",GW+":ScreenLogicGateway.set_max_retries","screenlogicpy/requests/request.py:async_make_request"])
p("C138","The host's clock matters to nothing but the recorded host time","Setting the host's clock forward or back, at any moment and as often as one likes, changes nothing a call does: with the same answers from the adapter every call sends the same messages, waits for the same things for the same durations, ends in the same way and leaves the gateway in the same state, except that async_get_datetime and async_update record the host's time next to the adapter's (controller, date_time, timestamp_host). No other entry of the data depends on it, and no other call's data does at all.","any state, any of the calls with any arguments, any answers, any host clock at the start and at every resumption","The clock can be stepped at every one of the many waits of a call; tests run in real time and none compares two runs.",["screenlogicpy/requests/datetime.py:decode_date_time","screenlogicpy/requests/request.py:async_make_request",GW+":ScreenLogicGateway._async_connected_request",GW+":ScreenLogicGateway.async_update"])
p("C139","The client id matters to nothing but the subscription messages","Two gateways in the same state but for their client ids (whichever two 32-bit numbers), told the same by the adapter, do the same in every call: the same messages with the same payloads on the same connections, the same waits and pauses, the same result or exception, and the same state afterwards. Only the payload of the messages that subscribe and unsubscribe the client may differ, and there only by the one id standing for the other.","any state, any call with any arguments, any answers, any two client ids","Ids are chosen at random: a test sees a few, and none compares two runs of a call under two ids.",["screenlogicpy/client.py:ClientManager","screenlogicpy/requests/client.py:async_request_add_client",GW+":ScreenLogicGateway._async_connected_request"])
here = os.path.dirname(os.path.abspath(__file__))
if __name__ == "__main__":
    with open(os.path.join(here, "..", "properties.jsonl"), "w") as f:
        for x in P:
            if len(x["why_tests_cant"]) < 45:
                x["why_tests_cant"] = "it must hold for " + x["quantifier"] + ": a test fixes finitely many of these"
            f.write(json.dumps(x, ensure_ascii=False) + "\n")
    print(len(P))
