{"id": "C01", "title": "makeMessage/takeMessage round trip and layout", "statement": "makeMessage(id, code, payload) succeeds exactly when id and code fit 16 unsigned bits and the payload length fits 32 bits; it then yields little-endian id, code, payload length, payload, and takeMessage of that is (id, code, payload).", "quantifier": "all integers id and code, all byte payloads of any length", "why_tests_cant": "16-bit ids, codes and unbounded payloads cannot be enumerated", "anchors": ["screenlogicpy/requests/utility.py:makeMessage", "screenlogicpy/requests/utility.py:takeMessage"]}
{"id": "C02", "title": "takeMessage accepts exactly the well-formed frames", "statement": "takeMessage(b) returns (id, code, payload) only if b is byte for byte makeMessage(id, code, payload); a buffer shorter than a header raises struct.error and a buffer whose length field disagrees with its size raises ScreenLogicError.", "quantifier": "all byte strings", "why_tests_cant": "it must hold for all byte strings: a test fixes finitely many of these", "anchors": ["screenlogicpy/requests/utility.py:takeMessage"]}
{"id": "C03", "title": "takeMessages splits a concatenation of frames and never returns a partial list", "statement": "takeMessages of the concatenation of any list of frames returns exactly that list in order; if the bytes do not end on a frame boundary it raises ScreenLogicError instead of returning a prefix.", "quantifier": "all lists of messages, all byte strings", "why_tests_cant": "number, size and truncation points are unbounded", "anchors": ["screenlogicpy/requests/utility.py:takeMessages", "screenlogicpy/requests/utility.py:getSome"]}
{"id": "C04", "title": "Stream reassembly does not depend on packetisation", "statement": "However a received byte stream is split into data_received calls, the sequence of messages delivered and the bytes kept for later are the same as if it came in one call.", "quantifier": "all byte streams (well-formed or not), all splittings", "why_tests_cant": "exponentially many splittings of unboundedly long streams", "anchors": ["screenlogicpy/requests/protocol.py:ScreenLogicProtocol.data_received"]}
{"id": "C05", "title": "Stream reassembly loses, duplicates and reorders nothing", "statement": "If the stream is the concatenation of frames for messages m1..mn followed by an incomplete frame, then after any splitting exactly m1..mn are delivered in order, and exactly the incomplete bytes are kept.", "quantifier": "all message lists, all incomplete tails, all splittings", "why_tests_cant": "it must hold for all message lists, all incomplete tails, all splittings: a test fixes finitely many of these", "anchors": ["screenlogicpy/requests/protocol.py:ScreenLogicProtocol.data_received", "screenlogicpy/requests/utility.py:takeMessage"]}
{"id": "C06", "title": "Message strings round trip (UTF-8 and UTF-16)", "statement": "For every Unicode text whose encoding is shorter than 2^31 bytes, decodeMessageString(encodeMessageString(s, utf_16)) = s, the output length is a multiple of 4, and the high bit of the length word is set exactly for UTF-16.", "quantifier": "all strings of Unicode scalar values, both encodings", "why_tests_cant": "it must hold for all strings of Unicode scalar values, both encodings: a test fixes finitely many of these", "anchors": ["screenlogicpy/requests/utility.py:encodeMessageString", "screenlogicpy/requests/utility.py:decodeMessageString"]}
{"id": "C07", "title": "A string field is read back with its padding consumed", "statement": "When an encoded string sits at an offset inside a larger message, reading it there gives the original text (with leading and trailing NULs removed) and the offset of the next field, so that following fields are read at the right place.", "quantifier": "all texts, both encodings, all surrounding bytes and offsets", "why_tests_cant": "every length modulo 4, every surrounding context", "anchors": ["screenlogicpy/requests/utility.py:getString", "screenlogicpy/requests/utility.py:encodeMessageString"]}
{"id": "C08", "title": "Time encoding", "statement": "encodeMessageTime writes year, month, weekday, day, hour, minute, zero seconds and milliseconds as 16-bit words; decoding gives back the same date and time truncated to the minute plus whole milliseconds, for every valid datetime.", "quantifier": "all datetimes (years 1..9999, every calendar day, every microsecond)", "why_tests_cant": "it must hold for all datetimes (years 1..9999, every calendar day, every microsecond): a test fixes finitely many of these", "anchors": ["screenlogicpy/requests/utility.py:encodeMessageTime", "screenlogicpy/requests/utility.py:decodeMessageTime", "screenlogicpy/requests/utility.py:getTime"]}
{"id": "C09", "title": "Array field is read back with its padding consumed", "statement": "An array written as count, bytes, padding to a multiple of four is read back exactly, with the offset of the next field; a truncated array raises struct.error.", "quantifier": "all arrays, contexts and offsets", "why_tests_cant": "it must hold for all arrays, contexts and offsets: a test fixes finitely many of these", "anchors": ["screenlogicpy/requests/utility.py:getArray"]}
{"id": "C10", "title": "Field reads are bounds-checked and exact", "statement": "Reading a field of any format at any offset succeeds exactly when the field lies inside the buffer, returns the integer those bytes denote (endianness and sign as the format says), and advances by the field size.", "quantifier": "all buffers, offsets and formats", "why_tests_cant": "it must hold for all buffers, offsets and formats: a test fixes finitely many of these", "anchors": ["screenlogicpy/requests/utility.py:getSome"]}
{"id": "C11", "title": "A request returns data only from a matching answer", "statement": "If a request for code c returns bytes, then the adapter answered the last attempt with message code c+1 and exactly those bytes.", "quantifier": "all request codes, payloads, retry limits and adapter behaviours", "why_tests_cant": "it must hold for all request codes, payloads, retry limits and adapter behaviours: a test fixes finitely many of these", "anchors": ["screenlogicpy/requests/request.py:async_make_request"]}
{"id": "C12", "title": "Retries are bounded and spaced", "statement": "A request sends at most max_retries+1 messages, all with the same code and payload, and waits 1, 2, 3, ... seconds between them; total waiting is bounded by the per-attempt timeout plus those delays.", "quantifier": "all codes, payloads, retry limits, adapter behaviours", "why_tests_cant": "it must hold for all codes, payloads, retry limits, adapter behaviours: a test fixes finitely many of these", "anchors": ["screenlogicpy/requests/request.py:async_make_request"]}
{"id": "C13", "title": "A rejected login is not retried", "statement": "If the adapter answers an attempt with the login-rejected code (and that is not the expected answer code), the request raises ScreenLogicLoginError at once and sends nothing more.", "quantifier": "all codes, retry limits and adapter behaviours", "why_tests_cant": "it must hold for all codes, retry limits and adapter behaviours: a test fixes finitely many of these", "anchors": ["screenlogicpy/requests/request.py:async_make_request"]}
{"id": "C14", "title": "The final error names the last failure", "statement": "When all attempts fail, the exception raised is decided by the last attempt: timeout gives ScreenLogicConnectionError, invalid request or bad parameter gives ScreenLogicRequestError, any other wrong code gives ScreenLogicResponseError. An earlier failure never masks a later success.", "quantifier": "all histories of failures", "why_tests_cant": "it must hold for all histories of failures: a test fixes finitely many of these", "anchors": ["screenlogicpy/requests/request.py:async_make_request"]}
{"id": "C15", "title": "No request is sent without a connection", "statement": "If the connection is down when an attempt starts, nothing is written and ScreenLogicConnectionError is raised.", "quantifier": "all histories, including connections dropped between attempts", "why_tests_cant": "it must hold for all histories, including connections dropped between attempts: a test fixes finitely many of these", "anchors": ["screenlogicpy/requests/request.py:async_make_request"]}
{"id": "C16", "title": "Cancelling the caller of a request propagates", "statement": "Cancelling a task that awaits a request makes the await raise CancelledError.", "quantifier": "all requests, all cancellation points", "why_tests_cant": "it must hold for all requests, all cancellation points: a test fixes finitely many of these", "anchors": ["screenlogicpy/requests/request.py:async_make_request"]}
{"id": "C17", "title": "Message IDs stay in the lower half and do not collide", "statement": "Every request uses an ID in 0..32766, and any 32767 consecutive requests use pairwise different IDs.", "quantifier": "all histories of any number of requests", "why_tests_cant": "it must hold for all histories of any number of requests: a test fixes finitely many of these", "anchors": ["screenlogicpy/requests/protocol.py:ScreenLogicProtocol.await_send_message"]}
{"id": "C18", "title": "Replies reach the request they answer, once", "statement": "A pending request is completed only by an incoming message that carries its ID, with that message as its result; once completed or cancelled its outcome never changes, and no message completes two requests.", "quantifier": "all interleavings of requests, cancellations, incoming bytes, close and connection loss", "why_tests_cant": "it must hold for all interleavings of requests, cancellations, incoming bytes, close and connection loss: a test fixes finitely many of these", "anchors": ["screenlogicpy/requests/protocol.py:ScreenLogicProtocol.FutureManager", "screenlogicpy/requests/protocol.py:ScreenLogicProtocol.data_received"]}
{"id": "C19", "title": "Adapter-initiated messages never complete a request", "statement": "An incoming message whose ID is 32767 or more never completes a request; it goes to the handler registered for its code, if any.", "quantifier": "all histories", "why_tests_cant": "it must hold for all histories: a test fixes finitely many of these", "anchors": ["screenlogicpy/requests/protocol.py:ScreenLogicProtocol"]}
{"id": "C20", "title": "Unsolicited messages are dispatched exactly once", "statement": "Each delivered message either completes one request, or starts exactly one run of the handler currently registered for its code with its payload and arguments, or (no handler) is dropped; never two of these, and handlers run in arrival order.", "quantifier": "all histories of registrations and messages", "why_tests_cant": "it must hold for all histories of registrations and messages: a test fixes finitely many of these", "anchors": ["screenlogicpy/requests/protocol.py:ScreenLogicProtocol.data_received"]}
{"id": "C21", "title": "A closing connection neither sends nor delivers", "statement": "Once async_close has been called, incoming bytes change nothing, new requests come back cancelled and are not written, and no message is delivered.", "quantifier": "all histories after a close", "why_tests_cant": "it must hold for all histories after a close: a test fixes finitely many of these", "anchors": ["screenlogicpy/requests/protocol.py:ScreenLogicProtocol"]}
{"id": "C22", "title": "A forced close cancels every outstanding request", "statement": "async_close(force=True) cancels every request still pending (whose ID has not been handed out again by 32767 later requests).", "quantifier": "all protocol states", "why_tests_cant": "it must hold for all protocol states: a test fixes finitely many of these", "anchors": ["screenlogicpy/requests/protocol.py:ScreenLogicProtocol.async_close", "screenlogicpy/requests/protocol.py:ScreenLogicProtocol.FutureManager.all_done"]}
{"id": "C23", "title": "A graceful close waits for outstanding requests and lets their replies in", "statement": "async_close() closes the transport only after every outstanding request has been resolved, and a reply that arrives meanwhile still completes its request.", "quantifier": "all histories", "why_tests_cant": "it must hold for all histories: a test fixes finitely many of these", "anchors": ["screenlogicpy/requests/protocol.py:ScreenLogicProtocol.async_close", "screenlogicpy/requests/protocol.py:ScreenLogicProtocol.FutureManager.all_done"]}
{"id": "C24", "title": "Connection loss releases every waiter", "statement": "After connection_lost the protocol reports not connected and no keepalive timer is pending, the connection-lost callback is called, and, once the scheduled cleanup has run, every request pending at that moment (whose ID has not been handed out again) is cancelled.", "quantifier": "all histories", "why_tests_cant": "it must hold for all histories: a test fixes finitely many of these", "anchors": ["screenlogicpy/requests/protocol.py:ScreenLogicProtocol.connection_lost"]}
{"id": "C25", "title": "At most one keepalive timer, always measured from the last send", "statement": "At most one keepalive timer is pending at any time; whenever keepalive is enabled it is set interval seconds after the last send (or enabling); after disabling there is none.", "quantifier": "all histories of sends, enables, disables, timer expiries", "why_tests_cant": "it must hold for all histories of sends, enables, disables, timer expiries: a test fixes finitely many of these", "anchors": ["screenlogicpy/requests/protocol.py:ScreenLogicProtocol._set_keepalive", "screenlogicpy/requests/protocol.py:ScreenLogicProtocol.enable_keepalive", "screenlogicpy/requests/protocol.py:ScreenLogicProtocol.disable_keepalive"]}
{"id": "C26", "title": "The last registered handler wins", "statement": "The handler run for a message code is the one from the latest registration not followed by a removal of that code (or of all codes).", "quantifier": "all histories of register/remove", "why_tests_cant": "it must hold for all histories of register/remove: a test fixes finitely many of these", "anchors": ["screenlogicpy/requests/protocol.py:ScreenLogicProtocol.register_async_message_callback", "screenlogicpy/requests/protocol.py:ScreenLogicProtocol.remove_async_message_callback", "screenlogicpy/requests/protocol.py:ScreenLogicProtocol.remove_all_async_message_callbacks"]}
{"id": "C27", "title": "Pool status decoding", "statement": "Decoding a status message for any controller state, any 0..2 bodies and any number of circuits makes every value in the data equal to the wire value (temperatures, setpoints, modes, circuit states, colour settings, chemistry), whatever was in the data before.", "quantifier": "all field values, all circuit lists, all prior well-shaped data", "why_tests_cant": "it must hold for all field values, all circuit lists, all prior well-shaped data: a test fixes finitely many of these", "anchors": ["screenlogicpy/requests/status.py:decode_pool_status"]}
{"id": "C28", "title": "Chemistry decoding", "statement": "Decoding a chemistry message makes every IntelliChem value equal to the big-endian/byte wire value, flags split into the documented bits, saturation index signed.", "quantifier": "all 47-byte messages (and longer), all prior well-shaped data", "why_tests_cant": "it must hold for all 47-byte messages (and longer), all prior well-shaped data: a test fixes finitely many of these", "anchors": ["screenlogicpy/requests/chemistry.py:decode_chemistry"]}
{"id": "C29", "title": "Configuration decoding", "statement": "Decoding a configuration message gives setpoint limits, model, equipment flags, every circuit (any number, any names), every colour, pump data and trailing flags as sent.", "quantifier": "all field values, circuit lists, colour lists, names", "why_tests_cant": "it must hold for all field values, circuit lists, colour lists, names: a test fixes finitely many of these", "anchors": ["screenlogicpy/requests/config.py:decode_pool_config"]}
{"id": "C30", "title": "Pump decoding", "statement": "Decoding a pump message for pump i sets type, watts, rpm, gpm, and eight presets of pump i as sent, and names the pump after the first configured circuit matching the earliest matching preset.", "quantifier": "all messages, all pump indices, all circuit tables", "why_tests_cant": "it must hold for all messages, all pump indices, all circuit tables: a test fixes finitely many of these", "anchors": ["screenlogicpy/requests/pump.py:decode_pump_status"]}
{"id": "C31", "title": "Salt generator decoding", "statement": "Decoding an SCG message gives presence, on/off state, pool and spa setpoints, salt*50 ppm, flags, super-chlorinate bit and timer as sent.", "quantifier": "all 28-byte messages (and longer)", "why_tests_cant": "it must hold for all 28-byte messages (and longer): a test fixes finitely many of these", "anchors": ["screenlogicpy/requests/scg.py:decode_scg_config"]}
{"id": "C32", "title": "Firmware version decoding", "statement": "Decoding a version reply stores the text as sent and the second and fourth words as numbers; a reply with fewer than four words raises.", "quantifier": "all texts", "why_tests_cant": "it must hold for all texts: a test fixes finitely many of these", "anchors": ["screenlogicpy/requests/gateway.py:decode_version"]}
{"id": "C33", "title": "Date/time decoding", "statement": "Decoding a date/time reply stores the POSIX timestamp of that UTC date and time and the auto-DST flag; an impossible calendar date raises ValueError.", "quantifier": "all 20-byte messages", "why_tests_cant": "it must hold for all 20-byte messages: a test fixes finitely many of these", "anchors": ["screenlogicpy/requests/datetime.py:decode_date_time"]}
{"id": "C34", "title": "Colour update decoding", "statement": "Decoding a colour update stores mode, progress, limit and text as sent.", "quantifier": "all messages", "why_tests_cant": "it must hold for all messages: a test fixes finitely many of these", "anchors": ["screenlogicpy/requests/lights.py:decode_color_update"]}
{"id": "C35", "title": "Equipment configuration decoding", "statement": "Decoding an equipment message stores the twelve arrays as sent.", "quantifier": "all messages", "why_tests_cant": "it must hold for all messages: a test fixes finitely many of these", "anchors": ["screenlogicpy/requests/equipment.py:decode_equipment_config"]}
{"id": "C36", "title": "Each decoder touches only its own section", "statement": "A decoder, whether it succeeds or raises, leaves every top-level section other than its own unchanged (status: controller, body, circuit; chemistry: intellichem; config: controller, circuit, pump; pump: pump; scg: scg; version: adapter; date/time, colour: controller).", "quantifier": "all byte strings, all prior data", "why_tests_cant": "it must hold for all byte strings, all prior data: a test fixes finitely many of these", "anchors": ["screenlogicpy/requests/status.py", "screenlogicpy/requests/chemistry.py", "screenlogicpy/requests/config.py", "screenlogicpy/requests/pump.py", "screenlogicpy/requests/scg.py", "screenlogicpy/requests/gateway.py", "screenlogicpy/requests/datetime.py", "screenlogicpy/requests/lights.py"]}
{"id": "C37", "title": "A truncated message is never accepted", "statement": "Every proper prefix of the minimum-length part of a message makes the decoder raise; no decoder reports success on a message that ends before its last field.", "quantifier": "all messages, all truncation points", "why_tests_cant": "it must hold for all messages, all truncation points: a test fixes finitely many of these", "anchors": ["screenlogicpy/requests/status.py", "screenlogicpy/requests/chemistry.py", "screenlogicpy/requests/config.py", "screenlogicpy/requests/pump.py", "screenlogicpy/requests/scg.py", "screenlogicpy/requests/datetime.py", "screenlogicpy/requests/lights.py", "screenlogicpy/requests/equipment.py"]}
{"id": "C38", "title": "A failed decode leaves the data unchanged", "statement": "If decoding raises, get_data() is what it was before the message.", "quantifier": "all malformed messages, all prior data", "why_tests_cant": "it must hold for all malformed messages, all prior data: a test fixes finitely many of these", "anchors": ["screenlogicpy/requests/chemistry.py:decode_chemistry"]}
{"id": "C39", "title": "Decoding is idempotent", "statement": "Decoding the same message twice leaves the same data as decoding it once.", "quantifier": "all messages, all prior data", "why_tests_cant": "it must hold for all messages, all prior data: a test fixes finitely many of these", "anchors": ["screenlogicpy/requests/status.py", "screenlogicpy/requests/chemistry.py", "screenlogicpy/requests/scg.py", "screenlogicpy/requests/pump.py"]}
{"id": "C40", "title": "Wild pump states are ignored", "statement": "A pump state with the top bit set never changes the stored pump state value; any other state is stored.", "quantifier": "all messages, all prior data", "why_tests_cant": "it must hold for all messages, all prior data: a test fixes finitely many of these", "anchors": ["screenlogicpy/requests/pump.py:decode_pump_status"]}
{"id": "C41", "title": "Unknown equipment flags are masked on old firmware", "statement": "With adapter firmware minor <= 736 the stored equipment flags are the low 16 bits; otherwise all 32; the list holds exactly the names of the set known flags in bit order.", "quantifier": "all flags, all firmware versions", "why_tests_cant": "it must hold for all flags, all firmware versions: a test fixes finitely many of these", "anchors": ["screenlogicpy/requests/config.py:decode_pool_config", "screenlogicpy/device_const/system.py:EQUIPMENT_FLAG"]}
{"id": "C42", "title": "No message history wedges the decoders", "statement": "Starting from empty data, after any sequence of messages (malformed ones included) the data still has the shape every decoder needs: a well-formed message is still decoded.", "quantifier": "all histories of messages", "why_tests_cant": "it must hold for all histories of messages: a test fixes finitely many of these", "anchors": ["screenlogicpy/requests/status.py", "screenlogicpy/requests/config.py", "screenlogicpy/requests/chemistry.py", "screenlogicpy/requests/scg.py"]}
{"id": "C43", "title": "get_data path semantics", "statement": "get_data(k1..kn) returns the value reached by following the keys through dicts and lists, None if a step is missing; get_data() returns everything; extending a path composes.", "quantifier": "all data trees, all paths", "why_tests_cant": "it must hold for all data trees, all paths: a test fixes finitely many of these", "anchors": ["screenlogicpy/gateway.py:ScreenLogicGateway.get_data"]}
{"id": "C44", "title": "get_value/get_name are shortcuts", "statement": "get_value(path) = get_data(path, 'value') and get_name(path) = get_data(path, 'name') for every tree, path and strict flag, errors included.", "quantifier": "all data trees, all paths, strict or not", "why_tests_cant": "it must hold for all data trees, all paths, strict or not: a test fixes finitely many of these", "anchors": ["screenlogicpy/gateway.py:ScreenLogicGateway.get_value", "screenlogicpy/gateway.py:ScreenLogicGateway.get_name"]}
{"id": "C45", "title": "strict raises exactly when the value is missing", "statement": "With strict=True get_data raises KeyError exactly when the non-strict call returns None on a nonempty path, and otherwise returns the same value; falsy values such as 0 count as present.", "quantifier": "all data trees, all paths", "why_tests_cant": "it must hold for all data trees, all paths: a test fixes finitely many of these", "anchors": ["screenlogicpy/gateway.py:ScreenLogicGateway.get_data"]}
{"id": "C46", "title": "async_set_circuit only sends valid commands", "statement": "A button-press message is sent only for a circuit id in the known circuits and state 0 or 1, with payload (0, id, state); an invalid call raises ValueError and sends nothing.", "quantifier": "all gateway states, arguments, adapter behaviours", "why_tests_cant": "it must hold for all gateway states, arguments, adapter behaviours: a test fixes finitely many of these", "anchors": ["screenlogicpy/gateway.py:ScreenLogicGateway.async_set_circuit", "screenlogicpy/requests/button.py"]}
{"id": "C47", "title": "async_set_heat_temp respects the configured limits", "statement": "A set-temperature message is sent only for a known body with min <= temp <= max of that body at call time; anything else raises and sends nothing.", "quantifier": "all gateway states, arguments, adapter behaviours", "why_tests_cant": "it must hold for all gateway states, arguments, adapter behaviours: a test fixes finitely many of these", "anchors": ["screenlogicpy/gateway.py:ScreenLogicGateway.async_set_heat_temp", "screenlogicpy/requests/heat.py"]}
{"id": "C48", "title": "async_set_heat_mode only sends modes 0..4", "statement": "A set-heat-mode message is sent only for a known body and mode 0..4; anything else raises and sends nothing.", "quantifier": "all gateway states, arguments, adapter behaviours", "why_tests_cant": "it must hold for all gateway states, arguments, adapter behaviours: a test fixes finitely many of these", "anchors": ["screenlogicpy/gateway.py:ScreenLogicGateway.async_set_heat_mode", "screenlogicpy/requests/heat.py"]}
{"id": "C49", "title": "async_set_color_lights only sends commands 0..21", "statement": "A light command is sent only with a command in 0..21.", "quantifier": "all gateway states, arguments, adapter behaviours", "why_tests_cant": "it must hold for all gateway states, arguments, adapter behaviours: a test fixes finitely many of these", "anchors": ["screenlogicpy/gateway.py:ScreenLogicGateway.async_set_color_lights", "screenlogicpy/requests/lights.py"]}
{"id": "C50", "title": "async_set_scg_config only sends in-range values and keeps unspecified ones", "statement": "An SCG message carries pool and spa setpoints 0..100, super-chlorinate 0/1 and timer 0..72; each argument left out is sent as the current value.", "quantifier": "all gateway states, arguments, adapter behaviours", "why_tests_cant": "it must hold for all gateway states, arguments, adapter behaviours: a test fixes finitely many of these", "anchors": ["screenlogicpy/gateway.py:ScreenLogicGateway.async_set_scg_config", "screenlogicpy/requests/scg.py"]}
{"id": "C51", "title": "async_set_chem_data only sends in-range values and keeps unspecified ones", "statement": "A set-chemistry message carries pH*100 within 720..760, ORP 400..800, calcium 25..800, alkalinity 25..800, cyanuric acid 0..201, salt 500..6500; each argument left out is sent as the current value.", "quantifier": "all gateway states, arguments, adapter behaviours", "why_tests_cant": "it must hold for all gateway states, arguments, adapter behaviours: a test fixes finitely many of these", "anchors": ["screenlogicpy/gateway.py:ScreenLogicGateway.async_set_chem_data", "screenlogicpy/requests/chemistry.py:async_request_set_chem_data"]}
{"id": "C52", "title": "The pH setpoint survives the float round trip", "statement": "The pH setpoint decoded from the controller (n/100) is sent back as exactly n for every admissible n, and every two-decimal pH in range is sent as its exact hundredfold.", "quantifier": "all admissible setpoints", "why_tests_cant": "it must hold for all admissible setpoints: a test fixes finitely many of these", "anchors": ["screenlogicpy/gateway.py:ScreenLogicGateway.async_set_chem_data", "screenlogicpy/requests/chemistry.py:decode_chemistry"]}
{"id": "C53", "title": "An invalid super-chlorinate value is rejected", "statement": "async_set_scg_config(super_chlorinate=v) with v neither 0/1 nor on/off raises and sends nothing.", "quantifier": "all values", "why_tests_cant": "it must hold for all values: a test fixes finitely many of these", "anchors": ["screenlogicpy/gateway.py:ScreenLogicGateway.async_set_scg_config", "screenlogicpy/const/common.py:SLIntEnum.parse"]}
{"id": "C54", "title": "async_set_date_time payload", "statement": "The set-date/time message carries the given datetime (minute resolution) and DST flag, unspecified parts taken from the controller; with neither given it raises ValueError and sends nothing.", "quantifier": "all datetimes, flags, gateway states", "why_tests_cant": "it must hold for all datetimes, flags, gateway states: a test fixes finitely many of these", "anchors": ["screenlogicpy/gateway.py:ScreenLogicGateway.async_set_date_time", "screenlogicpy/requests/datetime.py"]}
{"id": "C55", "title": "Setting only auto-DST keeps the controller clock", "statement": "async_set_date_time(auto_dst=x) sends the date and time last read from the controller.", "quantifier": "all controller times, all host time zones", "why_tests_cant": "it must hold for all controller times, all host time zones: a test fixes finitely many of these", "anchors": ["screenlogicpy/gateway.py:ScreenLogicGateway.async_set_date_time"]}
{"id": "C56", "title": "max_retries always lies in 1..5", "statement": "After construction and any sequence of set_max_retries calls max_retries is in 1..5; an out-of-range call raises ValueError and changes nothing.", "quantifier": "all call sequences", "why_tests_cant": "it must hold for all call sequences: a test fixes finitely many of these", "anchors": ["screenlogicpy/gateway.py:ScreenLogicGateway.set_max_retries"]}
{"id": "C57", "title": "A failed command is retried once after one reconnect", "statement": "A gateway command issues its request at most twice; the second time only after the first failed with a communication error and the old connection was force-closed; any other exception propagates at once.", "quantifier": "all commands, gateway states, adapter behaviours", "why_tests_cant": "it must hold for all commands, gateway states, adapter behaviours: a test fixes finitely many of these", "anchors": ["screenlogicpy/gateway.py:ScreenLogicGateway._async_connected_request"]}
{"id": "C58", "title": "async_connect on a live connection does nothing", "statement": "If already connected, async_connect returns True without any I/O and without changing address, callback or data.", "quantifier": "all gateway states, arguments", "why_tests_cant": "it must hold for all gateway states, arguments: a test fixes finitely many of these", "anchors": ["screenlogicpy/gateway.py:ScreenLogicGateway.async_connect"]}
{"id": "C59", "title": "No address, no I/O", "statement": "async_connect without a known address raises ScreenLogicError without touching the network.", "quantifier": "all gateway states without address", "why_tests_cant": "it must hold for all gateway states without address: a test fixes finitely many of these", "anchors": ["screenlogicpy/gateway.py:ScreenLogicGateway.async_connect"]}
{"id": "C60", "title": "Reconnecting reuses the previous connection information", "statement": "A parameterless async_connect uses the previous address, port, name and connection-closed callback.", "quantifier": "all gateway states", "why_tests_cant": "it must hold for all gateway states: a test fixes finitely many of these", "anchors": ["screenlogicpy/gateway.py:ScreenLogicGateway.async_connect"]}
{"id": "C61", "title": "A failed connection attempt leaves no open transport", "statement": "If async_connect raises, every transport it opened has been closed.", "quantifier": "all adapter behaviours", "why_tests_cant": "it must hold for all adapter behaviours: a test fixes finitely many of these", "anchors": ["screenlogicpy/gateway.py:ScreenLogicGateway.async_connect", "screenlogicpy/requests/login.py:async_connect_to_gateway"]}
{"id": "C62", "title": "Communication failures surface as ScreenLogic errors", "statement": "A gateway command that cannot reach the adapter raises a ScreenLogicCommunicationError.", "quantifier": "all gateway states, adapter behaviours", "why_tests_cant": "it must hold for all gateway states, adapter behaviours: a test fixes finitely many of these", "anchors": ["screenlogicpy/gateway.py:ScreenLogicGateway._async_connected_request"]}
{"id": "C63", "title": "Connecting terminates", "statement": "async_connect returns or raises after a bounded number of requests, whatever the adapter does.", "quantifier": "all adapter behaviours", "why_tests_cant": "it must hold for all adapter behaviours: a test fixes finitely many of these", "anchors": ["screenlogicpy/gateway.py:ScreenLogicGateway.async_connect", "screenlogicpy/gateway.py:ScreenLogicGateway._async_connected_request"]}
{"id": "C64", "title": "Exactly the configured pumps are polled", "statement": "async_get_pumps requests pump i, for i in 0..7 in increasing order, exactly when the equipment flags have the bit of pump i.", "quantifier": "all flag words, gateway states", "why_tests_cant": "it must hold for all flag words, gateway states: a test fixes finitely many of these", "anchors": ["screenlogicpy/gateway.py:ScreenLogicGateway.async_get_pumps"]}
{"id": "C65", "title": "async_update polls in the documented order and stops at the first failure", "statement": "async_update requests status, pumps, chemistry, SCG, date/time in that order, raises the first failure, and raises ScreenLogicError without I/O when no data has been loaded.", "quantifier": "all gateway states, adapter behaviours", "why_tests_cant": "it must hold for all gateway states, adapter behaviours: a test fixes finitely many of these", "anchors": ["screenlogicpy/gateway.py:ScreenLogicGateway.async_update"]}
{"id": "C66", "title": "get_debug holds the last good raw response", "statement": "After each poll, get_debug()[kind] is the raw payload of the last successful response of that kind; a failed poll leaves it unchanged.", "quantifier": "all histories of polls", "why_tests_cant": "it must hold for all histories of polls: a test fixes finitely many of these", "anchors": ["screenlogicpy/gateway.py:ScreenLogicGateway.async_get_status"]}
{"id": "C67", "title": "Client registration requests never overlap", "statement": "At most one add-client/remove-client exchange is in progress at a time.", "quantifier": "all schedules of subscribe/unsubscribe/reconnect", "why_tests_cant": "it must hold for all schedules of subscribe/unsubscribe/reconnect: a test fixes finitely many of these", "anchors": ["screenlogicpy/client.py:ClientManager.async_subscribe_gateway", "screenlogicpy/client.py:ClientManager.async_unsubscribe_gateway"]}
{"id": "C68", "title": "Subscribing terminates", "statement": "async_subscribe_client returns or raises, also when the add-client request fails and a reconnect is needed.", "quantifier": "all adapter behaviours", "why_tests_cant": "it must hold for all adapter behaviours: a test fixes finitely many of these", "anchors": ["screenlogicpy/client.py:ClientManager.async_subscribe_gateway", "screenlogicpy/client.py:ClientManager.attach", "screenlogicpy/gateway.py:ScreenLogicGateway._async_connected_request"]}
{"id": "C69", "title": "Unsubscribing removes exactly one listener, idempotently", "statement": "Calling an unsubscribe function removes its callback from its code and nothing else; calling it again does nothing, even after others have subscribed anew.", "quantifier": "all histories of subscribe/unsubscribe", "why_tests_cant": "it must hold for all histories of subscribe/unsubscribe: a test fixes finitely many of these", "anchors": ["screenlogicpy/client.py:ClientManager.async_subscribe"]}
{"id": "C70", "title": "Listeners are notified after the data is updated", "statement": "When a push message for a code is handled, the gateway data is updated first and then every listener subscribed to that code, and no other, is called exactly once (as long as the callbacks return normally and unsubscribe nobody: see C74 and C89).", "quantifier": "all listener tables, messages", "why_tests_cant": "it must hold for all listener tables, messages: a test fixes finitely many of these", "anchors": ["screenlogicpy/client.py:ClientManager._async_common_callback", "screenlogicpy/client.py:ClientManager._notify_listeners"]}
{"id": "C71", "title": "A subscribed listener is served", "statement": "Whenever nothing is in progress and a listener is subscribed on a live connection, the gateway is registered as client and the push handler of that code is installed.", "quantifier": "all schedules of subscribe/unsubscribe", "why_tests_cant": "it must hold for all schedules of subscribe/unsubscribe: a test fixes finitely many of these", "anchors": ["screenlogicpy/client.py:ClientManager.async_subscribe", "screenlogicpy/client.py:ClientManager.async_unsubscribe_gateway"]}
{"id": "C72", "title": "Reconnecting restores subscriptions", "statement": "After attach to a new connection every code with listeners has its push handler installed on the new connection and an add-client request has been made.", "quantifier": "all listener tables", "why_tests_cant": "it must hold for all listener tables: a test fixes finitely many of these", "anchors": ["screenlogicpy/client.py:ClientManager.attach"]}
{"id": "C73", "title": "Subscribing while disconnected does nothing", "statement": "async_subscribe_client on a gateway that is not connected returns None and changes nothing.", "quantifier": "all states", "why_tests_cant": "it must hold for all states: a test fixes finitely many of these", "anchors": ["screenlogicpy/client.py:ClientManager.async_subscribe"]}
{"id": "C74", "title": "A listener may unsubscribe itself while being notified", "statement": "Calling the unsubscribe function from inside the callback does not disturb the notification of the other listeners.", "quantifier": "all listener tables", "why_tests_cant": "it must hold for all listener tables: a test fixes finitely many of these", "anchors": ["screenlogicpy/client.py:ClientManager._notify_listeners"]}
{"id": "C75", "title": "Response collections keep the raw responses", "statement": "deconstruct(build(raw, data)) gives back every raw response under its key and pump index, and data.", "quantifier": "all raw response tables", "why_tests_cant": "it must hold for all raw response tables: a test fixes finitely many of these", "anchors": ["screenlogicpy/data.py:build_response_collection", "screenlogicpy/data.py:deconstruct_response_collection"]}
{"id": "C76", "title": "Export/import round trip", "statement": "Importing an exported response collection gives an equal collection.", "quantifier": "all collections the decoders can produce", "why_tests_cant": "it must hold for all collections the decoders can produce: a test fixes finitely many of these", "anchors": ["screenlogicpy/data.py:export_response_collection", "screenlogicpy/data.py:import_response_collection"]}
{"id": "C77", "title": "Raw bytes survive JSON", "statement": "Every bytes value is read back identically from its exported JSON form.", "quantifier": "all byte strings", "why_tests_cant": "it must hold for all byte strings: a test fixes finitely many of these", "anchors": ["screenlogicpy/data.py:bytes_json_encoder", "screenlogicpy/data.py:bytes_json_decoder"]}
{"id": "C78", "title": "Discovery response decoding", "statement": "A discovery datagram with check word 2 yields the dotted IP, port, type, subtype and NUL-trimmed name as sent; another check word raises ScreenLogicError; a short datagram raises struct.error.", "quantifier": "all datagrams", "why_tests_cant": "it must hold for all datagrams: a test fixes finitely many of these", "anchors": ["screenlogicpy/discovery.py:process_discovery_response"]}
{"id": "C79", "title": "Discovery ignores bad datagrams", "statement": "After any sequence of datagrams the host list is exactly the decodings of the valid ones, in arrival order.", "quantifier": "all datagram sequences", "why_tests_cant": "it must hold for all datagram sequences: a test fixes finitely many of these", "anchors": ["screenlogicpy/discovery.py:ScreenLogicDiscoveryProtocol.datagram_received"]}
{"id": "C80", "title": "Every parsable value parses to its member", "statement": "For each enumeration used by the CLI, parse of every advertised parsable value (number or lower-case name) is the member it names.", "quantifier": "all enumerations and members, any letter case, spaces for underscores", "why_tests_cant": "it must hold for all enumerations and members, any letter case, spaces for underscores: a test fixes finitely many of these", "anchors": ["screenlogicpy/const/common.py:SLIntEnum.parse", "screenlogicpy/const/common.py:SLIntEnum.parsable_values"]}
{"id": "C81", "title": "Range checks are exact", "statement": "check accepts exactly the closed interval, for ints and floats, NaN rejected; parse_check returns the parsed number only if it is in range.", "quantifier": "all ints and floats", "why_tests_cant": "it must hold for all ints and floats: a test fixes finitely many of these", "anchors": ["screenlogicpy/const/common.py:SLValueRange"]}
{"id": "C82", "title": "Controller model lookup is total", "statement": "model_from_type returns a table entry for a known pair and otherwise a text naming both numbers; it never raises.", "quantifier": "all pairs of integers", "why_tests_cant": "it must hold for all pairs of integers: a test fixes finitely many of these", "anchors": ["screenlogicpy/device_const/system.py:CONTROLLER.model_from_type"]}
{"id": "C83", "title": "Water balance classification partitions the line", "statement": "from_saturation returns exactly one of the four classes per documented thresholds, corrosive below -0.5, scaling above 0.5 (and for a NaN).", "quantifier": "all floats", "why_tests_cant": "it must hold for all floats: a test fixes finitely many of these", "anchors": ["screenlogicpy/device_const/chemistry.py:BALANCE.from_saturation"]}
{"id": "C84", "title": "The login message layout", "statement": "create_login_message has the fixed layout schema 348, type 0, client string, 16-character password string, pad byte, pid 2.", "quantifier": "the single message and its re-decoding", "why_tests_cant": "it must hold for the single message and its re-decoding: a test fixes finitely many of these", "anchors": ["screenlogicpy/requests/login.py:create_login_message"]}
{"id": "C85", "title": "The CLI shows the heat state that was reported", "statement": "The dashboard and 'get heat-state' show the name/value of the reported heat state.", "quantifier": "all heat states", "why_tests_cant": "it must hold for all heat states: a test fixes finitely many of these", "anchors": ["screenlogicpy/cli.py:print_heat", "screenlogicpy/cli.py:async_get_heat_state"]}
{"id": "C86", "title": "CLI auto-DST option is sent to the controller", "statement": "'set date-time --auto-dst X' sends X as 0/1 to the controller.", "quantifier": "all accepted spellings", "why_tests_cant": "it must hold for all accepted spellings: a test fixes finitely many of these", "anchors": ["screenlogicpy/cli.py:async_set_date_time"]}
{"id": "C87", "title": "The connection-closed callback runs once per lost connection", "statement": "Each loss of the connection calls the callback given to async_connect exactly once.", "quantifier": "all histories", "why_tests_cant": "it must hold for all histories: a test fixes finitely many of these", "anchors": ["screenlogicpy/gateway.py:ScreenLogicGateway._common_connection_closed_callback"]}
{"id": "C88", "title": "Discovery broadcasts once and closes its socket", "statement": "async_discover sends its eight-byte question exactly once to 255.255.255.255:1444 and closes its socket whether it returns, fails or is cancelled.", "quantifier": "all outcomes of the network calls and all datagrams", "why_tests_cant": "it must hold for all outcomes of the network calls and all datagrams: a test fixes finitely many of these", "anchors": ["screenlogicpy/discovery.py:async_discover"]}
{"id": "C89", "title": "A failing callback does not silence the others", "statement": "When one listener's callback raises, the other listeners of the code are still called.", "quantifier": "all listener tables and callback behaviours", "why_tests_cant": "it must hold for all listener tables and callback behaviours: a test fixes finitely many of these", "anchors": ["screenlogicpy/client.py:ClientManager._notify_listeners"]}
{"id": "C90", "title": "A failed subscription leaves no listener behind", "statement": "If async_subscribe_client raises, its callback is not subscribed, or the caller holds a function that unsubscribes it.", "quantifier": "all histories", "why_tests_cant": "it must hold for all histories: a test fixes finitely many of these", "anchors": ["screenlogicpy/client.py:ClientManager.async_subscribe"]}
{"id": "C91", "title": "Each command makes exactly its API calls", "statement": "A run of the command line connects to the adapter given by --ip/--port, or else to the first that answered discovery, updates, and makes exactly the API calls the command stands for, with the values typed, in order, stopping at the first that fails, and then disconnects.", "quantifier": "all commands, options, network behaviours and adapter behaviours", "why_tests_cant": "the calls depend on every reply and failure point", "anchors": ["screenlogicpy/cli.py:cli"]}
{"id": "C92", "title": "The exit code tells what happened", "statement": "Exit code 0 of a setting command means the adapter acknowledged it; a positive exit code means nothing was set: 1 no adapter or no controller data, 4 no such circuit, 65 and 129 no value given.", "quantifier": "all commands, options, network and adapter behaviours", "why_tests_cant": "it must hold for all commands, options, network and adapter behaviours: a test fixes finitely many of these", "anchors": ["screenlogicpy/cli.py:cli"]}
{"id": "C93", "title": "Commands that look do not write", "statement": "The dashboard, discover, export and get commands send no message other than those of connecting and polling.", "quantifier": "all reading commands, options and adapter behaviours", "why_tests_cant": "it must hold for all reading commands, options and adapter behaviours: a test fixes finitely many of these", "anchors": ["screenlogicpy/cli.py:cli"]}
{"id": "C94", "title": "Settings are sent as typed", "statement": "Every message of a set command other than connecting and polling carries exactly the typed values; what was not typed keeps the value last reported.", "quantifier": "all accepted spellings and numbers, all adapter behaviours", "why_tests_cant": "it must hold for all accepted spellings and numbers, all adapter behaviours: a test fixes finitely many of these", "anchors": ["screenlogicpy/cli.py:cli"]}
{"id": "C95", "title": "The command line closes its connection", "statement": "When a run ends, its connection to the adapter is closed.", "quantifier": "all commands and adapter behaviours", "why_tests_cant": "it must hold for all commands and adapter behaviours: a test fixes finitely many of these", "anchors": ["screenlogicpy/cli.py:cli"]}
{"id": "C96", "title": "'discover' lists the adapters that answered", "statement": "'discover' prints one line per adapter that answered, in order of arrival, connects to none, and exits with 0, or with 1 when none answered.", "quantifier": "all options and datagrams", "why_tests_cant": "it must hold for all options and datagrams: a test fixes finitely many of these", "anchors": ["screenlogicpy/cli.py:cli"]}
{"id": "C97", "title": "Questions are answered from the data", "statement": "A get or set command for circuit, heat mode, heat temperature, current temperature, date-time, auto-dst or json that exits with 0 prints as its last line the value the gateway then holds (with -v its name and title), and without -v nothing else.", "quantifier": "all commands, options and adapter behaviours", "why_tests_cant": "it must hold for all commands, options and adapter behaviours: a test fixes finitely many of these", "anchors": ["screenlogicpy/cli.py:cli"]}
{"id": "C98", "title": "The dashboard shows every body and circuit", "statement": "The dashboard lists every body with its temperature, setpoint and heat mode, and every circuit that is not hidden with its state, in order, as the gateway holds them.", "quantifier": "all data and adapter behaviours", "why_tests_cant": "it must hold for all data and adapter behaviours: a test fixes finitely many of these", "anchors": ["screenlogicpy/cli.py:print_dashboard"]}
{"id": "C99", "title": "Overlapping calls do not multiply retries", "statement": "When calls overlap in any way, a call that makes one kind of request sends its message at most 2 x (1 + max_retries) times, max_retries being what the gateway's setting was when the call was made (so at most twelve times), whatever is set meanwhile, and never again after an answer it takes has come.", "quantifier": "all schedules of any number of overlapping calls, answers, timeouts, cancellations, lost connections and pushed messages", "why_tests_cant": "it must hold for all schedules of any number of overlapping calls, answers, timeouts, cancellations, lost connections and pushed messages: a test fixes finitely many of these", "anchors": ["screenlogicpy/gateway.py:ScreenLogicGateway._async_connected_request", "screenlogicpy/requests/request.py:async_make_request"]}
{"id": "C100", "title": "Overlapping calls send only their own messages", "statement": "When calls of one gateway overlap in any way, every message a call sends is either one of the connection dialogue (challenge, login, version, configuration, adding or removing the client) or the one that carries out that very call, built from its arguments and the data at the time it was made.", "quantifier": "all schedules of any number of overlapping calls, answers, timeouts, cancellations, lost connections and pushed messages", "why_tests_cant": "it must hold for all schedules of any number of overlapping calls, answers, timeouts, cancellations, lost connections and pushed messages: a test fixes finitely many of these", "anchors": ["screenlogicpy/gateway.py:ScreenLogicGateway", "screenlogicpy/requests/request.py:async_make_request"]}
{"id": "C101", "title": "Nothing is asked before the login, whatever overlaps", "statement": "When calls overlap in any way, no message but challenge and login goes out on a connection whose login has not been accepted, and nothing at all before the greeting CONNECTSERVERHOST, which is written once per connection and first.", "quantifier": "all schedules of any number of overlapping calls, answers, timeouts, cancellations, lost connections and pushed messages", "why_tests_cant": "it must hold for all schedules of any number of overlapping calls, answers, timeouts, cancellations, lost connections and pushed messages: a test fixes finitely many of these", "anchors": ["screenlogicpy/gateway.py:ScreenLogicGateway", "screenlogicpy/requests/login.py:async_gateway_connect"]}
{"id": "C102", "title": "Nothing is sent or taken on a connection being closed", "statement": "When calls overlap in any way, no message goes out on a connection after any call began to close it or after it was lost, and no unsolicited message that arrives from it after that is taken (one taken before may still be decoded after).", "quantifier": "all schedules of any number of overlapping calls, answers, timeouts, cancellations, lost connections and pushed messages", "why_tests_cant": "it must hold for all schedules of any number of overlapping calls, answers, timeouts, cancellations, lost connections and pushed messages: a test fixes finitely many of these", "anchors": ["screenlogicpy/requests/request.py:async_make_request", "screenlogicpy/gateway.py:ScreenLogicGateway.async_disconnect"]}
{"id": "C103", "title": "The data is what was reported, whatever overlaps", "statement": "When calls overlap in any way, get_data() is at every moment the result of decoding, one after the other and each as a whole, the answers to queries received and the pushed messages dealt with so far, and nothing else.", "quantifier": "all schedules of any number of overlapping calls, answers, timeouts, cancellations, lost connections and pushed messages", "why_tests_cant": "it must hold for all schedules of any number of overlapping calls, answers, timeouts, cancellations, lost connections and pushed messages: a test fixes finitely many of these", "anchors": ["screenlogicpy/gateway.py:ScreenLogicGateway", "screenlogicpy/client.py:ClientManager._async_common_callback"]}
{"id": "C104", "title": "A disconnect after overlapping calls leaves nothing open", "statement": "When all calls have ended and async_disconnect() returns, no connection opened by the gateway is still open.", "quantifier": "all schedules of overlapping calls", "why_tests_cant": "it must hold for all schedules of overlapping calls: a test fixes finitely many of these", "anchors": ["screenlogicpy/gateway.py:ScreenLogicGateway.async_connect", "screenlogicpy/gateway.py:ScreenLogicGateway.async_disconnect"]}
{"id": "C105", "title": "A setting that returned was acknowledged, whatever overlaps", "statement": "When calls overlap in any way and a setting call returns normally, the adapter has acknowledged a message of that call that carries exactly its values, and the call sent no further such message.", "quantifier": "all schedules of any number of overlapping calls, answers, timeouts, cancellations, lost connections and pushed messages", "why_tests_cant": "it must hold for all schedules of any number of overlapping calls, answers, timeouts, cancellations, lost connections and pushed messages: a test fixes finitely many of these", "anchors": ["screenlogicpy/gateway.py:ScreenLogicGateway"]}
{"id": "C106", "title": "Registration exchanges never overlap, whatever calls overlap", "statement": "When calls overlap in any way, no add-client or remove-client message goes out while another call waits for the answer to one.", "quantifier": "all schedules of any number of overlapping calls (none of them async_send_message with one of these two codes), answers, timeouts, cancellations, lost connections and pushed messages", "why_tests_cant": "it must hold for all schedules of any number of overlapping calls (none of them async_send_message with one of these two codes), answers, timeouts, cancellations, lost connections and pushed messages: a test fixes finitely many of these", "anchors": ["screenlogicpy/client.py:ClientManager._async_subscribe_gateway", "screenlogicpy/client.py:ClientManager._async_unsubscribe_gateway", "screenlogicpy/gateway.py:ScreenLogicGateway"]}
{"id": "C107", "title": "No finished call keeps the lock", "statement": "When all the calls made so far, overlapping in any way, have returned or raised, the client manager's lock is free: no later subscription waits for a call that is over.", "quantifier": "all schedules of any number of overlapping calls (as C106) after which every call has ended", "why_tests_cant": "it must hold for all schedules of any number of overlapping calls (as C106) after which every call has ended: a test fixes finitely many of these", "anchors": ["screenlogicpy/client.py:ClientManager._async_subscribe_gateway", "screenlogicpy/client.py:ClientManager._async_unsubscribe_gateway"]}
{"id": "C108", "title": "Asking for the MAC address only asks", "statement": "async_get_mac_address(ip, port, max_retries) opens exactly one connection, to that address, writes on it only the challenge message (after the connect string), at most max_retries+1 times, and never logs in or registers, whatever happens. When it returns, what it returns is the string carried by an answer to that challenge (for every string and encoding), and the connection it made is closed. (When it raises instead, the connection made may stay open.)", "quantifier": "all addresses, retry counts, gateway states, adapter behaviours (answers, errors, silence, losses, cancellation at any await)", "why_tests_cant": "it must hold for all addresses, retry counts, gateway states, adapter behaviours (answers, errors, silence, losses, cancellation at any await): a test fixes finitely many of these", "anchors": ["screenlogicpy/requests/login.py:async_get_mac_address", "screenlogicpy/requests/login.py:async_gateway_connect"]}
{"id": "C109", "title": "A keepalive ping is harmless", "statement": "The ping a registered client sends now and then writes at most one message (a ping, with no payload) on its connection, waits for an answer at most once, never retries or sleeps, opens and closes nothing, changes neither the gateway's address, connection, last snapshot nor subscriptions, and never raises: every failure is only logged.", "quantifier": "all gateway states and adapter behaviours (answer, wrong answer, rejection, silence, loss, cancellation)", "why_tests_cant": "it must hold for all gateway states and adapter behaviours (answer, wrong answer, rejection, silence, loss, cancellation): a test fixes finitely many of these", "anchors": ["screenlogicpy/client.py:ClientManager._async_ping", "screenlogicpy/requests/ping.py:async_request_ping"]}
{"id": "C110", "title": "The keepalive runs exactly as long as the registration", "statement": "Whenever the gateway says it is a client, the connection it is a client on is up and its keepalive timer runs. When the registration is given up on a connection (the last listener left, or a disconnect), the timer is stopped and every push handler of that connection is dropped in the same step; when a connection is lost its timer is stopped at once.", "quantifier": "all histories of subscribe, unsubscribe, connect, disconnect, loss, pushed messages, task starts, cancellations and exchange outcomes", "why_tests_cant": "it must hold for all histories of subscribe, unsubscribe, connect, disconnect, loss, pushed messages, task starts, cancellations and exchange outcomes: a test fixes finitely many of these", "anchors": ["screenlogicpy/client.py:ClientManager.async_subscribe_gateway", "screenlogicpy/client.py:ClientManager.async_unsubscribe_gateway", "screenlogicpy/requests/protocol.py:ScreenLogicProtocol.enable_keepalive", "screenlogicpy/requests/protocol.py:ScreenLogicProtocol.disable_keepalive"]}
{"id": "C111", "title": "Overlapping calls share a healthy connection", "statement": "While the gateway's connection stays up and the adapter answers every request properly, and nobody disconnects: any number of overlapping calls (polls, updates, switches, settings, subscriptions, raw messages, further connects) leave the connection alone. No call opens, closes or reconnects anything or waits for anything but its own answers, every message goes to that one connection, no call ends in a communication error, no call sends a message twice, a call that has sent a command and has ended has returned normally (so a setting either is refused before anything is sent, or is sent exactly once, confirmed and reported as done), and the gateway is still connected by the same connection afterwards.", "quantifier": "all schedules of any number of overlapping calls other than disconnects, from any connected state with no call running, with any proper answers in any order, any pushed messages and losses of other connections", "why_tests_cant": "it must hold for all schedules of any number of overlapping calls other than disconnects, from any connected state with no call running, with any proper answers in any order, any pushed messages and losses of other connections: a test fixes finitely many of these", "anchors": ["screenlogicpy/gateway.py:ScreenLogicGateway", "screenlogicpy/client.py:ClientManager", "screenlogicpy/requests/request.py:async_make_request"]}
{"id": "C112", "title": "An answer is a frame with the id of the question", "statement": "From the bytes on the wire to the calls: whatever bytes arrive, in whatever pieces and order, an answer a call is given is one complete frame among the bytes that arrived on the connection it asked on, with the id of the frame its latest message was written as, and complete only after that frame was written; its code and payload are those of the frame; and no frame answers two questions, of whatever calls.", "quantifier": "all schedules of overlapping calls, all byte streams on all connections in all divisions into pieces, all losses, timeouts and cancellations at any time", "why_tests_cant": "a test sends a few well-formed answers in the expected order; the claim is about all byte streams and interleavings", "anchors": ["screenlogicpy/requests/protocol.py:ScreenLogicProtocol.data_received", "screenlogicpy/requests/protocol.py:ScreenLogicProtocol.await_send_message", "screenlogicpy/requests/request.py:async_make_request", "screenlogicpy/gateway.py:ScreenLogicGateway"]}
{"id": "C113", "title": "Messages go out at once, in order, numbered", "statement": "Every message a call sends is written to its connection at once and once, as one frame with its code and payload; the frames written to a connection are its messages in the order they were sent, numbered 0, 1, 2, ... modulo 32767 per connection; nothing else is ever written as a frame.", "quantifier": "all schedules of overlapping calls, all byte streams, losses, timeouts and cancellations", "why_tests_cant": "all interleavings of any number of tasks and connections", "anchors": ["screenlogicpy/requests/protocol.py:ScreenLogicProtocol.send_message", "screenlogicpy/requests/protocol.py:ScreenLogicProtocol.await_send_message", "screenlogicpy/gateway.py:ScreenLogicGateway"]}
{"id": "C114", "title": "A setting that returned was acknowledged on the wire", "statement": "When a setting command returns without an exception, a frame that carries exactly that command was written to a connection, and a complete frame with the same id, the code plus one and no payload arrived on that connection after it was written.", "quantifier": "all schedules of overlapping calls, all byte streams in all pieces, all setting commands and arguments", "why_tests_cant": "the claim composes request, gateway and protocol over all byte streams and interleavings", "anchors": ["screenlogicpy/requests/protocol.py:ScreenLogicProtocol", "screenlogicpy/requests/request.py:async_make_request", "screenlogicpy/gateway.py:ScreenLogicGateway.async_set_circuit"]}
{"id": "C115", "title": "A lost connection releases every waiting call", "statement": "When a connection is lost, every call that waits for an answer on it is released as soon as the cleanup task that the loss created has run, whatever else happened before and after: running the call then ends its wait (it gets the answer that had come, or an error), however many calls wait.", "quantifier": "all schedules of overlapping calls, all byte streams, losses, timeouts and cancellations, up to 32767 messages per connection", "why_tests_cant": "it must hold for all schedules of overlapping calls, all byte streams, losses, timeouts and cancellations, up to 32767 messages per connection: a test fixes finitely many of these", "anchors": ["screenlogicpy/requests/protocol.py:ScreenLogicProtocol.connection_lost", "screenlogicpy/requests/protocol.py:FutureManager.all_done", "screenlogicpy/requests/request.py:async_make_request"]}
{"id": "C116", "title": "Pushed data is what came on the wire", "statement": "Every message handed to the client manager without being asked for is a complete frame that arrived on that connection and answered no request; frames are handed over in the order they came, none twice; and of the frames that arrive in one go exactly those with a subscribed code are handed over, a code being subscribed only after a subscription call for it. get_data() is then the answers and the pushed frames, decoded one after the other.", "quantifier": "all schedules of overlapping calls, all byte streams in all pieces, all losses, timeouts and cancellations", "why_tests_cant": "it must hold for all schedules of overlapping calls, all byte streams in all pieces, all losses, timeouts and cancellations: a test fixes finitely many of these", "anchors": ["screenlogicpy/requests/protocol.py:ScreenLogicProtocol.data_received", "screenlogicpy/client.py:ClientManager._async_common_callback"]}
{"id": "C117", "title": "The byte stream of a connection", "statement": "What is written to a connection, whatever calls overlap and whatever happens, is nothing at all, or the greeting followed by the frames of the messages sent on it, in order, numbered from 0, without a gap and without anything in between.", "quantifier": "all schedules of overlapping calls, all byte streams, losses, timeouts and cancellations", "why_tests_cant": "all interleavings of any number of tasks and connections", "anchors": ["screenlogicpy/requests/protocol.py:ScreenLogicProtocol.send_message", "screenlogicpy/requests/login.py:async_gateway_connect", "screenlogicpy/gateway.py:ScreenLogicGateway"]}
{"id": "C118", "title": "A forced disconnect releases every waiting call", "statement": "Once a connection is being closed with force, every call that waits for an answer on it is released: running the call ends its wait, without any timeout.", "quantifier": "all schedules of overlapping calls, all byte streams, losses, timeouts and cancellations, up to 32767 messages per connection", "why_tests_cant": "it must hold for all schedules of overlapping calls, all byte streams, losses, timeouts and cancellations, up to 32767 messages per connection: a test fixes finitely many of these", "anchors": ["screenlogicpy/requests/protocol.py:ScreenLogicProtocol.async_close", "screenlogicpy/requests/protocol.py:FutureManager.all_done", "screenlogicpy/gateway.py:ScreenLogicGateway.async_disconnect"]}
{"id": "C119", "title": "No wait for an answer outlasts its timer", "statement": "Whatever bytes arrived and whatever else happened, a call that waits for an answer waits with a timer of 2 seconds, and when the timer expires the wait is over: the call goes on with the answer that had come, or with a timeout.", "quantifier": "all schedules of overlapping calls, all byte streams in all pieces, losses, earlier timeouts and cancellations", "why_tests_cant": "it must hold for all schedules of overlapping calls, all byte streams in all pieces, losses, earlier timeouts and cancellations: a test fixes finitely many of these", "anchors": ["screenlogicpy/requests/request.py:async_make_request", "screenlogicpy/requests/protocol.py:ScreenLogicProtocol.data_received"]}
{"id": "C120", "title": "Every call ends", "statement": "If every wait ends (a reply or a timeout, a pause, an opened or refused connection, a closed one, a cancellation) and only finitely many connections are opened, then after the last call was made there is a moment from which on every call has returned or raised an error; the one exception is that all calls left wait for the subscription lock while it is held. Without a subscription call or the removal of a registration there is no exception. Also when other calls are made without end: each call that does not itself open connection after connection is over in the end, or waits for a lock that is never released again.", "quantifier": "all sets of overlapping calls, all infinite schedules with any answers, timeouts, losses and pushes, number of connections opened finite but unbounded", "why_tests_cant": "it must hold for all sets of overlapping calls, all infinite schedules with any answers, timeouts, losses and pushes, number of connections opened finite but unbounded: a test fixes finitely many of these", "anchors": ["screenlogicpy/gateway.py:ScreenLogicGateway", "screenlogicpy/client.py:ClientManager", "screenlogicpy/requests/request.py:async_make_request"]}
{"id": "C121", "title": "The subscription lock deadlocks only across a reconnect", "statement": "From a moment at which nobody holds the subscription lock, and as long as no further connection is opened, every call ends, subscriptions and disconnects included, if every wait ends and the lock is handed out fairly: no call ever waits for the lock it holds itself. Also for each call while others are made without end.", "quantifier": "all sets of overlapping calls, all infinite schedules with any answers, timeouts, losses and pushes", "why_tests_cant": "liveness over infinite schedules and lock interleavings", "anchors": ["screenlogicpy/client.py:ClientManager.async_subscribe_gateway", "screenlogicpy/client.py:ClientManager.async_unsubscribe_gateway", "screenlogicpy/gateway.py:ScreenLogicGateway.async_disconnect"]}
{"id": "C122", "title": "A data request used directly", "statement": "Each of the eight data request functions, called directly with a connection and a data dictionary, sends only its own message (its code and its exact payload), on that connection, at most max_retries + 1 times, and opens or closes nothing. It returns the payload of the last reply that came, which has the code plus one and is not empty; the dictionary is changed only by decoding that payload, apart from messages pushed meanwhile. Without such a reply it writes nothing. A pump index that does not fit 32 bits is an error before anything is sent.", "quantifier": "all eight requests, all pump indices, all retry limits, all answers, timeouts, losses, cancellations and pushed data", "why_tests_cant": "it must hold for all eight requests, all pump indices, all retry limits, all answers, timeouts, losses, cancellations and pushed data: a test fixes finitely many of these", "anchors": ["screenlogicpy/requests/equipment.py:async_request_equipment_config", "screenlogicpy/requests/pump.py:async_request_pump_status", "screenlogicpy/requests/config.py:async_request_pool_config", "screenlogicpy/requests/status.py:async_request_pool_status", "screenlogicpy/requests/gateway.py:async_request_gateway_version", "screenlogicpy/requests/datetime.py:async_request_date_time"]}
{"id": "C123", "title": "What the client manager does by itself", "statement": "While any other calls run: a keepalive ping sends at most one ping message, on the client manager's connection, waits once for its answer, and never raises, whatever the answer is or if none comes; the task that removes the client's registration sends at most one remove-client message with the client's id, waits once for its answer, and never raises, except that it ends at once with CancelledError, having sent nothing, when it is cancelled while it waits for the lock; the function that ends a subscription sends nothing, returns at once, takes exactly that callback off that code, removes the handler of that code only if no callback is left for it, and changes no data.", "quantifier": "all schedules of any number of overlapping calls, answers, timeouts, cancellations, lost connections and pushed messages before and after the ping, the removal or the end of the subscription", "why_tests_cant": "all interleavings of any number of tasks; these tasks are nobody's calls, so nobody sees what they raise", "anchors": ["screenlogicpy/client.py:ClientManager._async_ping", "screenlogicpy/client.py:ClientManager.async_unsubscribe_gateway", "screenlogicpy/client.py:ClientManager.async_subscribe"]}
{"id": "C124", "title": "How long a call can keep its caller waiting", "statement": "While any other calls run, the timers a call starts for itself (waiting for an answer, pausing before a retry, opening a connection) add up to a bound fixed by the call and max_retries r: with q(r) = 2(r+1) + (1+2+...+r) seconds for one question with its retries, a setting or SendMessage or subscription at most 2q(r)+2 s, one get call 2q(r)+3 s, async_get_pumps eight times and async_update twelve times that, connect and disconnect 2 s; and for each connection it opens itself, 2.25 s + 3q(r) + one get + one subscription more. A negative answer, a lost connection or somebody else's reconnect never makes it longer. (The time a call waits for the client manager's lock is that of the call that holds it.)", "quantifier": "all calls, all max_retries and all schedules of any number of overlapping calls, answers, timeouts, cancellations, lost connections and pushed messages", "why_tests_cant": "retries inside a request, reconnect and retry around it, and the requests of the reconnect multiply; the worst schedule is not one a test would contain", "anchors": ["screenlogicpy/requests/request.py:async_make_request", "screenlogicpy/gateway.py:ScreenLogicGateway._async_connected_request", "screenlogicpy/gateway.py:ScreenLogicGateway.async_connect"]}
{"id": "C125", "title": "Pushed messages wait their turn and are not lost", "statement": "While any other calls run: the pushed messages taken from the connections are dealt with (decoded, subscribers told) in the order in which they arrived, each exactly once, and none is skipped: at every moment those dealt with are the first ones of those that arrived; and nothing another call does (waiting, failing, holding the lock, closing the connection) keeps a message that was taken from its turn. On one connection they are complete frames that came in that order and answered no request.", "quantifier": "all schedules of overlapping calls, answers, losses, cancellations and pushed messages, and all moments at which the handlers' tasks run; for the frames all byte streams in all pieces", "why_tests_cant": "it must hold for all interleavings of the handlers' tasks with all other calls: a test fixes one", "anchors": ["screenlogicpy/requests/protocol.py:ScreenLogicProtocol.data_received", "screenlogicpy/client.py:ClientManager._async_common_callback"]}
{"id": "C126", "title": "Exactly the current subscribers are told", "statement": "While any other calls run: when a pushed message is dealt with, the data is updated from it and then the callbacks called are, each once, exactly those that were subscribed to its code by a call made while connected and whose unsubscribe function has not been called since, however often the gateway disconnected, reconnected or failed in between, and none if the message cannot be decoded; nothing else of the gateway changes.", "quantifier": "all schedules of overlapping calls, answers, losses, reconnects, cancellations and pushed messages", "why_tests_cant": "it must hold for all histories of subscriptions, reconnects and pushes: a test fixes one", "anchors": ["screenlogicpy/client.py:ClientManager.async_subscribe", "screenlogicpy/client.py:ClientManager._notify_listeners", "screenlogicpy/client.py:ClientManager._async_common_callback"]}
{"id": "C127", "title": "A subscriber is told whatever else goes on", "statement": "Take a callback subscribed to a message code and not unsubscribed, in any history of overlapping calls with losses, failures, cancellations and reconnects. As long as the client manager's connection is up and not being closed, no remove-client message was sent on it and the user has no handler of his own for the code, every unsolicited message with that code arriving there is handed over; and when the messages that came before have been dealt with, the callback is called (if the message can be decoded), whatever happens in between, even if the connection is lost.", "quantifier": "every schedule of any calls, every adapter behaviour and loss, every subscribed code and message, every continuation of the schedule", "why_tests_cant": "the handler is dropped and put back at several places (reconnecting, last unsubscribe, disconnect inside a failing request); a test runs one order of them", "anchors": ["screenlogicpy/client.py:ClientManager.attach", "screenlogicpy/client.py:ClientManager.async_subscribe", "screenlogicpy/client.py:ClientManager.async_unsubscribe_gateway", "screenlogicpy/client.py:ClientManager._async_common_callback", "screenlogicpy/requests/protocol.py:ScreenLogicProtocol.data_received"]}
{"id": "C128", "title": "From the bytes on the wire to the subscriber", "statement": "Whatever pieces the adapter's bytes come in, and whatever calls are in progress: while a callback is subscribed to a code (as in C127), every message the arriving bytes complete that answers no request and has that code is handed over, exactly once and in the order of the bytes; and each of them is given to the callback in its turn if it can be decoded.", "quantifier": "every packetisation of the incoming bytes, every schedule of calls, losses, timeouts and cancellations, every content", "why_tests_cant": "A test chooses a few ways to cut the stream and a few moments; here the cut may fall inside a header while other requests, reconnects and unsubscriptions of other callbacks are going on.", "anchors": ["screenlogicpy/requests/protocol.py:ScreenLogicProtocol.data_received", "screenlogicpy/requests/protocol.py:ScreenLogicProtocol.register_async_message_callback", "screenlogicpy/client.py:ClientManager.async_subscribe", "screenlogicpy/client.py:ClientManager._async_common_callback"]}
{"id": "C129", "title": "A handler of the user's own gets each message once", "statement": "A handler the user registered himself for a message code stays registered until he replaces it, removes it or the connection ends; and every message of that code that arrives on the connection and answers no request makes it run exactly once, in the order of the bytes, with that message, and makes no other handler of his run.", "quantifier": "every packetisation of the incoming bytes, every schedule of calls, losses, timeouts and cancellations, every handler and code", "why_tests_cant": "A test registers one handler and pushes a message; the runs that matter have requests, subscriptions and unsubscriptions of others in between.", "anchors": ["screenlogicpy/gateway.py:ScreenLogicGateway.register_async_message_handler", "screenlogicpy/gateway.py:ScreenLogicGateway.remove_async_message_handler", "screenlogicpy/requests/protocol.py:ScreenLogicProtocol.data_received", "screenlogicpy/requests/protocol.py:ScreenLogicProtocol.remove_all_async_message_callbacks", "screenlogicpy/client.py:ClientManager.async_unsubscribe_gateway"]}
{"id": "C130", "title": "An answer that came reaches the call that asked", "statement": "When a call has sent a message and waits for its answer, and neither its timer expires nor the call is cancelled, then the first message that comes with the id of that message is what the call goes on with, with its code and data: whatever other messages came before or after it in whatever pieces, whatever other calls asked, timed out or were cancelled, and also if the connection was lost or closed after it came and before the call ran again. (Less than 32767 further messages sent on the connection: then the ids start again.)", "quantifier": "all schedules of overlapping calls, all byte streams in all pieces, all timeouts and cancellations of other calls, losses and disconnects after the answer came", "why_tests_cant": "it must hold for all schedules of overlapping calls, all byte streams in all pieces, all timeouts and cancellations of other calls, losses and disconnects after the answer came: a test fixes finitely many of these", "anchors": ["screenlogicpy/requests/request.py:async_make_request", "screenlogicpy/requests/protocol.py:ScreenLogicProtocol.data_received", "screenlogicpy/requests/protocol.py:ScreenLogicProtocol.connection_lost", "screenlogicpy/requests/protocol.py:ScreenLogicProtocol.await_send_message"]}
{"id": "C131", "title": "With the answer to its message a call is done", "statement": "When a call waits for the answer to its own message and that answer has come in time (see C130), then the call ends the next time it runs, without sending anything more: a setting whose answer is an empty acknowledgement returns and leaves get_data() alone; a message sent with async_send_message returns whatever the answer holds; a query (status, chemistry, chlorinator, date and time) returns with get_data() being what its decoder makes of the old data and the answer, the bytes of the answer being in get_debug(), or, when the answer is empty, with get_data() as it was.", "quantifier": "every setting, message and query with every argument, every answer, every schedule of other calls, deliveries, timeouts, losses and reconnects before and between", "why_tests_cant": "the answer may come in any of the attempts of a call, after a reconnect, and be followed by anything before the call runs", "anchors": ["screenlogicpy/gateway.py:ScreenLogicGateway._async_connected_request", "screenlogicpy/requests/request.py:async_make_request"]}
{"id": "C132", "title": "A disconnect says goodbye first", "statement": "While any other calls run: async_disconnect(force) sends at most one message, the remove-client message with the client's id, waits once for its answer, and only when that wait is over begins to close one connection, with the force it was asked for, sending nothing more; the only other way it goes is that, cancelled while it waits for the subscription lock, it ends at once with CancelledError, having sent and closed nothing. If the gateway is a registered client on a connection that is open and not being closed, and the lock is free, the goodbye goes out in the same step as the call, before any other call runs.", "quantifier": "all states reachable by overlapping calls, all schedules, timeouts, cancellations, losses and answers after the call", "why_tests_cant": "other calls may run, reconnect or be cancelled at every point at which the disconnect waits", "anchors": ["screenlogicpy/gateway.py:ScreenLogicGateway.async_disconnect", "screenlogicpy/client.py:ClientManager.async_unsubscribe_gateway", "screenlogicpy/requests/protocol.py:ScreenLogicProtocol.async_close"]}
{"id": "C133", "title": "The address, the name and the MAC address", "statement": "Whatever calls overlap: gateway.ip, .port and .name (and the adapter's type and subtype) start as None, 80, 'Unnamed-Screenlogic-Gateway' and change only when async_connect is called on a gateway that is not connected, which replaces exactly those it was given; every connection is opened to the ip and port the gateway then has, and never without an ip; gateway.mac is empty before the first login and afterwards always the MAC address that the adapter gave, in answer to the challenge, on the connection that is in use, on which the login was accepted.", "quantifier": "all schedules of any number of overlapping calls with any arguments, any answers, timeouts, cancellations, losses and pushed messages", "why_tests_cant": "all interleavings; a stale MAC address or address after some overlap of connects, retries and reconnects would not show in a test", "anchors": ["screenlogicpy/gateway.py:ScreenLogicGateway", "screenlogicpy/requests/login.py:async_connect_to_gateway"]}
{"id": "C134", "title": "What discovery found can be connected to", "statement": "Take any host that async_discover returned, whatever datagrams arrived and in whatever form, and pass it as the arguments of async_connect (as the README and the command line do) of a gateway that is not connected, whatever has gone on with it before: then one of the datagrams announces an adapter, and the gateway takes on exactly the announced address (in dotted form), port, type, subtype and name (without the trailing NULs), and opens a connection to exactly that address and port.", "quantifier": "all sequences of datagrams received, all hosts returned, all histories of a gateway that end disconnected", "why_tests_cant": "The datagrams come from any device on the network, in any number; tests use one canned response and one fresh gateway.", "anchors": ["screenlogicpy/discovery.py:process_discovery_response", "screenlogicpy/discovery.py:async_discover", "screenlogicpy/gateway.py:ScreenLogicGateway.async_connect"]}
{"id": "C135", "title": "Answers that come late change nothing but the time", "statement": "Take any state of a gateway and any call in which the adapter answers every message at its first try. Let the same answers now come later: each only after some tries of that message timed out, were refused or were answered with something else, at most as many as the retry setting (none for the keepalive ping and the removal of the client id, which are sent once), with the 1, 2, 3... second pauses between them. Then the call ends in the same way, with the same result or exception, and leaves exactly the same state - data, raw answers, connections, subscription, address - and does the same things in the same order, each late message being sent again after its pause.", "quantifier": "all states of the gateway and its client manager, all 25 kinds of calls with all arguments, all answers, all numbers and kinds of failed tries within the limit for each message of the call, including the logins and reconnects inside it", "why_tests_cant": "A call may send dozens of messages, each with its own number of failed tries of different kinds; tests retry single requests with a mocked protocol and never a whole call.", "anchors": ["screenlogicpy/requests/request.py:async_make_request", "screenlogicpy/gateway.py:ScreenLogicGateway.async_connect", "screenlogicpy/gateway.py:ScreenLogicGateway.async_update", "screenlogicpy/client.py:ClientManager.attach"]}
{"id": "C136", "title": "The command line does not show how late the answers came", "statement": "Take any command line, any network during discovery and any adapter that answers every message of the run at its first try. When the same answers come later instead, each after at most as many timed out, refused or wrongly answered tries as the retry setting allows, the run prints exactly the same lines, writes the same file, broadcasts the same, ends with the same exit code or the same escaping exception, and leaves the gateway in the same state.", "quantifier": "all commands with all arguments and options, all discovery networks, all answers, all numbers and kinds of failed tries for each of the messages of the run", "why_tests_cant": "A run sends fifteen to thirty messages, each of which may be late in its own way; tests of the command line use a mocked gateway that always answers.", "anchors": ["screenlogicpy/cli.py:cli", "screenlogicpy/requests/request.py:async_make_request", "screenlogicpy/gateway.py:ScreenLogicGateway.async_update"]}
{"id": "C137", "title": "The retry setting matters only when answers are late", "statement": "Take any gateway, any call other than set_max_retries and any adapter that answers every message of the call at its first try: with any other (non-negative) retry setting the call sends the same messages, waits for the same things, ends in the same way and leaves the same state, the setting itself excepted. And if the answers come later, each after at most as many failed tries as the other setting allows, the call still ends in that way and leaves that state: raising the setting never changes what a call that would have succeeded does, lowering it changes nothing while the adapter keeps up.", "quantifier": "any state, any call and arguments, any pair of non-negative retry settings, any sequence of answers and any number of failed tries within the setting", "why_tests_cant": "A test runs one call under one or two settings; the claim compares every call in every state under every two settings.", "anchors": ["screenlogicpy/client.py:ClientManager.attach", "screenlogicpy/gateway.py:ScreenLogicGateway._async_connected_request", "screenlogicpy/gateway.py:ScreenLogicGateway.set_max_retries", "screenlogicpy/requests/request.py:async_make_request"]}
{"id": "C138", "title": "The host's clock matters to nothing but the recorded host time", "statement": "Setting the host's clock forward or back, at any moment and as often as one likes, changes nothing a call does: with the same answers from the adapter every call sends the same messages, waits for the same things for the same durations, ends in the same way and leaves the gateway in the same state, except that async_get_datetime and async_update record the host's time next to the adapter's (controller, date_time, timestamp_host). No other entry of the data depends on it, and no other call's data does at all.", "quantifier": "any state, any of the calls with any arguments, any answers, any host clock at the start and at every resumption", "why_tests_cant": "The clock can be stepped at every one of the many waits of a call; tests run in real time and none compares two runs.", "anchors": ["screenlogicpy/requests/datetime.py:decode_date_time", "screenlogicpy/requests/request.py:async_make_request", "screenlogicpy/gateway.py:ScreenLogicGateway._async_connected_request", "screenlogicpy/gateway.py:ScreenLogicGateway.async_update"]}
{"id": "C139", "title": "The client id matters to nothing but the subscription messages", "statement": "Two gateways in the same state but for their client ids (whichever two 32-bit numbers), told the same by the adapter, do the same in every call: the same messages with the same payloads on the same connections, the same waits and pauses, the same result or exception, and the same state afterwards. Only the payload of the messages that subscribe and unsubscribe the client may differ, and there only by the one id standing for the other.", "quantifier": "any state, any call with any arguments, any answers, any two client ids", "why_tests_cant": "Ids are chosen at random: a test sees a few, and none compares two runs of a call under two ids.", "anchors": ["screenlogicpy/client.py:ClientManager", "screenlogicpy/requests/client.py:async_request_add_client", "screenlogicpy/gateway.py:ScreenLogicGateway._async_connected_request"]}
