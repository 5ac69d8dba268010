{"id": "C01", "title": "Outgoing segmentation loses and invents nothing", "statement": "For every UCI message the controller sends to a host, the payloads of the packets written to the host connection, concatenated in order, are exactly the payload of the message; every packet carries at most 255 payload bytes for control messages and at most 1024 for data messages, and no packet is empty.", "quantifier": "every outgoing message of every length and content (control and data)", "why_tests_cant": "The behaviour depends on the message length relative to multiples of 255/1024; tests only exercise short messages.", "anchors": ["src/lib.rs:write_routine", "src/packets.rs:MAX_CTRL_PACKET_PAYLOAD_SIZE,MAX_DATA_PACKET_PAYLOAD_SIZE"]}
{"id": "C02", "title": "Outgoing segment headers are correct", "statement": "Every packet written to the host keeps the message type, group and opcode of the message, carries the exact length of its own payload in the length field (byte 3 for control, little-endian bytes 2-3 for data), and has the packet boundary flag set to COMPLETE on the last packet of a message and NOT_COMPLETE on all others.", "quantifier": "every outgoing message of every length and content", "why_tests_cant": "A host desynchronises on one wrong length byte; the wrong case may only appear at one length.", "anchors": ["src/lib.rs:write_routine", "src/uci_packets.pdl:ControlPacketHeader,DataPacketHeader"]}
{"id": "C03", "title": "TCP framing recovers exactly the frames sent", "statement": "For every byte stream received on a UCI connection, the reader splits it into packets such that the concatenation of the packets is a prefix of the stream, each packet has the length its header announces, a stream that is a concatenation of well-formed packets is split into exactly those packets, and a truncated or malformed header ends the stream without delivering a packet.", "quantifier": "every finite byte stream, including truncated and malformed ones", "why_tests_cant": "All stream contents and cut points cannot be enumerated.", "anchors": ["src/packets.rs:read"]}
{"id": "C04", "title": "Fragmented commands are reassembled into one command", "statement": "For every sequence of control messages, however each is fragmented into packets, the device receives exactly those messages, in order, each with the header of its first fragment and the concatenated payload; data packets are delivered one by one and unmodified. If a data packet arrives between two fragments of a control message the two are not mixed.", "quantifier": "every sequence of packets, every fragmentation, every interleaving of control fragments and data packets", "why_tests_cant": "Fragmentations and interleavings are unbounded.", "anchors": ["src/lib.rs:read_routine"]}
{"id": "C05", "title": "Controller and host agree end to end on the byte stream", "statement": "For every sequence of messages sent by the controller, a host that reads the TCP stream with the reference host reader obtains exactly these messages, in order, with the same type, group, opcode and payload; and symmetrically every message the reference host sends is delivered to the device.", "quantifier": "every sequence of outgoing and incoming messages", "why_tests_cant": "Composition of segmentation, framing and reassembly for all message sequences.", "anchors": ["src/lib.rs:write_routine,read_routine", "src/packets.rs:read,write", "py/pica/pica/__init__.py:Host._read_packet,Host.send_control,Host.send_data"]}
{"id": "C06", "title": "Every message sent by the controller decodes to what was meant", "statement": "For every response, notification or data message the controller produces, decoding its bytes according to the UCI packet grammar gives back exactly the fields the controller put in, and two different messages never have the same bytes.", "quantifier": "every outgoing message value whose fields fit their declared widths", "why_tests_cant": "Field contents are unbounded (lists, 32 bit tokens); round trips must hold for all of them.", "anchors": ["src/uci_packets.pdl", "src/device.rs:send_control", "src/lib.rs:ranging"]}
{"id": "C07", "title": "Commands are decoded faithfully", "statement": "For every command in the UCI grammar handled by the device, encoding then receiving it yields the same command with the same arguments; a byte string which is not the encoding of a command (up to reserved bits) is never taken for one.", "quantifier": "every command value and every received byte string", "why_tests_cant": "Unbounded argument lists and payloads.", "anchors": ["src/uci_packets.pdl", "src/device.rs:receive_command"]}
{"id": "C08", "title": "MAC address text round trip", "statement": "Formatting any short or extended MAC address as text and parsing the text back gives the same address, and two different addresses never format to the same text.", "quantifier": "all 2^16 short and 2^64 extended addresses", "why_tests_cant": "2^64 addresses.", "anchors": ["src/mac_address.rs:TryFrom<String>,From<&MacAddress> for String"]}
{"id": "C09", "title": "MAC address parsing accepts exactly hex strings of the right size", "statement": "A string is accepted as a MAC address if and only if, after removing every ':' and then every '%3A', it consists of exactly 4 or exactly 16 hexadecimal digits, in either case; 4 digits give a short address and 16 an extended one, with the bytes the digits denote in order.", "quantifier": "every string", "why_tests_cant": "Infinite input domain.", "anchors": ["src/mac_address.rs:TryFrom<String>"]}
{"id": "C10", "title": "MAC address numeric and byte conversions", "statement": "The byte-vector form of an address is injective across both kinds; the u64 form is the little-endian value of the bytes and identifies an address among addresses of the same kind.", "quantifier": "all addresses", "why_tests_cant": "2^64 addresses.", "anchors": ["src/mac_address.rs:From<&MacAddress> for u64,From<&MacAddress> for Vec<u8>"]}
{"id": "C11", "title": "Capture files are well formed and complete", "statement": "For every sequence of packets recorded on a connection, the capture file is a valid little-endian pcapng file whose enhanced packet blocks contain exactly those packets, in order, with exact captured and original lengths, consistent leading and trailing block lengths and 32-bit alignment.", "quantifier": "every sequence of packets of every length and every sequence of timestamps", "why_tests_cant": "Block lengths depend on the packet length modulo 4 and on unbounded sequences.", "anchors": ["src/pcapng.rs:File::create,File::write"]}
{"id": "C12", "title": "Configuration read-back", "statement": "After an application configuration parameter is successfully set, reading it returns exactly the bytes that were set (a 4 byte UWB_INITIATION_TIME reads back zero-extended to 8 bytes).", "quantifier": "every supported parameter, every value, every prior configuration", "why_tests_cant": "58 parameters times unbounded value and prior-state space.", "anchors": ["src/app_config.rs:AppConfig::set,AppConfig::get"]}
{"id": "C13", "title": "Configuration parameters are independent", "statement": "Setting one application configuration parameter never changes the value read for any other parameter.", "quantifier": "every pair of parameters, every value, every prior configuration", "why_tests_cant": "Quadratic number of parameter pairs and unbounded values.", "anchors": ["src/app_config.rs:AppConfig::set,AppConfig::get"]}
{"id": "C14", "title": "A refused parameter changes nothing", "statement": "When setting an application configuration parameter fails, the whole configuration is unchanged.", "quantifier": "every parameter, value and prior configuration", "why_tests_cant": "Unbounded value and state space.", "anchors": ["src/app_config.rs:AppConfig::set"]}
{"id": "C15", "title": "Which parameter values are accepted", "statement": "A parameter is accepted exactly when its identifier is supported and its value has the length required for that identifier and, for enumerated parameters, is one of the values the UCI grammar declares; a destination list is accepted exactly when its length is NUMBER_OF_CONTROLEES times the address size of the address mode.", "quantifier": "every parameter identifier byte, every value, every prior configuration", "why_tests_cant": "Unbounded values.", "anchors": ["src/app_config.rs:AppConfig::set", "src/uci_packets.pdl:AppConfigTlvType and config enums"]}
{"id": "C16", "title": "Nothing but reset is served before the first reset", "statement": "On a freshly connected device, every well-formed command other than CORE_DEVICE_RESET is answered by exactly one CORE_DEVICE_STATUS_NTF(ERROR) and changes nothing, until a reset command is received.", "quantifier": "every command, every sequence of commands before reset", "why_tests_cant": "Arbitrary command sequences.", "anchors": ["src/device.rs:receive_command", "src/packets.rs:is_core_device_reset_cmd"]}
{"id": "C17", "title": "Exactly one answer per command, matching the command", "statement": "Every command that is processed produces exactly one immediate message to the host: a response with the group and opcode of the command (or the status notification before reset); packets that are not commands or data produce none.", "quantifier": "every received packet in every reachable device state", "why_tests_cant": "All packets and all device states.", "anchors": ["src/device.rs:receive_packet,receive_command"]}
{"id": "C18", "title": "Unknown groups and packet types are handled without effect", "statement": "A command packet with an unassigned group identifier is answered with STATUS_UNKNOWN_GID carrying the same group and opcode, one with a group that has no commands likewise, and neither changes the device; response and notification packets are ignored.", "quantifier": "every received packet, every device state", "why_tests_cant": "All packets and states.", "anchors": ["src/device.rs:receive_packet,receive_command"]}
{"id": "C19", "title": "Reset returns the device to its initial state", "statement": "After CORE_DEVICE_RESET, from any state, the device has no sessions, default configuration and country code, state READY, all its ranging timers are cancelled, each discarded session is reported DEINIT exactly once, a READY notification is scheduled, and the response is OK; handle and MAC address are unchanged.", "quantifier": "every reachable device state", "why_tests_cant": "All device states.", "anchors": ["src/device.rs:core_device_reset", "src/session.rs:Drop"]}
{"id": "C20", "title": "Device configuration set and get", "statement": "CORE_SET_CONFIG applies every writable parameter and reports exactly the read-only (READ_ONLY) and unknown (INVALID_PARAM) ones in order; CORE_GET_CONFIG returns either all requested values or exactly the list of unavailable ones; LOW_POWER_MODE reads back what was last set; DEVICE_STATE reads as the current device state.", "quantifier": "every parameter list and every device state", "why_tests_cant": "Unbounded lists of parameters and histories.", "anchors": ["src/device.rs:core_set_config,core_get_config"]}
{"id": "C21", "title": "Session limit and session count", "statement": "A device never has more than 255 sessions, a session init beyond that is refused with ERROR_MAX_SESSIONS_EXCEEDED and changes nothing, and SESSION_GET_COUNT always reports the exact number of sessions.", "quantifier": "every command history", "why_tests_cant": "Counting modulo 256 only fails after hundreds of sessions in a specific history.", "anchors": ["src/device.rs:session_init,session_get_count,MAX_SESSION"]}
{"id": "C22", "title": "Initialising an existing session does not disturb it", "statement": "SESSION_INIT with the identifier of an existing session is refused with ERROR_SESSION_DUPLICATE and leaves the existing session (state, configuration, ranging) unchanged.", "quantifier": "every reachable device state and session identifier", "why_tests_cant": "All device states.", "anchors": ["src/device.rs:session_init"]}
{"id": "C23", "title": "Session state machine and its notifications", "statement": "A session only moves along the transitions of the UCI session state machine (absent-INIT, INIT-IDLE, IDLE-ACTIVE, ACTIVE-IDLE, any-DEINIT/absent), each change of state of an existing session is notified to its host by exactly one SESSION_STATUS_NTF carrying the session id and the new state, and no SESSION_STATUS_NTF is produced without a change.", "quantifier": "every event (packet, ranging tick, in-band stop) in every reachable state", "why_tests_cant": "All histories and all event kinds.", "anchors": ["src/session.rs:set_state,Drop", "src/device.rs", "src/lib.rs:stop_controlee_ranging"]}
{"id": "C24", "title": "Setting the session configuration is all or nothing", "statement": "SESSION_SET_APP_CONFIG either applies every parameter of the command and answers OK, or changes nothing at all in the device and answers with an error status listing exactly the parameters that were refused (if any).", "quantifier": "every parameter list, every session and device state", "why_tests_cant": "Unbounded parameter lists and states.", "anchors": ["src/device.rs:session_set_app_config"]}
{"id": "C25", "title": "Idle and active sessions are fully configured", "statement": "In every reachable state, a session that is IDLE or ACTIVE has DEVICE_ROLE, MULTI_NODE_MODE, RANGING_ROUND_USAGE, DEVICE_MAC_ADDRESS and SCHEDULE_MODE set.", "quantifier": "every command history", "why_tests_cant": "Invariant over all histories.", "anchors": ["src/device.rs:session_set_app_config"]}
{"id": "C26", "title": "Start and stop obey the session state", "statement": "SESSION_START succeeds exactly when the session exists and is IDLE, makes it ACTIVE, starts exactly one ranging timer with the configured RANGING_DURATION and makes the device ACTIVE; SESSION_STOP succeeds exactly when the session exists and is ACTIVE, makes it IDLE and cancels its timer; otherwise they answer with an error and change nothing.", "quantifier": "every session state and device state", "why_tests_cant": "All states.", "anchors": ["src/device.rs:session_start,session_stop"]}
{"id": "C27", "title": "Device state reflects active sessions", "statement": "The device is in state ACTIVE exactly when at least one of its sessions is ACTIVE, and READY otherwise; each change is notified by exactly one CORE_DEVICE_STATUS_NTF.", "quantifier": "every history of commands, ranging ticks and in-band stops", "why_tests_cant": "Counter bookkeeping over all histories.", "anchors": ["src/device.rs:n_active_sessions,set_state", "src/lib.rs:stop_controlee_ranging"]}
{"id": "C28", "title": "A ranging timer runs exactly for active sessions", "statement": "In every reachable state a session has a running ranging timer if and only if it is ACTIVE, and there is at most one timer per session.", "quantifier": "every history", "why_tests_cant": "All histories, in particular multicast list updates on active sessions.", "anchors": ["src/device.rs:session_start,session_update_controller_multicast_list", "src/session.rs:stop_ranging_task"]}
{"id": "C29", "title": "Deinit removes exactly the named session", "statement": "SESSION_DEINIT on an existing session answers OK, removes it, cancels its timer, notifies DEINIT and leaves all other sessions untouched; on an unknown session it answers ERROR_SESSION_NOT_EXIST and changes nothing. It can never make the active session counter underflow.", "quantifier": "every reachable device state and session identifier", "why_tests_cant": "The counter argument needs an invariant over all histories.", "anchors": ["src/device.rs:session_deinit"]}
{"id": "C30", "title": "Queries are side-effect free and all-or-nothing", "statement": "GET_DEVICE_INFO, GET_CAPS_INFO, GET_CONFIG, SESSION_GET_COUNT, SESSION_GET_STATE, SESSION_GET_APP_CONFIG, SESSION_GET_RANGING_COUNT and GET_POWER_STATS never change the device; SESSION_GET_APP_CONFIG returns the values of all requested parameters in order, or FAILED with no value if any is unavailable.", "quantifier": "every query in every device state", "why_tests_cant": "All states and request lists.", "anchors": ["src/device.rs:session_get_app_config and other getters"]}
{"id": "C31", "title": "Multicast list update is accurately reported", "statement": "For an accepted add (or remove) command the response lists one status per requested controlee in order; a controlee is reported OK exactly when it was absent and there was room (respectively present), ALREADY_PRESENT/LIST_FULL (respectively NOT_FOUND) otherwise; afterwards the list is exactly the old list with the OK controlees appended in order (respectively removed), and NUMBER_OF_CONTROLEES is its length.", "quantifier": "every controlee list, every multicast list and session state", "why_tests_cant": "Unbounded lists with duplicates.", "anchors": ["src/device.rs:session_update_controller_multicast_list"]}
{"id": "C32", "title": "The multicast list never exceeds eight controlees", "statement": "In every reachable state the destination list of a session has at most 8 (MAX_NUMBER_OF_CONTROLEES) entries.", "quantifier": "every history", "why_tests_cant": "The bound must hold for every mix of configuration and multicast updates.", "anchors": ["src/device.rs:session_update_controller_multicast_list", "src/app_config.rs:DstMacAddress"]}
{"id": "C33", "title": "Multicast update preconditions", "statement": "A multicast list update is refused without any effect when the session does not exist, is not IDLE or ACTIVE, is not a CONTROLLER in ONE_TO_MANY mode, or when the controlee list is malformed; adding with sub-session keys when STS_CONFIG is not PROVISIONED_FOR_RESPONDER_SUB_SESSION_KEY adds no controlee and answers FAILED.", "quantifier": "every command payload and every state", "why_tests_cant": "All payload byte strings.", "anchors": ["src/device.rs:session_update_controller_multicast_list"]}
{"id": "C34", "title": "Emptying the multicast list stops the session", "statement": "When a multicast list update leaves the list of an ACTIVE session empty, the session becomes IDLE with reason ERROR_INVALID_NUM_OF_CONTROLEES, its ranging stops, the device leaves ACTIVE if it was the last active session, and the session can be started again.", "quantifier": "every reachable state in which the list becomes empty", "why_tests_cant": "Requires the interplay of multicast updates, timers and start over all histories.", "anchors": ["src/device.rs:session_update_controller_multicast_list,session_start"]}
{"id": "C35", "title": "Handles are unique and never reused", "statement": "Over the whole life of the context, every device connected and every anchor created receives a handle that was never given before, whatever was disconnected or destroyed in between.", "quantifier": "every sequence of connect, disconnect, create-anchor and destroy-anchor commands", "why_tests_cant": "All histories.", "anchors": ["src/lib.rs:Handle,add_device,create_anchor"]}
{"id": "C36", "title": "MAC addresses identify one device or anchor", "statement": "At any time no two connected devices or anchors of the environment have the same MAC address; creating an anchor with an address in use is refused with DeviceAlreadyExists and changes nothing; destroying an unknown anchor is refused with DeviceNotFound, destroying a known one removes exactly it and returns its handle.", "quantifier": "every command history", "why_tests_cant": "All histories, in particular a connection after an anchor took the address, and more than 65536 handles.", "anchors": ["src/lib.rs:add_device,create_anchor,destroy_anchor,get_category"]}
{"id": "C37", "title": "Connection events are balanced", "statement": "Every connection produces exactly one Connected event, every device leaves the environment with exactly one Disconnected event carrying the same handle and MAC address after it, repeated disconnects produce nothing, and the devices present are exactly those connected and not disconnected.", "quantifier": "every command history", "why_tests_cant": "All histories.", "anchors": ["src/lib.rs:add_device,disconnect,PicaEvent"]}
{"id": "C38", "title": "Hosts are isolated from each other", "statement": "A packet received from one host never changes the state of another device or of its sessions and never sends anything to another host; an in-band stop only affects active sessions with that session id and device MAC address; ranging by one device never changes another device.", "quantifier": "every packet, every pair of devices, every state", "why_tests_cant": "All states and packets.", "anchors": ["src/lib.rs:uci_packet,ranging,stop_controlee_ranging"]}
{"id": "C39", "title": "Ranging measurements are sound and complete", "statement": "Each ranging round of a session reports exactly one measurement for every entry of its destination list that is an anchor that can be estimated, and for every other device having an ACTIVE session with the same id, different role and type, mutually listing each other, that can be estimated, and nothing else; the values are those of the estimator, local and remote not swapped.", "quantifier": "every environment, estimator, iteration order and session", "why_tests_cant": "Number of devices, anchors and configurations is unbounded; iteration order is arbitrary.", "anchors": ["src/lib.rs:ranging,make_measurement", "src/app_config.rs:is_compatible_for_ranging"]}
{"id": "C40", "title": "Ranging compatibility is symmetric", "statement": "If both sessions are active, device A reports a measurement of device B exactly when B reports one of A (with a symmetric estimator).", "quantifier": "every pair of devices and every configuration", "why_tests_cant": "All configurations.", "anchors": ["src/app_config.rs:is_compatible_for_ranging", "src/device.rs:can_start_ranging"]}
{"id": "C41", "title": "Ranging sequence numbers count notifications", "statement": "The SESSION_INFO_NTFs of a session carry the sequence numbers 0,1,2,... in order without gap or repetition since the session was initialised, and SESSION_GET_RANGING_COUNT is the number of them sent.", "quantifier": "every history", "why_tests_cant": "All interleavings of ranging ticks and commands.", "anchors": ["src/lib.rs:ranging", "src/device.rs:session_get_ranging_count"]}
{"id": "C42", "title": "Disabled ranging notifications are not sent", "statement": "When SESSION_INFO_NTF_CONFIG is DISABLE a ranging round sends no SESSION_INFO_NTF and does not advance the ranging count; otherwise it sends exactly one, to the ranging host only.", "quantifier": "every state in which a ranging round runs", "why_tests_cant": "All states.", "anchors": ["src/lib.rs:ranging", "src/session.rs:is_session_info_ntf_enabled"]}
{"id": "C43", "title": "In-band data is delivered exactly once and in order", "statement": "The application data of a ranging round delivered to a receiving peer is exactly the concatenation, in order, of the application data accepted for the session since its previous round; nothing is delivered twice.", "quantifier": "every history of data messages and ranging rounds", "why_tests_cant": "All interleavings of data messages and rounds.", "anchors": ["src/lib.rs:ranging", "src/session.rs:data_message_snd,clear_data"]}
{"id": "C44", "title": "In-band data reaches only its destination", "statement": "Application data sent with a destination address is delivered only to the device with this address.", "quantifier": "every data message and every environment", "why_tests_cant": "All environments.", "anchors": ["src/lib.rs:ranging", "src/device.rs:can_receive_data_transfer", "src/uci_packets.pdl:DataMessageSnd"]}
{"id": "C45", "title": "Removing a controlee stops it in-band", "statement": "Removing a controlee from the multicast list schedules exactly IN_BAND_TERMINATION_ATTEMPT_COUNT in-band stop requests to that address and session; receiving one, an ACTIVE session with this id and address becomes IDLE with reason SESSION_STOPPED_DUE_TO_INBAND_SIGNAL, its timer is cancelled and the device leaves ACTIVE if it was its last; further requests change nothing.", "quantifier": "every state and every number of attempts", "why_tests_cant": "All states, repeated requests.", "anchors": ["src/device.rs:session_update_controller_multicast_list", "src/lib.rs:stop_controlee_ranging"]}
{"id": "C46", "title": "No packet from a host can bring down the environment", "statement": "Processing any packet received from a host, in any state, terminates without panic (so that one host cannot take down all the others).", "quantifier": "every byte string received, every reachable state", "why_tests_cant": "All byte strings and states.", "anchors": ["src/device.rs:receive_packet,receive_command and all handlers", "src/app_config.rs:set"]}
{"id": "C47", "title": "No schedule of timers, connections and commands can bring down the environment", "statement": "Whatever the interleaving of ranging timers, disconnections, resets and session commands in the command queue, the event loop does not panic.", "quantifier": "every schedule of the concurrent tasks and every queue content", "why_tests_cant": "Schedule dependent: needs a timer tick queued behind a disconnect or deinit.", "anchors": ["src/lib.rs:ranging,run,add_device", "src/session.rs:stop_ranging_task"]}
{"id": "C48", "title": "No ranging notification after stop", "statement": "After the SESSION_STOP_RSP(OK) for a session no SESSION_INFO_NTF of that session is sent until it is started again.", "quantifier": "every schedule of timers and commands", "why_tests_cant": "Schedule dependent.", "anchors": ["src/lib.rs:ranging", "src/device.rs:session_stop"]}
{"id": "C49", "title": "The web scene tracks the environment", "statement": "After the connection events and anchor requests have been processed, the scene reported by get-state contains exactly the connected devices and the existing anchors, each once, with its category, MAC address and last position.", "quantifier": "every history of connections, disconnections, anchor and position requests", "why_tests_cant": "All histories.", "anchors": ["src/bin/http-server/main.rs:Context"]}
{"id": "C50", "title": "Anchor requests return the documented status", "statement": "create-anchor answers 200 and adds the anchor, or 409 when the address is in use, destroy-anchor answers 200 and removes the anchor, or 404; malformed addresses or positions answer 406; failing requests change nothing.", "quantifier": "every request path and body, every scene", "why_tests_cant": "All requests and scenes.", "anchors": ["src/bin/http-server/main.rs:http_create_anchor,http_destroy_anchor,http_request"]}
{"id": "C51", "title": "Set-position moves one device and announces every neighbour", "statement": "set-position on a known address changes the position of exactly that device, answers 200 and emits one device-updated event and, for every other device, one neighbor-updated event in each direction with equal distances; on an unknown address it answers 404 and changes nothing.", "quantifier": "every scene, address and position", "why_tests_cant": "All scenes.", "anchors": ["src/bin/http-server/main.rs:http_set_position"]}
{"id": "C52", "title": "The web server works without listeners", "statement": "Connections, anchor and position requests are served whether or not a browser is subscribed to the event stream.", "quantifier": "every number of subscribers, every request", "why_tests_cant": "Needs the zero-subscriber case of every handler.", "anchors": ["src/bin/http-server/main.rs:Context::new,handle_connection_events,http_*"]}
{"id": "C53", "title": "Measured range is symmetric", "statement": "For any two positions the range computed from the first to the second equals the range computed from the second to the first, in the floating point arithmetic used, so that the server assertion comparing them cannot fail.", "quantifier": "all pairs of positions (2^96 coordinate combinations)", "why_tests_cant": "Domain size.", "anchors": ["src/bin/http-server/position.rs:compute_range_azimuth_elevation", "src/bin/http-server/main.rs:http_set_position"]}
{"id": "C54", "title": "Measured range is accurate", "statement": "The range computed for two positions is within 1 cm of the Euclidean distance, and saturates at 65535 cm.", "quantifier": "all pairs of positions", "why_tests_cant": "Domain size; rounding errors.", "anchors": ["src/bin/http-server/position.rs:compute_range_azimuth_elevation"]}
{"id": "C55", "title": "Azimuth and elevation stay in range", "statement": "The computed azimuth is in [-180,180] degrees and the elevation in [-90,90] degrees for every pair of positions and orientation, so that the assertions on them cannot fail.", "quantifier": "all pairs of positions and orientations", "why_tests_cant": "Domain size; special cases at axes and poles.", "anchors": ["src/bin/http-server/position.rs:azimuth,elevation,compute_range_azimuth_elevation"]}
{"id": "C56", "title": "The estimator answers exactly for known devices", "statement": "A measurement between two handles is produced exactly when both are in the scene, and is the one computed from their last positions.", "quantifier": "every scene and every pair of handles", "why_tests_cant": "All scenes.", "anchors": ["src/bin/http-server/main.rs:RangingEstimator for Context"]}
{"id": "C57", "title": "Malformed commands are answered with an error", "statement": "A command of a known group that is malformed or has an unknown opcode is answered with an error status (STATUS_UNKNOWN_OID) and changes nothing.", "quantifier": "every byte string with a known group identifier", "why_tests_cant": "All byte strings.", "anchors": ["src/device.rs:receive_packet,receive_command"]}
{"id": "C58", "title": "Responses always precede the notifications they cause", "statement": "The response to a command is handed to the host connection before any notification caused by that command.", "quantifier": "every command and every schedule of the delayed notifications", "why_tests_cant": "Schedule dependent.", "anchors": ["src/device.rs:set_state,receive_packet", "src/session.rs:set_state"]}
{"id": "C59", "title": "Messages are neither lost, duplicated nor forged", "statement": "While a host is connected, the messages it has received, together with those still scheduled for it, are exactly the messages the processed commands produced for it, each once; those sent by the event loop itself are received in the order they were produced.", "quantifier": "every schedule of the tasks, every history", "why_tests_cant": "Schedule dependent: several tasks write to the same channel.", "anchors": ["src/lib.rs:run,add_device", "src/device.rs:set_state", "src/session.rs:set_state"]}
{"id": "C60", "title": "Packets are processed once, in order, for a connected device", "statement": "The packets read from a connection are processed by the environment in the order they were read and each once, and the disconnection of a host is processed after all its packets; no command of a host is processed before its connection or after its disconnection.", "quantifier": "every schedule of reads, queueing and the event loop", "why_tests_cant": "Schedule dependent.", "anchors": ["src/lib.rs:add_device,run,uci_command"]}
{"id": "C61", "title": "A session has at most one ranging task", "statement": "At any time at most one ranging task runs for a session, and between two commands there is exactly one for every active session that was not emptied by a multicast update, so that rounds are not doubled.", "quantifier": "every schedule and history", "why_tests_cant": "Schedule dependent; all histories.", "anchors": ["src/session.rs:start_ranging,stop_ranging_task"]}
{"id": "C62", "title": "Ranging rounds keep their cadence", "statement": "When a session configured with RANGING_DURATION r is started, the n-th ranging round is asked for no earlier than n * r milliseconds after the start, two rounds are at least r apart, and at any moment the next round can be asked for within r milliseconds if the command queue has room. (A change of RANGING_DURATION while the session is active is accepted but has no effect before the next start.)", "quantifier": "every schedule, every interval", "why_tests_cant": "Time and schedule dependent.", "anchors": ["src/device.rs:session_start"]}
{"id": "C63", "title": "No deadlock", "statement": "From every reachable state that has not crashed the queued commands can all be processed (or the event loop panics on one of them), and all the delayed notifications can be delivered.", "quantifier": "every reachable state", "why_tests_cant": "Liveness over all states.", "anchors": ["src/lib.rs:run"]}
{"id": "C64", "title": "Every command is answered exactly once and in order, end to end", "statement": "For a connected host that sends well-formed commands, the responses it receives are the answers to its commands, one for each, in the order the commands were sent.", "quantifier": "every schedule, every history of all hosts", "why_tests_cant": "Schedule dependent.", "anchors": ["src/lib.rs:uci_command,add_device", "src/device.rs:receive_packet"]}
{"id": "C65", "title": "State notifications arrive in the order of the state changes", "statement": "The SESSION_STATUS_NTF of a session and the CORE_DEVICE_STATUS_NTF of a device arrive in the order in which the states changed.", "quantifier": "every schedule of the delayed notifications", "why_tests_cant": "Schedule dependent: every notification is sent by a task of its own.", "anchors": ["src/session.rs:set_state", "src/device.rs:set_state"]}
{"id": "C66", "title": "No device outlives its connection", "statement": "Every device of the environment has an open connection, or one whose end is about to be reported; the end of a connection is reported exactly once.", "quantifier": "every schedule and history, including failures of a connection task", "why_tests_cant": "Schedule and crash dependent.", "anchors": ["src/lib.rs:add_device,disconnect"]}
{"id": "C67", "title": "The reference host sees every message as it was meant", "statement": "Whatever messages the simulator sends to a host, a program using the reference Python library receives, in order, for each of them an object of the class of the message whose fields have the values that were sent.", "quantifier": "every list of messages the simulator can send, with every length and field value, in every execution", "why_tests_cant": "All message contents, all executions; two implementations of the packet format must agree.", "anchors": ["py/pica/pica/packets/uci.py:UciPacket.parse_all", "py/pica/pica/__init__.py:Host", "src/lib.rs:add_device"]}
{"id": "C68", "title": "The commands built with the library arrive as they were meant", "statement": "Every list of commands built with the reference Python library, with any arguments, is decoded by the simulated device as the same commands in the same order; a command too long for a packet raises an exception in the program and sends nothing.", "quantifier": "every list of commands and arguments", "why_tests_cant": "All argument values and lengths.", "anchors": ["py/pica/pica/packets/uci.py:serialize", "py/pica/pica/__init__.py:Host.send_control", "src/packets.rs", "src/uci_packets.pdl"]}
{"id": "C69", "title": "A file sent from the console arrives whole", "statement": "The data_transfer command of the console, given a file, sends data packets which carry its parts in order with consecutive sequence numbers and the packet boundary flag on all but the last; the session holds the whole file after them, every packet is acknowledged by one credit notification, and the next ranging round delivers the file, whole, to every receiver.", "quantifier": "every file (any length), session, destination, reachable state", "why_tests_cant": "Unbounded file sizes; states of the simulator.", "anchors": ["py/pica/console.py:data_transfer", "src/session.rs:data_message_snd", "src/lib.rs:send_data"]}
{"id": "C70", "title": "The position shown is the position set", "statement": "The coordinates of a device or anchor reported by the web server are exactly those that were set, for every value of their type, and the reported angles are within a half circle (yaw and roll) and a quarter circle (pitch).", "quantifier": "all coordinates (signed 16 bit), all rotations", "why_tests_cant": "Floating point conversions over all values.", "anchors": ["src/bin/http-server/position.rs:Position::new,Serialize"]}
{"id": "C71", "title": "The page shows the scene", "statement": "Once the web page has loaded the state and for as long as it receives the events, it shows exactly the devices and anchors of the scene, each once and at its current position.", "quantifier": "every history of the server after and before the page is opened, every arrival order of the state and the events", "why_tests_cant": "Race between two connections; unbounded histories.", "anchors": ["static/index.html:update_state,device-added,device-removed,device-updated", "src/bin/http-server/main.rs:http_get_state,http_events"]}
{"id": "C72", "title": "The page shows every neighbour with its current distance and angles", "statement": "The page lists, for each device, every other device as a neighbour, and the distance and angles shown for it are those of the current positions.", "quantifier": "every history of the server while the page is open", "why_tests_cant": "Unbounded histories; the announcements of different requests must compose.", "anchors": ["static/index.html:neighbor-updated,device-removed", "src/bin/http-server/main.rs:http_set_position"]}
{"id": "C73", "title": "Dragging keeps a device on the board", "statement": "However a device is dragged on the page, its position stays on the board, its elevation does not become negative, and the server accepts the resulting position.", "quantifier": "every sequence of mouse movements, from every position", "why_tests_cant": "Unbounded sequences of inputs.", "anchors": ["static/src/components/Map.js:onMouseMove", "static/index.html:set_position", "src/bin/http-server/main.rs:PositionBody"]}
{"id": "C74", "title": "The Python library queues exactly the packets the simulator sent, however the stream is cut", "statement": "Whatever pieces the TCP stream arrives in, the library's reader puts on its control queue every control message the simulator sent and on its data queue every data message, each complete, in the order sent, and then waits for more.", "quantifier": "every sequence of messages, every cut of the stream into pieces, every execution of the simulator", "why_tests_cant": "All ways to cut a stream; messages of any number of segments.", "anchors": ["py/pica/pica/__init__.py:Host._read_exact,Host._read_packet,Host._read_packets", "py/pica/pica/packets/uci.py", "src/lib.rs:connection task"]}
{"id": "C75", "title": "The Python library notices the end of the connection", "statement": "When the simulator closes the connection, the library's reader has queued all the messages received before and then ends (with an exception), as its documentation says.", "quantifier": "every sequence of messages, every cut of the stream into pieces", "why_tests_cant": "Termination for all streams.", "anchors": ["py/pica/pica/__init__.py:Host._read_exact,Host._read_packets"]}
{"id": "C76", "title": "A host that waits for its messages sees the effects of its commands one after the other", "statement": "A host which, before it sends a packet, waits for everything its previous packet causes receives the messages of its device command by command, in the order in which the commands are processed: for each one the answer first, then the status notifications, the session's before the device's, and nothing of another command in between. Once everything has arrived it has received exactly that.", "quantifier": "every schedule of the server and of all the hosts in which the delayed notifications to this host are sent in the order of their deadlines and not before the answer of their command, and no time passes between the creations of two of them by one command", "why_tests_cant": "The order results from the race of the event loop with one task per delayed notification; a test sees one schedule.", "anchors": ["src/device.rs:Device::set_state", "src/session.rs:Session::set_state", "src/lib.rs:Pica::run", "tests/helper.py:init"]}
{"id": "C77", "title": "What each command gives to its host, and how a session is set up", "statement": "A connection gives a READY device status; a reset its response, one DEINIT status per session and a READY status; the init, configuration, start, stop and deinit of a session give their positive response, the new session status and, last, the device status if it changed. So a host in lockstep that sends a reset, a session init and a configuration with the mandatory parameters receives exactly READY, the reset response, READY, the init response, INIT, the configuration response, IDLE; and starting the session adds the start response, ACTIVE and device ACTIVE, whatever the other hosts do.", "quantifier": "every reachable state; every session id, type and accepted configuration; every schedule as in C76, with any activity of the other hosts", "why_tests_cant": "Any number of other hosts, sessions and interleavings.", "anchors": ["src/device.rs:Device::command", "src/session.rs:Session::set_state", "tests/helper.py:init", "tests/ranging.py"]}
{"id": "C78", "title": "Browsers decode exactly the events and the state that were sent", "statement": "A subscriber to /events that was sent some events of the server decodes, by the rules of the EventSource standard and of JSON, exactly these events in the same order, each with its type and all its field values; if the connection is lost in the middle of an event it has decoded all the events before it and no part of that one. The texts are unambiguous. The answer to get-state is one JSON object listing the devices with their category, address and six numbers.", "quantifier": "every execution of the server, every sequence of its events, every byte at which the stream is cut", "why_tests_cant": "All events and all cut points; agreement with the standards' grammars rather than with one parser.", "anchors": ["src/bin/http-server/main.rs:Event,Event::name,http_events,http_get_state,DeviceInformation", "src/bin/http-server/position.rs:Serialize", "src/mac_address.rs:From<MacAddress> for String"]}
{"id": "C79", "title": "A request's body is accepted exactly when it is a position in JSON", "statement": "A request with a position is carried out with exactly the six numbers of its body when the body is, by the JSON grammar, an object with each of the six members once and each an integer of its range (other members, order and spaces do not matter), or the list of the six numbers; any other body is refused with status 406 and changes nothing; an empty body means the default position. In particular what the web page sends is accepted with its meaning, and a body that is cut is refused.", "quantifier": "every text as body; for the page, all values in range and every byte at which the body is cut", "why_tests_cant": "All texts: a test tries a few bodies.", "anchors": ["src/bin/http-server/main.rs:PositionBody,position!,http_request", "static/index.html:set_position"]}
{"id": "C80", "title": "A subscriber receives every event since its subscription, in order, once", "statement": "The body of a response to /events is exactly the events broadcast since the response was opened, in their order, each once, up to the point the client has read to; reading it to the end yields all of them. It ends only if the client leaves, the server ends, or more than 1024 events wait unread, and what it has sent is then still a prefix. What one client does changes no other client's response; the server has a listener exactly while some response goes on.", "quantifier": "every history of requests, events, subscriptions, reads and departures of any number of clients", "why_tests_cant": "All interleavings of clients with events, and any number of events: a test opens one or two streams and reads them at once.", "anchors": ["src/bin/http-server/main.rs:http_events,Context::new"]}
{"id": "C81", "title": "The measured angles are the angles under which the other device is seen", "statement": "The azimuth and elevation of a measurement are the whole degrees nearest to the angles of the direction from the measuring device to the other one, turned by the yaw, then the pitch, then the roll of the measuring device; binary32 arithmetic moves this direction by at most a thousandth of the distance, and not at all for a device that is not rotated.", "quantifier": "every two different positions in the range of i16, every yaw, pitch and roll, every implementation of sin, cos and atan accurate to four units in the last place of 1", "why_tests_cant": "2^140 pairs of positions and orientations; the unit tests look at a dozen multiples of 45 degrees.", "anchors": ["src/bin/http-server/position.rs:azimuth,elevation,Position::new,Position::compute_range_azimuth_elevation"]}
{"id": "C82", "title": "The measurements a host receives tell where the others are in the scene", "statement": "With the web server, every measurement in a ranging notification tells the distance and the directions, from here and from there, between the places that the scene shows for the two devices (or the device and the anchor); when the scene is up to date, every anchor of the destination list and every other device with an active and compatible session is measured, exactly once.", "quantifier": "every history of the server (connections, commands, requests that place devices and anchors, any interleaving), every session and every round", "why_tests_cant": "It ties the placements made by web clients to the bytes received by hosts over all histories; tests look at one placement.", "anchors": ["src/lib.rs:Pica::ranging", "src/bin/http-server/main.rs:Context::estimate,http_set_position", "src/bin/http-server/position.rs:compute_range_azimuth_elevation", "src/lib.rs:make_measurement"]}
{"id": "C83", "title": "The test programs set up a session without a failed expectation", "statement": "The part of the programs of tests/helper.py and tests/ranging.py that resets the device, opens a session and configures it never sees another message than the one it expects, for any session identifier, type and accepted parameters and whatever the other hosts do; it never waits for a message that will not come; when it is done the session is idle with these parameters.", "quantifier": "every schedule of the simulator's tasks, every activity of the other hosts, every session identifier, type and accepted parameters", "why_tests_cant": "The tests run the program once, on one schedule; the expectations depend on the order in which separate tasks send.", "anchors": ["tests/helper.py:init", "tests/ranging.py:controller,controlee", "py/pica/pica/__init__.py:expect_control,send_control", "src/device.rs:Device::command,Device::set_state", "src/session.rs:Session::set_state"]}
{"id": "C84", "title": "The ranging test program runs to its end against the simulator", "statement": "The program of tests/ranging.py (reset, open, configure, start, wait for n ranging notifications, stop, close) never sees another message than the one it expects, for any session, type, accepted parameters and n, whatever the other hosts do; it never waits for a message that will not come; when it is done it has received exactly the notifications numbered 0 to n-1 and the session is gone.", "quantifier": "every schedule of the simulator's tasks in which the machine keeps up, every activity of the other hosts, every session, accepted parameters and number of notifications", "why_tests_cant": "The test runs once, on one schedule, with one number of notifications; a round may interleave with any step of the program.", "anchors": ["tests/ranging.py:controller,controlee", "tests/helper.py:init", "py/pica/pica/__init__.py:expect_control,send_control", "src/device.rs:Device::session_start,Device::session_stop,Device::session_deinit", "src/lib.rs:Pica::ranging"]}
{"id": "C85", "title": "The data transfer test programs run to their end against the simulator", "statement": "The two programs of tests/data_transfer.py (one sets up an initiator session, sends a file to the other device and waits for ranging notifications; the other sets up a responder session and waits for the file, then for a notification) never see another message than the one they expect, for any accepted parameters, file and number of notifications, whatever the other hosts do; neither waits for a message that will not come; when the receiving program is done, the first data message it has received is exactly the file, from the address of the sender.", "quantifier": "every schedule of the simulator's tasks in which the machine keeps up, every order in which the two programs run, every activity of the other hosts, every session identifier, file and number of notifications", "why_tests_cant": "The test runs once, on one schedule; the two programs are not synchronised, so that the file can be sent in a round where there is nobody to receive it.", "anchors": ["tests/data_transfer.py:controller,controlee,data_transfer", "tests/helper.py:init", "py/pica/pica/__init__.py:expect_control,expect_data", "src/device.rs:Device::data_message_snd", "src/lib.rs:Pica::ranging"]}
{"id": "C86", "title": "Measurements of the default binary", "statement": "Every session information notification that a host receives from the default binary lists exactly the devices that had, when the round was made, an active session compatible with its own, each exactly once, and no anchor; every measurement has status OK, distance 0 and angles 0.", "quantifier": "every schedule, number of hosts and devices, and history of the default binary", "why_tests_cant": "All histories and interleavings of rounds with the commands of the hosts.", "anchors": ["src/bin/main.rs:MockRangingEstimator,main,accept_incoming", "src/lib.rs:Pica::ranging,make_measurement,RangingMeasurement"]}
{"id": "C87", "title": "A fair runtime answers every command, delivers every message and removes every host that left", "statement": "Suppose the program runs for ever without a panic of its event loop, and the runtime eventually gives every ready task its turn. Then every command packet read from a host that stays connected is eventually answered, in order, by the responses the host receives; every message the event loop ever meant for that host, including the notifications that are sent by a separate task after a delay, is eventually written to it; and a host whose connection has ended is eventually removed, for good.", "quantifier": "all infinite executions of the whole system (connections, reads, event loop, timers, delayed notifications, HTTP requests in any interleaving) with a fair scheduler; all hosts; all points of the execution", "why_tests_cant": "A liveness property of infinite executions: a test observes a finite prefix of one schedule, and a missing answer is never distinguishable from a late one.", "anchors": ["src/lib.rs:Pica::run,add_device,disconnect_device", "src/session.rs:set_state", "src/device.rs:set_state,init"]}
{"id": "C88", "title": "Requests of the web server are answered as its OpenAPI documentation says", "statement": "A request for a documented operation, with the documented method and path, is answered with one of the documented status codes, on every history of the server. Paths that are neither documented nor files of the page are answered 404. A request that is refused on arrival changes neither the scene, the environment nor the event stream. An operation is performed only by its documented method, a device is not initialised twice, and a required body is required.", "quantifier": "all histories of the web server (requests of any method, path and body, environment events, rounds and connections in any interleaving)", "why_tests_cant": "All paths and bodies, in all states of the server, and all interleavings of the answers with the event loop.", "anchors": ["static/openapi.yaml", "src/bin/http-server/main.rs:Context::http_request,http_init_uci_device,http_set_position,http_create_anchor,http_destroy_anchor,http_get_state,http_events"]}
{"id": "C89", "title": "What a device declares about itself is constant and true", "statement": "The device information, the capabilities and the power statistics a device reports are the same in every state and history, with the documented versions and values; asking changes nothing. Every value of an application parameter that the capabilities declare as supported is accepted by a session, and works. What is declared as not supported is refused.", "quantifier": "all reachable states of the environment, all hosts, all lists of parameters, all declared capability bits", "why_tests_cant": "All histories before the question and all parameter lists around the declared value.", "anchors": ["src/device.rs:DEFAULT_CAPS_INFO,UCI_VERSION,core_get_device_info,core_get_caps_info,android_get_power_stats,android_set_country_code,session_get_ranging_count,session_set_app_config", "src/app_config.rs:AppConfig::set", "src/lib.rs:make_measurement"]}
{"id": "C90", "title": "The console sends what is typed", "statement": "Each device command of the interactive console, typed with arguments that fit, sends exactly one packet, and the device decodes it as the command that the user named with the numbers that the user gave. The console does not end because of what is typed, does not act on another session than the one named, and with it alone a device can be initialised and used.", "quantifier": "every sequence of console commands and arguments, every history of the simulator and of the other hosts", "why_tests_cant": "the commands are only reached by typing; a test checks some arguments in one state, not that every command, argument and sequence of them is sent as meant, nor that no sequence at all can bring a device into service", "anchors": ["py/pica/console.py: Device, command_line", "py/pica/pica/packets/uci.py", "py/pica/pica/__init__.py: Host.send_control"]}
{"id": "C91", "title": "The console's web requests are those that are typed", "statement": "Each web command of the console (get the state, place a device, create or destroy an anchor, move it), typed with a well-formed address, makes a request that the server understands as this command for this address. The position asked for is exactly the one typed if its numbers are in range, and the request is refused, not altered, if one is not.", "quantifier": "every address and every six integers, in range or not", "why_tests_cant": "the text written by one JSON library is read by another; the tests do not run the console, and there are too many texts to try", "anchors": ["py/pica/console.py: pica_get_state, pica_init_uci_device, pica_create_anchor, pica_destroy_anchor, pica_set_position", "src/bin/http-server/main.rs:http_request"]}
{"id": "C92", "title": "The page asks the server only for what it shows", "statement": "Whatever the user presses, drags and slides on the page and whatever comes from the server meanwhile, in any order: the page makes a request only when a button or a slider is released, each request is about one device that the page shows, with the position and orientation shown for it at that moment, and what is shown after a gesture has been asked for. What the user does changes at most one device, and what comes from the server changes the page as it does without a user.", "quantifier": "every sequence of inputs of the user interleaved with every sequence of events and states from the server", "why_tests_cant": "the page keeps references to objects that events replace; which of the unboundedly many interleavings of mouse, sliders and events was tested says nothing about the others", "anchors": ["static/index.html: set_position", "static/src/components/Map.js: onMouseDown, onMouseUp, onMouseMove", "static/src/components/DeviceInfo.js: setYaw, setPitch, setRoll, notifyChange"]}
{"id": "C93", "title": "A device goes where the user puts it", "statement": "Dragging a marker, lifting its handle or moving the sliders makes the page ask, once, for that device at the place under the mouse (on the board), at the height to which it was lifted (not below the ground), with the angles of the sliders, and show it there with everything else as before. The server can read the request, and when it has processed it the device is there in the scene and the page shows the scene again.", "quantifier": "every history of the page, every sequence of mouse movements, every slider value, every scene", "why_tests_cant": "unbounded gestures and histories, and two programs in two languages", "anchors": ["static/index.html: set_position", "static/src/components/Map.js: onMouseDown, onMouseUp, onMouseMove", "static/src/components/DeviceInfo.js: setYaw, setPitch, setRoll, notifyChange", "src/bin/http-server/main.rs:PositionBody", "src/bin/http-server/main.rs:http_set_position"]}
{"id": "C94", "title": "What is typed at the console is what is executed", "statement": "A line typed at the interactive console executes the command it names with the values it gives: the plain words are the first parameters, the words name=value those named, in any order and with any number of blanks, and the other parameters have their defaults; numbers are decimal and addresses are pairs of hexadecimal digits. A line which names no command executes nothing. A word which names no parameter of the command is refused.", "quantifier": "every command, every sequence of words, every spacing, every number and address, every content of the file system", "why_tests_cant": "the texts are unbounded and the words can be ordered and mixed in unboundedly many ways", "anchors": ["py/pica/console.py:command_line", "py/pica/console.py:parse_mac_address", "py/pica/console.py:Device"]}
{"id": "C95", "title": "What a host reads of a session is what it last set, through any history", "statement": "After any history, a host which reads parameters of a session is answered with exactly the parameters it asked for, each with the value it last set with an accepted command since it created the session, or with the initial value of that parameter; with FAILED when one of them has no value; and with ERROR_SESSION_NOT_EXIST exactly when the session was not created, or was deleted since by the host, a reset or a disconnection. No command of another host, no refused command, no command for another session, and no ranging round or signal changes what is read. The number and the addresses of the controlees may in addition change with an update of the list of controlees.", "quantifier": "every history of commands, packets, timers and connections of any number of hosts, every session, every list of parameters", "why_tests_cant": "a parameter may be overwritten by any of unboundedly many earlier commands, and any command of any host could disturb it", "anchors": ["src/device.rs:session_set_app_config", "src/device.rs:session_get_app_config", "src/device.rs:session_init", "src/app_config.rs:AppConfig", "src/lib.rs:Pica"]}
{"id": "C96", "title": "What the web page draws is where the devices are and where they look", "statement": "The page is an isometric drawing of the scene: the marker of a device is drawn at the place which an isometric projection gives to its position, its elevation arrow goes straight down to its place on the ground, and while it is dragged its marker stays under the mouse up to a unit. The axes of the orientation are those of the scene, its pointer shows the direction which the device has straight ahead, in which another device is measured at azimuth 0 and elevation 0, and the arcs cover exactly the yaw and the pitch.", "quantifier": "every position, every yaw, pitch and roll, every point of the mouse", "why_tests_cant": "the drawing is in CSS and SVG transforms, the measurement in Rust with quaternions; no test compares the conventions of the two, and a wrong sign or order of rotations shows only for some combinations of angles", "anchors": ["static/src/components/Map.js: PROJECTION, createIsometricMatrix, onMouseMove, render", "static/src/components/Orientation.js: render", "src/bin/http-server/position.rs:Position::compute_range_azimuth_elevation"]}
{"id": "C97", "title": "The texts exchanged with the web server are as documented", "statement": "The data of every event and the body of every state that the server sends are valid for the schemas of its documentation (openapi.yaml): the categories, addresses, positions and measurements have the documented names, types and bounds. A body which is valid for the documented schema of a position is accepted and means what it says, and one which is not is refused.", "quantifier": "every history of the server, every event and state sent, every JSON body", "why_tests_cant": "histories, scenes and bodies are unbounded, and nothing in the tests compares the texts with the documentation", "anchors": ["static/openapi.yaml: components, paths", "src/bin/http-server/main.rs:Event", "src/bin/http-server/main.rs:http_get_state", "src/bin/http-server/main.rs:PositionBody", "src/bin/http-server/position.rs:Position::serialize"]}
{"id": "C98", "title": "A host is affected only by what concerns it", "statement": "The state of the device of a host, and every message this host receives except the measurements in its rounds and the data other devices send it, are determined by its own connection, packets, ranging rounds and disconnection and by the in-band stops it is notified of. Whatever the other hosts and the anchors do, however many they are, and in whatever order their commands are processed, changes nothing else: its next command has the same outcome.", "quantifier": "every pair of histories of the context in which the same things concern the host, whatever the rest", "why_tests_cant": "the claim relates pairs of histories of any length and any number of other hosts; a test compares two runs", "anchors": ["src/lib.rs:Pica::run", "src/lib.rs:Pica::ranging", "src/lib.rs:Pica::uci_packet", "src/lib.rs:Pica::stop_controlee_ranging", "src/lib.rs:Pica::add_device", "src/device.rs:Device::receive_packet"]}
{"id": "C99", "title": "The list of controlees read is the list last set, as changed by the accepted updates", "statement": "After any history, a host which reads DST_MAC_ADDRESS of one of its sessions reads, one after the other, the addresses it last set (cut in 2 or 8 bytes each, according to the MAC_ADDRESS_MODE in force when they were set), plus those which the answers to its later 'add controlee' updates reported as added, minus those which the answers to its 'remove controlee' updates reported as removed; NUMBER_OF_CONTROLEES reads as last set, or as the length of the list modulo 256 when the list was updated since. Refused commands, ranging rounds, timers and everything that other hosts do change neither. A session which exists has exactly one such list and one such number.", "quantifier": "every execution of the server: any number of hosts, sessions, commands, packets, disconnections, ranging rounds and timers, in any order", "why_tests_cant": "the answer depends on the whole history of the commands and answers; a test tries a few short histories only", "anchors": ["src/app_config.rs:AppConfig::set", "src/app_config.rs:AppConfig::get", "src/device.rs:session_update_controller_multicast_list", "src/device.rs:session_set_app_config", "src/device.rs:session_get_app_config"]}
{"id": "C100", "title": "Who is measured in a ranging round follows from what the hosts asked and were told", "statement": "After any history, the notification of a ranging round reports first the anchors which exist (created and not destroyed since) and are in the host's list of controlees, in the order of this list, and then, each exactly once, the other hosts which were last told that their session of the same number is ACTIVE, whose DEVICE_ROLE and DEVICE_TYPE differ from those the host set, and such that each of the two has the DEVICE_MAC_ADDRESS set by the other in its list of controlees; in both cases those for which both estimates exist, with these estimates. Nobody else is reported. There is exactly one notification per round, unless the host set SESSION_INFO_NTF_CONFIG to DISABLE.", "quantifier": "every execution of the server before the round, every round of every session, every estimate of the environment", "why_tests_cant": "the result depends on the whole history of all hosts and of the anchors", "anchors": ["src/lib.rs:ranging", "src/app_config.rs:AppConfig::can_start_data_transfer", "src/app_config.rs:AppConfig::is_compatible_for_ranging", "src/device.rs:session_update_controller_multicast_list", "src/lib.rs:create_anchor", "src/lib.rs:destroy_anchor"]}
{"id": "C101", "title": "The answers to the commands about sessions follow from the history of the host", "statement": "After any history, SESSION_INIT, SESSION_DEINIT, SESSION_GET_COUNT, SESSION_GET_STATE, SESSION_START and SESSION_STOP are answered as follows from the commands of this host, and from the answers and notifications it received: whether a session exists is what its own commands say, the number of sessions is their number (at most 255), the state of a session is the last one the host was notified of; a session can be started exactly when it was last notified IDLE and stopped exactly when it was last notified ACTIVE. There is exactly one such answer. Every other command naming a session (its configuration, its list of controlees, its ranging count) is answered ERROR_SESSION_NOT_EXIST exactly when the session does not exist.", "quantifier": "every execution of the server, every host, every such command with any session id", "why_tests_cant": "the answers depend on the whole history; a test tries a few short ones", "anchors": ["src/device.rs:session_init", "src/device.rs:session_deinit", "src/device.rs:session_get_count", "src/device.rs:session_start", "src/device.rs:session_stop", "src/device.rs:session_get_state"]}
{"id": "C102", "title": "The low power mode a host reads follows from its own history", "statement": "After any history, a host which reads LOW_POWER_MODE with CORE_GET_CONFIG reads 0 or 1: 1 if it has not set the mode since its device was last reset (or connected), and otherwise the mode given by the last CORE_SET_CONFIG that was answered and contained the parameter, even if that command was refused because of another parameter. Commands of other hosts, session commands, ranging rounds and disconnections of others never change it.", "quantifier": "every sequence of commands of the context (connections, disconnections, packets of every host, rounds, anchors, positions), every list of parameters set and read", "why_tests_cant": "tests set and read the mode in short scripts; the claim is about every history of every host", "anchors": ["src/device.rs:core_set_config", "src/device.rs:core_get_config", "src/device.rs:core_device_reset"]}
{"id": "C103", "title": "An active session is ranged for ever", "statement": "If the event loop does not panic, the runtime forgets neither the event loop nor a ranging task that is due, and the clock advances, then for a session that stays active from some moment on, another ranging round is performed after any moment: the number of its rounds exceeds any number.", "quantifier": "every infinite execution of the system with a fair scheduler: every interleaving of the event loop, the ranging tasks, the connections and the web server, every host and session", "why_tests_cant": "a test stops after a finite time, and sees only some interleavings", "anchors": ["src/device.rs:session_start", "src/lib.rs:ranging", "src/lib.rs:run"]}
