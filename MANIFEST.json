{
 "claims": [
  {
   "property": "C01",
   "status": "proved",
   "theorems": [
    "C01_segmentation_lossless"
   ],
   "note": ""
  },
  {
   "property": "C02",
   "status": "proved",
   "theorems": [
    "C02_segment_headers"
   ],
   "note": ""
  },
  {
   "property": "C03",
   "status": "proved",
   "theorems": [
    "C03_framing_sound",
    "C03_framing_complete",
    "C03_end_of_stream"
   ],
   "note": ""
  },
  {
   "property": "C04",
   "status": "partial",
   "theorems": [
    "C04_reassembly_partial",
    "C04_interleaved_data",
    "C04_interleaved_data_refuted"
   ],
   "note": "Proved for traffic in which no data packet arrives between two fragments of a control message; the other case is refuted: the data is glued to the fragment (lib.rs:258-275)."
  },
  {
   "property": "C05",
   "status": "proved",
   "theorems": [
    "C05_messages_end_to_end",
    "C05_controller_to_host",
    "C05_controller_writes",
    "C05_host_to_controller"
   ],
   "note": ""
  },
  {
   "property": "C06",
   "status": "proved",
   "theorems": [
    "C06_message_decodes",
    "C06_messages_distinct",
    "C06_layout",
    "C06_produced"
   ],
   "note": ""
  },
  {
   "property": "C07",
   "status": "proved",
   "theorems": [
    "C07_command_iff",
    "C07_encoding_unambiguous",
    "C07_controlees_iff",
    "C07_data_message_iff",
    "C07_layout",
    "C07_data_layout",
    "C07_controlees_layout"
   ],
   "note": ""
  },
  {
   "property": "C08",
   "status": "proved",
   "theorems": [
    "C08_text_round_trip",
    "C08_text_injective",
    "C08_text"
   ],
   "note": ""
  },
  {
   "property": "C09",
   "status": "proved",
   "theorems": [
    "C09_parse_iff",
    "C09_removals_deterministic",
    "C09_parsed_well_formed"
   ],
   "note": ""
  },
  {
   "property": "C10",
   "status": "proved",
   "theorems": [
    "C10_bytes_injective",
    "C10_number_is_little_endian",
    "C10_number_injective_per_kind",
    "C10_number_across_kinds_refuted"
   ],
   "note": ""
  },
  {
   "property": "C11",
   "status": "proved",
   "theorems": [
    "C11_read_back",
    "C11_crash",
    "C11_connection",
    "C11_harmless",
    "C11_frames_fit",
    "C11_overflow",
    "C11_short_write_refuted"
   ],
   "note": "For complete writes to the file, and for a file cut at any place (a crash). A short write of the operating system, which the code ignores (write instead of write_all), corrupts the file: C11_short_write_refuted."
  },
  {
   "property": "C12",
   "status": "proved",
   "theorems": [
    "C12_read_back"
   ],
   "note": ""
  },
  {
   "property": "C13",
   "status": "proved",
   "theorems": [
    "C13_independent"
   ],
   "note": ""
  },
  {
   "property": "C14",
   "status": "proved",
   "theorems": [
    "C14_refused_unchanged"
   ],
   "note": ""
  },
  {
   "property": "C15",
   "status": "proved",
   "theorems": [
    "C15_accepted_iff",
    "C15_else_refused",
    "C15_address_mode_1_panics",
    "C15_table_known",
    "C15_mode_range"
   ],
   "note": ""
  },
  {
   "property": "C16",
   "status": "proved",
   "theorems": [
    "C16_gate",
    "C16_reset_opens",
    "C16_reset_served"
   ],
   "note": ""
  },
  {
   "property": "C17",
   "status": "proved",
   "theorems": [
    "C17_one_answer",
    "C17_no_answer"
   ],
   "note": ""
  },
  {
   "property": "C18",
   "status": "proved",
   "theorems": [
    "C18_unassigned_group",
    "C18_empty_group",
    "C18_ignored"
   ],
   "note": ""
  },
  {
   "property": "C19",
   "status": "proved",
   "theorems": [
    "C19_reset",
    "C19_timers"
   ],
   "note": ""
  },
  {
   "property": "C20",
   "status": "partial",
   "theorems": [
    "C20_set_config",
    "C20_get_config",
    "C20_low_power_read_back",
    "C20_device_state_refuted",
    "C20_device_state_always_error"
   ],
   "note": "Proved for every parameter except the value read for DEVICE_STATE, which is refuted: the value read is always 0xFF, not the state of the device (device.rs:199, 331-340)."
  },
  {
   "property": "C21",
   "status": "proved",
   "theorems": [
    "C21_limit",
    "C21_refused",
    "C21_accepted",
    "C21_count"
   ],
   "note": ""
  },
  {
   "property": "C22",
   "status": "partial",
   "theorems": [
    "C22_refuted",
    "C22_partial"
   ],
   "note": "Refuted: the duplicate INIT is answered correctly but destroys the existing session (device.rs:362-366). Proved: the answer, and that nothing else is disturbed."
  },
  {
   "property": "C23",
   "status": "proved",
   "theorems": [
    "C23_step",
    "C23_history"
   ],
   "note": ""
  },
  {
   "property": "C24",
   "status": "partial",
   "theorems": [
    "C24_set_app_config_partial",
    "C24_answer",
    "C24_read_back",
    "C24_others_unchanged",
    "C24_list_refuted"
   ],
   "note": "All or nothing is proved in full. The list of refused parameters is exact except when a mandatory parameter is also missing: then the answer is REJECTED with an empty list (device.rs:472-481), C24_list_refuted."
  },
  {
   "property": "C25",
   "status": "proved",
   "theorems": [
    "C25_configured"
   ],
   "note": ""
  },
  {
   "property": "C26",
   "status": "proved",
   "theorems": [
    "C26_start",
    "C26_stop"
   ],
   "note": ""
  },
  {
   "property": "C27",
   "status": "partial",
   "theorems": [
    "C27_active",
    "C27_device_state_partial",
    "C27_notified",
    "C27_refuted"
   ],
   "note": "Refuted after a duplicate SESSION_INIT of an active session or an emptied multicast list: the device remains ACTIVE. Proved for histories without these, and the other direction always."
  },
  {
   "property": "C28",
   "status": "partial",
   "theorems": [
    "C28_at_most_one",
    "C28_exactly_active_partial",
    "C28_refuted"
   ],
   "note": "Refuted when the multicast list of an active session is emptied: it becomes IDLE with its timer running. Proved for histories without that; always: at most one timer, and one for each active session."
  },
  {
   "property": "C29",
   "status": "proved",
   "theorems": [
    "C29_deinit"
   ],
   "note": ""
  },
  {
   "property": "C30",
   "status": "proved",
   "theorems": [
    "C30_read_only",
    "C30_get_app_config",
    "C30_get_state"
   ],
   "note": ""
  },
  {
   "property": "C31",
   "status": "proved",
   "theorems": [
    "C31_add",
    "C31_add_appends",
    "C31_remove",
    "C31_remove_filters"
   ],
   "note": ""
  },
  {
   "property": "C32",
   "status": "partial",
   "theorems": [
    "C32_partial",
    "C32_refuted"
   ],
   "note": "Refuted: SET_APP_CONFIG accepts up to 255 controlees, and adding tests length == 8 (device.rs:640), so that a longer list grows further. Proved for histories in which no SET_APP_CONFIG sets NUMBER_OF_CONTROLEES above 8."
  },
  {
   "property": "C33",
   "status": "proved",
   "theorems": [
    "C33_refused",
    "C33_keys"
   ],
   "note": ""
  },
  {
   "property": "C34",
   "status": "partial",
   "theorems": [
    "C34_partial",
    "C34_refuted"
   ],
   "note": "Refuted: the ranging timer is not stopped, the device remains ACTIVE and the next SESSION_START panics. Proved: the session becomes IDLE and its host is notified with the reason."
  },
  {
   "property": "C35",
   "status": "proved",
   "theorems": [
    "C35_handles",
    "C35_consecutive",
    "C35_present"
   ],
   "note": ""
  },
  {
   "property": "C36",
   "status": "partial",
   "theorems": [
    "C36_create",
    "C36_destroy",
    "C36_unique_partial",
    "C36_refuted",
    "C36_refuted_devices"
   ],
   "note": "Refuted: the address of a new device is derived from its handle and not checked against the anchors, and repeats after 65536 handles (lib.rs:357). Proved: anchors are checked on creation; below 65536 handles two devices differ and a collision is only between an anchor and a device connected later; create and destroy behave as stated."
  },
  {
   "property": "C37",
   "status": "proved",
   "theorems": [
    "C37_balanced",
    "C37_repeated"
   ],
   "note": ""
  },
  {
   "property": "C38",
   "status": "proved",
   "theorems": [
    "C38_packet",
    "C38_ranging",
    "C38_environment"
   ],
   "note": ""
  },
  {
   "property": "C39",
   "status": "proved",
   "theorems": [
    "C39_delivered",
    "C39_measurements",
    "C39_measured_once"
   ],
   "note": ""
  },
  {
   "property": "C40",
   "status": "proved",
   "theorems": [
    "C40_symmetric",
    "C40_rounds"
   ],
   "note": ""
  },
  {
   "property": "C41",
   "status": "proved",
   "theorems": [
    "C41_sequence",
    "C41_count",
    "C41_history",
    "C41_only_rounds"
   ],
   "note": ""
  },
  {
   "property": "C42",
   "status": "proved",
   "theorems": [
    "C42_disabled",
    "C42_enabled"
   ],
   "note": ""
  },
  {
   "property": "C43",
   "status": "proved",
   "theorems": [
    "C43_delivered",
    "C43_receivers",
    "C43_history",
    "C43_only_rounds"
   ],
   "note": ""
  },
  {
   "property": "C44",
   "status": "partial",
   "theorems": [
    "C44_partial",
    "C44_refuted"
   ],
   "note": "Refuted: the destination address of a data message is ignored; every ACTIVE in-band responder session with the same id receives it (lib.rs:525-560). Proved: only those receive it, in a round of an ACTIVE in-band initiator."
  },
  {
   "property": "C45",
   "status": "proved",
   "theorems": [
    "C45_attempts",
    "C45_in_band_stop",
    "C45_repeated",
    "C45_device_ready"
   ],
   "note": ""
  },
  {
   "property": "C46",
   "status": "partial",
   "theorems": [
    "C46_exact_partial",
    "C46_not_connected_partial",
    "C46_well_behaved_partial",
    "C46_refuted"
   ],
   "note": "The property is false of the code (C46_refuted: an empty packet, or GET_DEVICE_INFO while ranging, stops the event loop and with it every connected host). C46_exact_partial gives the exact set of fatal packets in every reachable state; C46_well_behaved_partial derives a discipline under which a host is safe."
  },
  {
   "property": "C47",
   "status": "partial",
   "theorems": [
    "C47_refuted",
    "C47_exact_partial",
    "C47_orderly_partial"
   ],
   "note": "The property is false of the code (C47_refuted: a ranging request queued behind the end of its session stops the event loop, with well-behaved hosts only). C47_exact_partial: the exact commands that stop the loop in a reachable state; C47_orderly_partial: no crash along schedules in which rounds are requested only for existing sessions and hosts that keep to the discipline of C46."
  },
  {
   "property": "C48",
   "status": "partial",
   "theorems": [
    "C48_refuted",
    "C48_partial",
    "C48_idle_partial"
   ],
   "note": "The property is false of the code (C48_refuted: a ranging request queued behind the stop produces one more notification). C48_partial bounds the number of notifications after the stop by what was queued or waiting; C48_idle_partial: none if nothing was."
  },
  {
   "property": "C49",
   "status": "partial",
   "theorems": [
    "C49_scene_partial",
    "C49_get_state",
    "C49_position",
    "C49_refuted"
   ],
   "note": "Exact for the histories where clients wait for their answers and do not send two requests about one anchor at once, and where no thread panicked (C52); C49_refuted gives the two races that break it: a destroy-anchor between the answer and the recording of a create-anchor leaves a stale entry, and an abandoned create-anchor leaves an anchor out of the scene."
  },
  {
   "property": "C50",
   "status": "partial",
   "theorems": [
    "C50_create_route",
    "C50_destroy_route",
    "C50_routes",
    "C50_create",
    "C50_destroy",
    "C50_response_partial",
    "C50_once",
    "C50_response",
    "C50_answered_partial",
    "C50_refuted"
   ],
   "note": "Routes, decisions of the environment, responses, at most one response. C50_response: a decision is answered when it is a refusal, or when there is a subscriber to the events and no thread panicked. C50_refuted: without a subscriber the anchor is created and there is no response."
  },
  {
   "property": "C51",
   "status": "partial",
   "theorems": [
    "C51_route",
    "C51_known_partial",
    "C51_unknown",
    "C51_ambiguous_refuted"
   ],
   "note": "Known address: needs a subscriber (C52) and symmetric distances (C53). C51_ambiguous_refuted: an anchor and a device may share an address, and which one moves depends on the order of the map. Neighbours with the same address as the moved device are not announced."
  },
  {
   "property": "C52",
   "status": "partial",
   "theorems": [
    "C52_listened_partial",
    "C52_fatal",
    "C52_refuted",
    "C52_first_connection_refuted",
    "C52_burst_refuted"
   ],
   "note": "Refuted: without a subscriber the first connection ends the process, a successful anchor request poisons the lock; 17 connections before the task runs end it too. C52_listened_partial: none of this happens with a subscriber and events read in time."
  },
  {
   "property": "C53",
   "status": "proved",
   "theorems": [
    "C53_symmetric",
    "C53_server"
   ],
   "note": "For all binary32 coordinates, NaN included. C53_server discharges the hypothesis of C51 and C52 about distances. Rests on the axioms of the standard library reals."
  },
  {
   "property": "C54",
   "status": "partial",
   "theorems": [
    "C54_accurate_partial",
    "C54_exact",
    "C54_refuted"
   ],
   "note": "Refuted as stated by C54_refuted: a range can be 1.0015 cm short. Proved: within 1 + 1/64 cm, saturation, and the exact truncated distance under 40.96 m. Rests on the axioms of the standard library reals."
  },
  {
   "property": "C55",
   "status": "proved",
   "theorems": [
    "C55_total"
   ],
   "note": "sin, cos and atan are parameters: the theorem asks that they be bounded by 1, 1 and FRAC_PI_2, and that atan keep the sign. Rests on the axioms of the standard library reals."
  },
  {
   "property": "C56",
   "status": "partial",
   "theorems": [
    "C56_estimate_partial",
    "C56_poisoned_refuted"
   ],
   "note": "Exact unless the lock is poisoned (C52), then no measurement is made (C56_poisoned_refuted)."
  },
  {
   "property": "C57",
   "status": "partial",
   "theorems": [
    "C57_refuted",
    "C57_before_reset_partial"
   ],
   "note": "The property is false of the code (C57_refuted: after the reset every malformed or unknown command of a known group stops the event loop). C57_before_reset_partial: before the reset such packets are answered with DEVICE_STATUS_NTF(ERROR)."
  },
  {
   "property": "C58",
   "status": "partial",
   "theorems": [
    "C58_refuted",
    "C58_partial"
   ],
   "note": "The property is false of the code (C58_refuted: when the event loop is delayed by more than the delay of the notification task, the notification precedes the response). C58_partial: it holds when time does not pass between the command and its response."
  },
  {
   "property": "C59",
   "status": "proved",
   "theorems": [
    "C59_messages",
    "C59_order"
   ],
   "note": ""
  },
  {
   "property": "C60",
   "status": "proved",
   "theorems": [
    "C60_packets",
    "C60_connected",
    "C60_before_disconnect"
   ],
   "note": ""
  },
  {
   "property": "C61",
   "status": "proved",
   "theorems": [
    "C61_one_task",
    "C61_between_commands"
   ],
   "note": ""
  },
  {
   "property": "C62",
   "status": "proved",
   "theorems": [
    "C62_from_start",
    "C62_due",
    "C62_reconfigured",
    "C62_cadence"
   ],
   "note": ""
  },
  {
   "property": "C63",
   "status": "proved",
   "theorems": [
    "C63_drains",
    "C63_notifies"
   ],
   "note": ""
  },
  {
   "property": "C64",
   "status": "proved",
   "theorems": [
    "C64_answers",
    "C64_at_rest"
   ],
   "note": ""
  },
  {
   "property": "C65",
   "status": "partial",
   "theorems": [
    "C65_refuted",
    "C65_fifo_partial"
   ],
   "note": "The property is false of the code (C65_refuted: notifications whose delays have expired may be sent in any order). C65_fifo_partial: it holds when the runtime sends them by deadline and then by creation."
  },
  {
   "property": "C66",
   "status": "partial",
   "theorems": [
    "C66_served",
    "C66_open",
    "C66_gone",
    "C66_ended",
    "C66_disconnect_once",
    "C66_panic_refuted"
   ],
   "note": "Proved for every schedule without a panic in a connection task. If the capture file cannot be created the task panics and the device remains (C66_panic_refuted)."
  },
  {
   "property": "C67",
   "status": "partial",
   "theorems": [
    "C67_messages_partial",
    "C67_execution_partial",
    "C67_multicast_generic",
    "C67_multicast_refuted"
   ],
   "note": "Refuted for the responses to multicast list updates (C67_multicast_refuted, C67_multicast_generic: the class of the library is out of date and they are shown as generic packets); proved for all other messages, and in every execution with packets of known message types."
  },
  {
   "property": "C68",
   "status": "proved",
   "theorems": [
    "C68_commands",
    "C68_too_long",
    "C68_controlees"
   ],
   "note": "Up to 255 bytes of arguments; C68_too_long for the others: the library cannot segment commands, the exception is proved to be raised for all of them."
  },
  {
   "property": "C69",
   "status": "partial",
   "theorems": [
    "C69_packets",
    "C69_pending",
    "C69_delivered_partial",
    "C69_long_file_stops",
    "C69_refuted"
   ],
   "note": "C69_packets and C69_pending hold for every file. The delivery (C69_delivered_partial) is refuted beyond 65535 pending bytes: the round stops the simulator (C69_refuted, C69_long_file_stops)."
  },
  {
   "property": "C70",
   "status": "proved",
   "theorems": [
    "C70_coordinates",
    "C70_angles"
   ],
   "note": "to_euler (glam) is a parameter: the bounds of the angles ask that it return angles within PI, PI/2 and PI. Rests on the axioms of the standard library reals."
  },
  {
   "property": "C71",
   "status": "partial",
   "theorems": [
    "C71_page_partial",
    "C71_refuted",
    "C71_stream_partial",
    "C71_reconnect_refuted"
   ],
   "note": "Proved (C71_page_partial) when the answer with the state reaches the page at the same place among the events at which the server gave it and addresses are distinct; refuted otherwise (C71_refuted: shown twice, not shown, or removed with the anchor of the same address). C71_stream_partial: the same from the bytes of one response. C71_reconnect_refuted: after a reconnection events are missing."
  },
  {
   "property": "C72",
   "status": "partial",
   "theorems": [
    "C72_accurate",
    "C72_moved_partial",
    "C72_refuted"
   ],
   "note": "Accuracy is proved under the conditions of C71; the list is complete between two devices once one of them has been moved (C72_moved_partial), and refuted before (C72_refuted)."
  },
  {
   "property": "C73",
   "status": "partial",
   "theorems": [
    "C73_board",
    "C73_accepted_partial",
    "C73_refuted"
   ],
   "note": "The board and the sign of the elevation are proved; the elevation has no upper bound, so that the server can refuse the position (C73_refuted)."
  },
  {
   "property": "C74",
   "status": "proved",
   "theorems": [
    "C74_any_pieces",
    "C74_messages",
    "C74_execution"
   ],
   "note": ""
  },
  {
   "property": "C75",
   "status": "partial",
   "theorems": [
    "C75_refuted",
    "C75_queued_partial"
   ],
   "note": "False of the code: at the end of the stream read() returns no bytes and the reader loops for ever without suspending (C75_refuted); that everything received was queued is proved."
  },
  {
   "property": "C76",
   "status": "proved",
   "theorems": [
    "C76_order",
    "C76_lockstep",
    "C76_complete"
   ],
   "note": ""
  },
  {
   "property": "C77",
   "status": "proved",
   "theorems": [
    "C77_answer_first",
    "C77_connect",
    "C77_reset",
    "C77_init",
    "C77_configure",
    "C77_start",
    "C77_stop",
    "C77_deinit",
    "C77_set_up",
    "C77_start_up"
   ],
   "note": ""
  },
  {
   "property": "C78",
   "status": "proved",
   "theorems": [
    "C78_stream",
    "C78_cut",
    "C78_faithful",
    "C78_unambiguous",
    "C78_state"
   ],
   "note": ""
  },
  {
   "property": "C79",
   "status": "partial",
   "theorems": [
    "C79_json",
    "C79_body",
    "C79_page",
    "C79_cut_refuted",
    "C79_empty"
   ],
   "note": "Acceptance of JSON bodies is characterised exactly (C79_json), and every body in UTF-8 that is not refused is a position or incomplete (C79_body); that a cut body is refused is false: it moves the device to the origin (C79_cut_refuted). Bodies that are not UTF-8 are outside C79_body."
  },
  {
   "property": "C80",
   "status": "proved",
   "theorems": [
    "C80_in_order",
    "C80_goes_on",
    "C80_catches_up",
    "C80_lagged",
    "C80_over",
    "C80_independent",
    "C80_listeners"
   ],
   "note": ""
  },
  {
   "property": "C81",
   "status": "proved",
   "theorems": [
    "C81_direction",
    "C81_unrotated",
    "C81_whole_degrees"
   ],
   "note": "sin, cos and atan are parameters, asked to be accurate to 2^-21 (C81_functions: such functions exist). Rests on the axioms of the standard library reals."
  },
  {
   "property": "C82",
   "status": "partial",
   "theorems": [
    "C82_sound",
    "C82_measurements_partial",
    "C82_refuted"
   ],
   "note": "Refuted without conditions (C82_refuted: an anchor whose client gave up its request exists and is never measured). Soundness (C82_sound) holds in every history. That every anchor and peer is measured (C82_measurements_partial) needs the conditions of C49 (clients wait for their answers and do not send two requests about one anchor at once, no thread panicked) and the events of the environment to have been handled. Rests on the axioms of the standard library reals."
  },
  {
   "property": "C83",
   "status": "partial",
   "theorems": [
    "C83_never_raises_partial",
    "C83_finished_partial",
    "C83_never_stuck_partial",
    "C83_refuted"
   ],
   "note": "Proved for all schedules in which no notification is sent before the response of the command that caused it (_partial theorems). Without this the notification, sent by a task of its own, can overtake the response when the event loop is delayed, and the program fails: C83_refuted (the TODO(#84) of device.rs). Time-outs of the programs are not modelled."
  },
  {
   "property": "C84",
   "status": "partial",
   "theorems": [
    "C84_never_raises_partial",
    "C84_finished_partial",
    "C84_never_stuck_partial",
    "C84_refuted"
   ],
   "note": "Proved for all schedules in which time passes only when everything concerning the host has been done (the machine keeps up), and no in-band stop command is processed for the session (_partial theorems); the period must be longer than the 5 ms after which the device notifies its state. C84_refuted: without this a round may come between the last notification waited for and the processing of the stop command, and the program fails even if every notification follows the response of its command."
  },
  {
   "property": "C85",
   "status": "partial",
   "theorems": [
    "C85_default_partial",
    "C85_sender_partial",
    "C85_receiver_partial",
    "C85_received_partial",
    "C85_never_stuck_partial",
    "C85_refuted"
   ],
   "note": "The sending program is proved for any activity of the other hosts. The receiving one is proved when the two sessions become ACTIVE before the end of the first round of the other (joins), the estimator can measure the two devices, no third device sends data in a session with the same identifier, and the connection of the sender stays open; as in C84 the machine keeps up. C85_refuted: without joins the file is lost, since a session forgets its data in the first round even if nobody receives them, and the program fails on an empty data message."
  },
  {
   "property": "C86",
   "status": "proved",
   "theorems": [
    "C86_measurements"
   ],
   "note": "The comment above MockRangingEstimator says that it cannot produce any result; the code produces valid measurements of distance 0, and that is what the theorem states."
  },
  {
   "property": "C87",
   "status": "proved",
   "theorems": [
    "C87_answered",
    "C87_delivered",
    "C87_removed",
    "C87_fair"
   ],
   "note": ""
  },
  {
   "property": "C88",
   "status": "partial",
   "theorems": [
    "C88_statuses_partial",
    "C88_documented",
    "C88_files",
    "C88_unknown",
    "C88_refused",
    "C88_refuted",
    "C88_method",
    "C88_method_refuted"
   ],
   "note": "C88_documented: the statuses of create-anchor, get-state and events are as documented; C88_statuses_partial gives the exact exceptions of the other operations; C88_unknown, C88_refused. Refuted by the code: 406 for a malformed address or body and 404 to initialise an unknown device are not documented, 403 never occurs since a device may be initialised again, set-position without its required body moves the device to the origin (C88_refuted), and the method is ignored, so that a GET destroys an anchor (C88_method, C88_method_refuted)."
  },
  {
   "property": "C89",
   "status": "partial",
   "theorems": [
    "C89_constant",
    "C89_supported_partial",
    "C89_extended_refuted",
    "C89_undeclared_refuted"
   ],
   "note": "C89_constant: the constant answers. C89_supported_partial: adding a declared value of a parameter to an accepted list of parameters is accepted, and reads back. Refuted by the code: extended addresses are declared and accepted, but the first round of two devices that use them stops the program (C89_extended_refuted); hopping is declared as not supported and is accepted (C89_undeclared_refuted)."
  },
  {
   "property": "C90",
   "status": "partial",
   "theorems": [
    "C90_sent_partial",
    "C90_misnamed_refuted",
    "C90_ends",
    "C90_read",
    "C90_truncated_refuted",
    "C90_useless_refuted"
   ],
   "note": "C90_sent_partial: every command but six is sent as meant, and C90_read: the device reads exactly the packets written. C90_ends: exactly when a command ends the console. Refuted by the code: six commands, the reset among them, name classes or members which the library does not define and end the console (C90_misnamed_refuted); a number over 32 bits is truncated and names another session (C90_truncated_refuted); without a reset no device served by the console alone accepts anything, in any history (C90_useless_refuted). The typed line is C94."
  },
  {
   "property": "C91",
   "status": "proved",
   "theorems": [
    "C91_place",
    "C91_destroy",
    "C91_state"
   ],
   "note": ""
  },
  {
   "property": "C92",
   "status": "partial",
   "theorems": [
    "C92_view",
    "C92_alone",
    "C92_quiet",
    "C92_request_partial",
    "C92_release",
    "C92_refuted"
   ],
   "note": "C92_view, C92_alone, C92_quiet hold in every history. C92_request_partial, C92_release: from the press on a marker, as long as nothing else than its handle is pressed, the device is not removed and the state is not loaded, every request is about this device as it is shown. C92_refuted, for the other cases: a device which is removed while it is dragged is asked for although it is not shown; after the state is loaded during a drag, what is asked for is not what is shown; if the empty board is pressed during a drag, what is shown is not asked for."
  },
  {
   "property": "C93",
   "status": "partial",
   "theorems": [
    "C93_drag",
    "C93_lift",
    "C93_turn",
    "C93_readable_partial",
    "C93_readable_refuted",
    "C93_served"
   ],
   "note": "C93_drag, C93_lift, C93_turn, C93_served in full. C93_readable_partial: the server can read every request for an elevation up to 32767; C93_readable_refuted: nothing bounds the elevation (as C73)."
  },
  {
   "property": "C94",
   "status": "partial",
   "theorems": [
    "C94_typed",
    "C94_sent_partial",
    "C94_undefined",
    "C94_quit",
    "C94_ends",
    "C94_ignored_refuted",
    "C94_misspelled_refuted"
   ],
   "note": "C94_typed, C94_undefined, C94_quit in full; C94_sent_partial composes with C90 (six commands send nothing). C94_ends: lines which end the console. Refuted by the code: a word which names no parameter is ignored by every command but data_transfer (C94_ignored_refuted), so range_stop sessionid=7 stops session 0 (C94_misspelled_refuted). Missing: lines with characters outside ASCII."
  },
  {
   "property": "C95",
   "status": "proved",
   "theorems": [
    "C95_read",
    "C95_answered",
    "C95_one_value"
   ],
   "note": ""
  },
  {
   "property": "C96",
   "status": "proved",
   "theorems": [
    "C96_marker",
    "C96_arrow",
    "C96_mouse",
    "C96_axes",
    "C96_pointer",
    "C96_one_direction",
    "C96_yaw_arc",
    "C96_pitch_arc",
    "C96_measured"
   ],
   "note": ""
  },
  {
   "property": "C97",
   "status": "partial",
   "theorems": [
    "C97_event_refuted",
    "C97_state_refuted",
    "C97_event_partial",
    "C97_state_partial",
    "C97_bounds",
    "C97_body_partial",
    "C97_body_refuted"
   ],
   "note": "Refuted by the code: no event and no state is valid as documented (C97_event_refuted, C97_state_refuted: capitals in the categories, the state is not a list), and bodies that are valid are refused and conversely (C97_body_refuted). Proved: every event and state has all properties, with types and bounds, of the schemas corrected in three points (C97_event_partial, C97_state_partial, with C97_bounds for the numbers), and a documented body with all properties and 16 bit coordinates is accepted as it says (C97_body_partial)."
  },
  {
   "property": "C98",
   "status": "proved",
   "theorems": [
    "C98_isolated",
    "C98_next",
    "C98_data",
    "C98_schedule"
   ],
   "note": ""
  },
  {
   "property": "C99",
   "status": "proved",
   "theorems": [
    "C99_read",
    "C99_exists"
   ],
   "note": ""
  },
  {
   "property": "C100",
   "status": "proved",
   "theorems": [
    "C100_round",
    "C100_notified"
   ],
   "note": ""
  },
  {
   "property": "C101",
   "status": "proved",
   "theorems": [
    "C101_answers",
    "C101_unknown",
    "C101_determined"
   ],
   "note": ""
  },
  {
   "property": "C102",
   "status": "proved",
   "theorems": [
    "C102_read"
   ],
   "note": ""
  },
  {
   "property": "C103",
   "status": "proved",
   "theorems": [
    "C103_again",
    "C103_unbounded"
   ],
   "note": ""
  }
 ]
}