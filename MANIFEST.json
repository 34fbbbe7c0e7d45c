{
 "claims": [
  {
   "property": "C01",
   "status": "proved",
   "theorems": [
    "C01_command_roundtrip"
   ],
   "note": "Every well-formed command, debug and release build, any following bytes."
  },
  {
   "property": "C02",
   "status": "proved",
   "theorems": [
    "C02_reader_exact",
    "C02_unambiguous"
   ],
   "note": "Exact characterisation against the separately written layout cmd_layout; messages are self-delimiting."
  },
  {
   "property": "C03",
   "status": "proved",
   "theorems": [
    "C03_truncated_never_executed"
   ],
   "note": "Every proper prefix (including the empty one) of every valid message, for EOF and for a socket error."
  },
  {
   "property": "C04",
   "status": "proved",
   "theorems": [
    "C04_rejection_exact"
   ],
   "note": "Exact (iff) for both rejections, and for the error kind."
  },
  {
   "property": "C05",
   "status": "proved",
   "theorems": [
    "C05_segmentation_independent",
    "C05_sessions"
   ],
   "note": "One message and whole sessions."
  },
  {
   "property": "C06",
   "status": "proved",
   "theorems": [
    "C06_header_roundtrip",
    "C06_header_roundtrip_bytes"
   ],
   "note": "Both directions of the roundtrip; a debug build panics exactly for directions other than 0 and 1."
  },
  {
   "property": "C07",
   "status": "proved",
   "theorems": [
    "C07_ret_submit_layout",
    "C07_ret_unlink_layout",
    "C07_import_layout",
    "C07_import_any_status",
    "C07_constructors",
    "C07_encoding_total"
   ],
   "note": "Byte offsets of every reply; encoding is total in release and in debug exactly when reply_ok."
  },
  {
   "property": "C08",
   "status": "proved",
   "theorems": [
    "C08_devlist_decodable",
    "C08_devlist_encodable"
   ],
   "note": "Within the documented limits of the format; decoder written from the protocol document."
  },
  {
   "property": "C09",
   "status": "partial",
   "theorems": [
    "C09_devlist_unlimited_refuted",
    "C09_devlist_partial"
   ],
   "note": "Refuted: the one-byte interface count wraps at 256, and no decoder at all exists. Partial: a list is decodable exactly when every device in it has at most 255 interfaces."
  },
  {
   "property": "C10",
   "status": "proved",
   "theorems": [
    "C10_setup_little_endian"
   ],
   "note": "All 8-byte setup packets."
  },
  {
   "property": "C11",
   "status": "proved",
   "theorems": [
    "C11_pipelining"
   ],
   "note": "Any number of commands, plus determinism of the session."
  },
  {
   "property": "C12",
   "status": "partial",
   "theorems": [
    "C12_alloc_bounded_refuted",
    "C12_alloc_bounded_partial"
   ],
   "note": "Refuted: 48 bytes reserve 64 GiB. Partial: exactly which buffers are reserved and after how many bytes."
  },
  {
   "property": "C13",
   "status": "proved",
   "theorems": [
    "C13_one_reply_per_command"
   ],
   "note": "Any sequence of messages, with the state the connection is in; one reply each, in order, header echoed."
  },
  {
   "property": "C14",
   "status": "proved",
   "theorems": [
    "C14_unlink_acknowledged",
    "C14_earlier_answered_first"
   ],
   "note": "Every RET_UNLINK has status 0, whatever was unlinked; the reply of an earlier submit precedes it."
  },
  {
   "property": "C15",
   "status": "proved",
   "theorems": [
    "C15_submit_needs_import"
   ],
   "note": "A submit before an import panics the task: no reply, nothing else changed."
  },
  {
   "property": "C16",
   "status": "proved",
   "theorems": [
    "C16_unknown_endpoint_refused"
   ],
   "note": "RET_SUBMIT with status 1, world unchanged."
  },
  {
   "property": "C17",
   "status": "proved",
   "theorems": [
    "C17_handler_error_is_failure"
   ],
   "note": "Any handler error gives status 1 and zero length."
  },
  {
   "property": "C18",
   "status": "proved",
   "theorems": [
    "C18_handler_data_unmodified"
   ],
   "note": "All handlers, all transfer kinds; the bytes and the length are exactly those returned."
  },
  {
   "property": "C19",
   "status": "partial",
   "theorems": [
    "C19_out_without_payload_refuted",
    "C19_set_configuration_payload",
    "C19_out_without_payload_partial",
    "C19_payload_partial"
   ],
   "note": "Refuted: SET_CONFIGURATION with wLength >= 1, on every device (C19_set_configuration_payload), and handlers that return data (see C81). Partial: quiet handlers, all other requests. C19_payload_partial: for all handlers, exactly which replies carry a payload: those to submits that bring something (`brings` in SpecSize.v); a debug build aborts the connection instead."
  },
  {
   "property": "C20",
   "status": "partial",
   "theorems": [
    "C20_reply_fits_buffer_refuted",
    "C20_reply_fits_buffer_partial",
    "C20_descriptor_ignores_buffer",
    "C20_keyboard_ignores_lengths",
    "C20_reply_size_partial"
   ],
   "note": "Refuted: CDC bulk IN ignores the buffer length; so do descriptor replies (cut to wLength only) and the report descriptor of the keyboard (not cut at all). Partial: handlers that honour the limit, descriptors below 64 KiB, wLength within the buffer. C20_reply_size_partial: for all handlers, exactly how large every reply is (`brings` in SpecSize.v), so it exceeds the buffer exactly when the descriptor, cut to wLength, or the data of the handler does."
  },
  {
   "property": "C21",
   "status": "proved",
   "theorems": [
    "C21_how_a_connection_ends"
   ],
   "note": "Exact list of endings and the bytes written in each."
  },
  {
   "property": "C22",
   "status": "proved",
   "theorems": [
    "C22_reaches_addressed_handler"
   ],
   "note": "Exactly one handler call, with exactly the request; frame for every other handler."
  },
  {
   "property": "C23",
   "status": "partial",
   "theorems": [
    "C23_no_aliasing_refuted",
    "C23_no_aliasing_partial",
    "C23_same_endpoint_partial"
   ],
   "note": "Refuted: endpoint 257 aliases endpoint 1. Partial: below 128 with direction 0 or 1, the one handler a submit can reach is called with the endpoint of exactly that number and direction."
  },
  {
   "property": "C24",
   "status": "proved",
   "theorems": [
    "C24_exclusive",
    "C24_submits_use_held_device"
   ],
   "note": "Any number of connections and API calls, any schedule; \"held\" is defined from the history of replies only. URBs of a connection are executed on the device it holds."
  },
  {
   "property": "C25",
   "status": "proved",
   "theorems": [
    "C25_conserved"
   ],
   "note": "Available plus in-use devices are a permutation of the ledger (initial + added - removed), ids without duplicates, after any schedule."
  },
  {
   "property": "C26",
   "status": "partial",
   "theorems": [
    "C26_release_partial",
    "C26_completes_partial",
    "C26_released_refuted"
   ],
   "note": "Refuted: a disconnect can deadlock with remove_device and then the device is never released. Partial: it never fails in any other way; the release is one step that restores the device, which can be imported again; it happens whenever the system comes to rest with no writer and no such remove_device call."
  },
  {
   "property": "C27",
   "status": "partial",
   "theorems": [
    "C27_leak_permanent",
    "C27_ends_partial",
    "C27_reimport_leaks_partial",
    "C27_always_released_refuted"
   ],
   "note": "Refuted: a write error, a panic, or importing another device leaves the device in the in-use table for ever (proved permanent). Partial: exact classification of every way a connection can end; only failed reads release."
  },
  {
   "property": "C28",
   "status": "partial",
   "theorems": [
    "C28_on_the_wire_partial",
    "C28_failed_import_partial",
    "C28_unchanged_refuted"
   ],
   "note": "Refuted: the connection loses its own device. Partial: the reply, the server, the handlers and the other connections are as stated, and the connection is left without a device (in the concurrent server and on the wire)."
  },
  {
   "property": "C29",
   "status": "proved",
   "theorems": [
    "C29_list_is_available",
    "C29_list_decodable",
    "C29_listed_iff_importable"
   ],
   "note": "The list is determined by the history (inductive specification \"listed\"), is decodable by a client, and consists exactly of the importable devices."
  },
  {
   "property": "C30",
   "status": "proved",
   "theorems": [
    "C30_remove_device"
   ],
   "note": "Holds without assumptions on bus ids; the answer describes the state of the step at which the call takes effect, also when it waited between its two lookups."
  },
  {
   "property": "C31",
   "status": "proved",
   "theorems": [
    "C31_add_device",
    "C31_add_completes"
   ],
   "note": "Holds without assumptions on bus ids."
  },
  {
   "property": "C32",
   "status": "partial",
   "theorems": [
    "C32_shared_ids_partial",
    "C32_clash_loses_a_device",
    "C32_distinct_ids_never_clash",
    "C32_duplicates_refuted",
    "C32_new_devices_share_id"
   ],
   "note": "Refuted by a two-client run with two devices of the same id (every device made by UsbDevice::new has the same id). Partial: in every run in which no device is handed out while another of its id is out, exclusivity, conservation and panic-free release hold; handing one out then loses the device already out, on the spot; with distinct ids it never happens. Missing: the claim for runs with such a clash, where it is false."
  },
  {
   "property": "C33",
   "status": "proved",
   "theorems": [
    "C33_selection",
    "C33_unambiguous",
    "C33_selectable"
   ],
   "note": "Selection by the field up to the first NUL; fields name at most one id; selectable iff at most 32 bytes and no NUL."
  },
  {
   "property": "C34",
   "status": "partial",
   "theorems": [
    "C34_deadlock_free_refuted",
    "C34_only_deadlock_partial"
   ],
   "note": "Refuted by two schedules; the deadlock is permanent and stops every later operation. Partial: the cycle through remove_device is the only one."
  },
  {
   "property": "C35",
   "status": "proved",
   "theorems": [
    "C35_progress",
    "C35_completes"
   ],
   "note": "Termination measure for internal steps plus an analysis of stuck states."
  },
  {
   "property": "C36",
   "status": "partial",
   "theorems": [
    "C36_stall",
    "C36_slow_client_refuted",
    "C36_readers_partial"
   ],
   "note": "Refuted: one client that does not read its reply blocks everybody once an import is requested. Partial: submits and unlinks are still served while no import or release is requested."
  },
  {
   "property": "C37",
   "status": "proved",
   "theorems": [
    "C37_no_locks",
    "C37_others_unaffected"
   ],
   "note": "For every kind of end, including panics."
  },
  {
   "property": "C38",
   "status": "proved",
   "theorems": [
    "C38_atomic",
    "C38_real_time",
    "C38_executions"
   ],
   "note": "Every execution corresponds to a sequential execution of the same operations in the order of their effect points, which lie between request and completion."
  },
  {
   "property": "C39",
   "status": "proved",
   "theorems": [
    "C39_device_descriptor"
   ],
   "note": "All devices and all wLength."
  },
  {
   "property": "C40",
   "status": "proved",
   "theorems": [
    "C40_configuration_descriptor"
   ],
   "note": "A host parser written from USB 2.0 ch. 9 recovers exactly the configured tree; uniqueness of the reading."
  },
  {
   "property": "C41",
   "status": "proved",
   "theorems": [
    "C41_string_descriptor",
    "C41_language_table"
   ],
   "note": "All strings up to 126 UTF-16 units, plus the missing-index error."
  },
  {
   "property": "C42",
   "status": "partial",
   "theorems": [
    "C42_long_strings_refuted",
    "C42_long_strings_wrong",
    "C42_long_strings_partial"
   ],
   "note": "Refuted: strings of 127 units or more get a wrong bLength, or (debug build, exactly when the number of units modulo 256 is at least 127) panic. Partial: below that."
  },
  {
   "property": "C43",
   "status": "partial",
   "theorems": [
    "C43_prefix_of_descriptor_refuted",
    "C43_prefix_of_descriptor_partial"
   ],
   "note": "Refuted: 65536 bytes answer a 9-byte request. Partial: the exact condition (the descriptor fits, or wLength is below its length modulo 64 KiB, hence always below 64 KiB), and errors independent of wLength."
  },
  {
   "property": "C44",
   "status": "proved",
   "theorems": [
    "C44_names_consistent"
   ],
   "note": "All call sequences that need at most 254 strings at once."
  },
  {
   "property": "C45",
   "status": "partial",
   "theorems": [
    "C45_exhaustion_reported_refuted",
    "C45_exhaustion_reached",
    "C45_exhaustion_reported_partial"
   ],
   "note": "Refuted: index 0 handed out, endless loop, overflow panic; all three reached from public calls. Partial: least vacant index below 255."
  },
  {
   "property": "C46",
   "status": "partial",
   "theorems": [
    "C46_bcd_reported_refuted",
    "C46_rusb_versions",
    "C46_bcd_reported_partial"
   ],
   "note": "Refuted on the wire: 1.2.0 is sent as 0x0102. Partial: in the import reply and the device descriptor, faithful exactly when minor and patch are zero."
  },
  {
   "property": "C47",
   "status": "partial",
   "theorems": [
    "C47_verify_descriptor_refuted",
    "C47_verify_descriptor_partial"
   ],
   "note": "Refuted: a zero length byte loops for ever. Partial: exact characterisation of return, panic and divergence."
  },
  {
   "property": "C48",
   "status": "proved",
   "theorems": [
    "C48_what_aborts",
    "C48_what_aborts_on_the_wire"
   ],
   "note": "Exact (iff) characterisation, at handle_urb and on the wire."
  },
  {
   "property": "C49",
   "status": "partial",
   "theorems": [
    "C49_standard_requests_answered_refuted",
    "C49_standard_requests_answered_partial"
   ],
   "note": "Refuted: GET_STATUS and endpoint requests abort. Partial: device/interface recipients with a device handler."
  },
  {
   "property": "C50",
   "status": "proved",
   "theorems": [
    "C50_interface_numbers"
   ],
   "note": "Numbers recovered from the descriptor bytes sent to the host."
  },
  {
   "property": "C51",
   "status": "proved",
   "theorems": [
    "C51_keys_in_order",
    "C51_keys_on_the_wire"
   ],
   "note": "All interleavings, including control requests and OUT transfers; also composed with the connection on the wire."
  },
  {
   "property": "C52",
   "status": "partial",
   "theorems": [
    "C52_report_length_refuted",
    "C52_report_length_partial"
   ],
   "note": "Refuted: the release report has 6 bytes, 8 are announced (computed by a HID report-descriptor parser). Partial: press reports."
  },
  {
   "property": "C53",
   "status": "proved",
   "theorems": [
    "C53_ascii"
   ],
   "note": "All 256 bytes against the usage table."
  },
  {
   "property": "C54",
   "status": "partial",
   "theorems": [
    "C54_client_disables_handler_refuted",
    "C54_client_disables_handler_partial",
    "C54_keyboard_panics_iff"
   ],
   "note": "Refuted: GET_DESCRIPTOR(HID) poisons the handler for good, in every schedule. Partial: handlers that never panic; exact list of panicking keyboard requests."
  },
  {
   "property": "C55",
   "status": "proved",
   "theorems": [
    "C55_serial_in_order",
    "C55_serial_on_the_wire"
   ],
   "note": "All interleavings of queueing, bulk IN, bulk OUT and interrupt transfers."
  },
  {
   "property": "C56",
   "status": "partial",
   "theorems": [
    "C56_only_bulk_in_refuted",
    "C56_only_bulk_in_partial",
    "C56_on_the_wire_partial"
   ],
   "note": "Refuted: a control IN request to the interface drains the buffer. Partial: exact characterisation of the handler; on the wire, only endpoint 2 IN and control requests to the interface touch the queue."
  },
  {
   "property": "C57",
   "status": "partial",
   "theorems": [
    "C57_forwards_exactly_refuted",
    "C57_forwards_exactly_partial",
    "C57_device_requests_partial",
    "C57_isochronous",
    "C57_every_kind"
   ],
   "note": "Refuted: requests addressed to an endpoint abort the connection instead of being forwarded. Partial: every URB that reaches a handler causes exactly one transfer with the client's parameters; isochronous none."
  },
  {
   "property": "C58",
   "status": "partial",
   "theorems": [
    "C58_failures_reported_refuted",
    "C58_failures_reported_partial",
    "C58_device_failures_partial"
   ],
   "note": "Refuted: a failed host transfer is reported as success. Partial: the reply then carries no data."
  },
  {
   "property": "C59",
   "status": "partial",
   "theorems": [
    "C59_nusb_passthrough_refuted",
    "C59_nusb_passthrough_partial",
    "C59_nusb_device_requests_partial",
    "C59_nusb_windows_refuted"
   ],
   "note": "Refuted for endpoint and other recipients, which the library aborts before nusb sees them. Partial: exact for requests that reach the handlers."
  },
  {
   "property": "C60",
   "status": "proved",
   "theorems": [
    "C60_distinct_bus_ids",
    "C60_nusb_distinct_bus_ids"
   ],
   "note": "Distinct (bus, address) pairs give distinct, importable ids, for libusb and nusb lists of any length."
  },
  {
   "property": "C61",
   "status": "partial",
   "theorems": [
    "C61_enumeration_refuted",
    "C61_enumeration_partial",
    "C61_nusb_enumeration_partial",
    "C61_nusb_enumeration_refuted",
    "C61_filter_partial",
    "C61_new_from_host_partial",
    "C61_separate_handlers"
   ],
   "note": "Refuted: one unreadable string aborts the whole enumeration; interface names point into the wrong string table; the nusb path drops class-specific bytes, the USB version, the device number and the size of endpoint 0. Partial: exact success condition and everything else as reported."
  },
  {
   "property": "C62",
   "status": "proved",
   "theorems": [
    "C62_hid_descriptor"
   ],
   "note": "Wire level, any report descriptor below 64 KiB."
  },
  {
   "property": "C63",
   "status": "proved",
   "theorems": [
    "C63_class_descriptors"
   ],
   "note": "Blocks parsed by the independent descriptor grammar of SpecDesc."
  },
  {
   "property": "C64",
   "status": "proved",
   "theorems": [
    "C64_dialogue",
    "C64_nothing_left_unread",
    "C64_message_is_received",
    "C64_replies_as_served"
   ],
   "note": "All three theorems hold at every moment of every execution of the byte-level server (Net.v)."
  },
  {
   "property": "C65",
   "status": "proved",
   "theorems": [
    "C65_same_behaviours"
   ],
   "note": "The two sets of behaviours are equal."
  },
  {
   "property": "C66",
   "status": "proved",
   "theorems": [
    "C66_only_the_holder",
    "C66_as_if_alone"
   ],
   "note": "First theorem for one step, second for whole executions (the handlers of the device are private to it)."
  },
  {
   "property": "C67",
   "status": "proved",
   "theorems": [
    "C67_irrelevant_fields"
   ],
   "note": "Both messages abort the connection in the same way, or both are answered."
  },
  {
   "property": "C68",
   "status": "partial",
   "theorems": [
    "C68_devid_checked_refuted",
    "C68_devid_checked_partial"
   ],
   "note": "Refuted: devid is ignored. Partial: on the wire, whatever the devid, only handlers of the imported device are reached and the server is unchanged."
  },
  {
   "property": "C69",
   "status": "partial",
   "theorems": [
    "C69_iso_packets_refuted",
    "C69_iso_packets_partial"
   ],
   "note": "Refuted: packets are never echoed. Partial: exact condition on the packet count (right exactly for 0)."
  },
  {
   "property": "C70",
   "status": "proved",
   "theorems": [
    "C70_list_and_import_agree"
   ],
   "note": "On the wire, with any input afterwards."
  },
  {
   "property": "C71",
   "status": "proved",
   "theorems": [
    "C71_enumeration"
   ],
   "note": "Any number and order of enumeration requests."
  },
  {
   "property": "C72",
   "status": "proved",
   "theorems": [
    "C72_no_new_behaviour",
    "C72_no_lost_behaviour",
    "C72_progress"
   ],
   "note": "Both inclusions, and progress."
  },
  {
   "property": "C73",
   "status": "proved",
   "theorems": [
    "C73_guarded",
    "C73_writers"
   ],
   "note": "Reads by independence of the contents, writes by exclusive ownership."
  },
  {
   "property": "C74",
   "status": "proved",
   "theorems": [
    "C74_no_starvation",
    "C74_replies",
    "C74_failed_remove_starves",
    "C74_slow_client_starves"
   ],
   "note": "The last two theorems show that neither condition can be dropped."
  },
  {
   "property": "C75",
   "status": "proved",
   "theorems": [
    "C75_host_sees_what_was_built",
    "C75_endpoints_reach_handlers"
   ],
   "note": "Fields assigned directly (they are public) are covered by C39-C41. Instances: the two example programs of the repository."
  },
  {
   "property": "C76",
   "status": "proved",
   "theorems": [
    "C76_other_descriptors"
   ],
   "note": "On the wire, for debug and release builds. USB 2.0 asks for a request error for unknown types; the code answers with success."
  },
  {
   "property": "C77",
   "status": "proved",
   "theorems": [
    "C77_safe",
    "C77_submits_use_held_device",
    "C77_others_unaffected",
    "C77_no_locks",
    "C77_all_or_nothing",
    "C77_executions"
   ],
   "note": "Cancel.v adds cancellation at every await to the concurrent model; exclusivity, conservation and atomicity re-proved with it."
  },
  {
   "property": "C78",
   "status": "partial",
   "theorems": [
    "C78_cancel_leaks",
    "C78_cancel_returns_device_refuted",
    "C78_only_held_device_lost_partial"
   ],
   "note": "Refuted: handler has no drop guard, so the device stays in the in-use table for ever (C78_cancel_leaks, for all later executions). Partial: nothing but the held device is lost."
  },
  {
   "property": "C79",
   "status": "proved",
   "theorems": [
    "C79_timeouts_suffice"
   ],
   "note": "Includes the deadlock of C34: dropping the remove_device call resolves it."
  },
  {
   "property": "C80",
   "status": "partial",
   "theorems": [
    "C80_stall",
    "C80_slow_handler_refuted",
    "C80_others_served_partial",
    "C80_application_partial"
   ],
   "note": "Refuted: the read guard of the in-use table is held during the call; one import or release waiting for it blocks every other client, for as long as the call lasts (C80_stall). Partial: without imports and releases, the others are served; add_device and remove_device work unless a client does not read or a remove_device call found nothing."
  },
  {
   "property": "C81",
   "status": "partial",
   "theorems": [
    "C81_out_length_refuted",
    "C81_out_length_partial"
   ],
   "note": "Refuted for every handler and every non-empty OUT payload. Partial: the field is the number of bytes the handler returned, which follow as payload; always zero in a debug build."
  },
  {
   "property": "C82",
   "status": "proved",
   "theorems": [
    "C82_keeps_accepting",
    "C82_only_accepted",
    "C82_listener_invisible"
   ],
   "note": "Over runs of the listener together with the concurrent server; the queue of pending connections of the operating system is not modelled."
  },
  {
   "property": "C83",
   "status": "partial",
   "theorems": [
    "C83_speed_partial",
    "C83_nusb_speed_refuted",
    "C83_speed_refuted"
   ],
   "note": "Refuted: with rusb SuperSpeed devices are presented as wireless (4) and SuperSpeed+ as SuperSpeed; with nusb every speed is wrong. Partial: with rusb the field is right exactly for unknown, low, full and high speed. The numbering of rusb::Speed and nusb::Speed is taken from the documentation of the libraries."
  },
  {
   "property": "C84",
   "status": "proved",
   "theorems": [
    "C84_terminates",
    "C84_rest_is_reached",
    "C84_rest_means_answered"
   ],
   "note": "Termination holds from every state, reachable or not. At rest with a remove_device call waiting for the in-use table everything may be stuck (C34); that case is excluded in the statement."
  },
  {
   "property": "C85",
   "status": "proved",
   "theorems": [
    "C85_keyboard_types"
   ],
   "note": "For runs of the process in which it still runs; what ends it is C87. The main loop may come round at any moment (time is not modelled)."
  },
  {
   "property": "C86",
   "status": "partial",
   "theorems": [
    "C86_serial_sends_refuted",
    "C86_serial_sends_partial"
   ],
   "note": "Refuted: a control request of the host to the interface (GET_LINE_CODING, a standard request of the class) is answered with the waiting bytes, which are lost to the polls. Partial: polls of endpoint 2 and control IN requests to an interface together return every byte once, in order."
  },
  {
   "property": "C87",
   "status": "partial",
   "theorems": [
    "C87_serial_goes_on",
    "C87_keyboard_goes_on_refuted",
    "C87_keyboard_goes_on_partial",
    "C87_programs_start"
   ],
   "note": "Proved for the serial program. Refuted for the keyboard program: GET_DESCRIPTOR for the HID descriptor poisons the handler mutex and the unwrap in main ends the process. Partial: exactly the control requests to interface 0 that the keyboard does not know do that."
  },
  {
   "property": "C88",
   "status": "proved",
   "theorems": [
    "C88_one_connection",
    "C88_release_has_no_checks",
    "C88_debug_behaviour_is_release_behaviour",
    "C88_release_behaviour_is_debug_behaviour",
    "C88_whole_commands",
    "C88_building",
    "C88_codecs"
   ],
   "note": "The two checks are the ones the model distinguishes: debug_assert! and arithmetic overflow. Other panics (slice bounds, unwrap, poisoned locks) are the same in both builds."
  },
  {
   "property": "C89",
   "status": "proved",
   "theorems": [
    "C89_codes_of_the_standards",
    "C89_decoding",
    "C89_protocol_numbers"
   ],
   "note": "The tables in SpecCodes.v were written from the standards as known to the author; no standard text is part of the repository."
  },
  {
   "property": "C90",
   "status": "partial",
   "theorems": [
    "C90_all_threads_busy",
    "C90_blocking_handlers_refuted",
    "C90_free_thread_partial",
    "C90_threads_add_nothing",
    "C90_calls_in_progress",
    "C90_call_returns",
    "C90_application"
   ],
   "note": "Refuted for every number W of threads and every server with at least W importable devices: W long calls stop everything but the application. Partial: with fewer than W calls in progress the other tasks and the listener are not affected by threads (C80 says what the locks do); threads add no behaviour; the busy threads are exactly the calls entered and not returned, at most W; the application needs none of them."
  },
  {
   "property": "C91",
   "status": "proved",
   "theorems": [
    "C91_keyboard_usage",
    "C91_host_reads_reports",
    "C91_typing",
    "C91_typing_on_the_wire"
   ],
   "note": "HID host written from HID 1.11: report descriptor parser, field decoding, short reports zero-extended. Any text, any interleaving, also with the descriptor the client itself read over the wire. Scope: the reports the library makes; the 6-byte release report (C52) is read as no key down."
  },
  {
   "property": "C92",
   "status": "proved",
   "theorems": [
    "C92_keyboard_is_hid",
    "C92_serial_is_acm"
   ],
   "note": "The interface of each example program as its host decodes it from the configuration descriptor, checked against what the HID and CDC ACM class drivers look for."
  },
  {
   "property": "C93",
   "status": "proved",
   "theorems": [
    "C93_in_step",
    "C93_kernel_urbs",
    "C93_all_given_back",
    "C93_overlong_reply_breaks",
    "C93_given_back_in_the_end"
   ],
   "note": "SpecLinux.v is the client, written from vhci_rx.c, vhci_tx.c, usbip_common.c and usbip_attach.c of Linux as known to the author. C93_in_step without assumptions about handlers, C93_kernel_urbs with them; C93_overlong_reply_breaks is a real session of the serial handler in which the client gives up."
  },
  {
   "property": "C94",
   "status": "proved",
   "theorems": [
    "C94_keyboard",
    "C94_serial"
   ],
   "note": "The client is that of C93, the host that of C91, the programs those of Prog.v with any reports and byte strings instead of their constant ones. Scope: nobody else uses the device meanwhile (another client would take part of the input); C93_overlong_reply_breaks shows why buffers must hold what is queued."
  },
  {
   "property": "C95",
   "status": "proved",
   "theorems": [
    "C95_builder_calls"
   ],
   "note": "Any device, any calls in any order. Found by a surviving mutant of with_device_handler."
  },
  {
   "property": "C96",
   "status": "proved",
   "theorems": [
    "C96_transfers",
    "C96_own_device"
   ],
   "note": "Whole executions of examples/host.rs. URBs that no handler is there for (see C57) and isochronous ones ask for nothing."
  },
  {
   "property": "C97",
   "status": "partial",
   "theorems": [
    "C97_interface_numbers_partial",
    "C97_nusb_interface_numbers_partial",
    "C97_interface_numbers_refuted"
   ],
   "note": "False: the numbers of the host device are dropped and interfaces are renumbered by position, while wIndex is passed on unchanged; witness: a device that lists its interfaces in the order 0, 2, 1. Partial: the request reaches the interface meant exactly when the device numbers its interfaces by position (rusb and nusb)."
  },
  {
   "property": "C98",
   "status": "partial",
   "theorems": [
    "C98_distinct_device_ids_refuted",
    "C98_distinct_device_ids_partial"
   ],
   "note": "False: the device number is the port number (rusb) or 0 (nusb). Partial: exactly which devices of a host share an id; devices of UsbDevice::new share one only if made with the same number."
  },
  {
   "property": "C99",
   "status": "partial",
   "theorems": [
    "C99_error_numbers_refuted",
    "C99_error_numbers_partial"
   ],
   "note": "False: the status of a failed submit is 1. Partial: 1 exactly for the three kinds of failure, 0 otherwise, unless the connection aborts."
  },
  {
   "property": "C100",
   "status": "partial",
   "theorems": [
    "C100_configurations_refuted",
    "C100_configurations_partial"
   ],
   "note": "False: any index and any value is accepted. Partial: all indices get the same descriptor, all values the same empty success, and nothing changes (so nothing reaches a host device either)."
  },
  {
   "property": "C101",
   "status": "partial",
   "theorems": [
    "C101_fresh_start_refuted",
    "C101_fresh_start_partial"
   ],
   "note": "False: the state of handlers survives the client (witness: a half-shown key). Partial: nothing but submits of its holder and the application changes a handler, so the next client finds what the last one left."
  },
  {
   "property": "C102",
   "status": "proved",
   "theorems": [
    "C102_keyboard_and_usbhid",
    "C102_serial_and_cdc_acm"
   ],
   "note": "What the drivers ask is a list in SpecDriver.v, taken from the Linux drivers by hand; the theorem covers all orders and numbers of these requests."
  },
  {
   "property": "C103",
   "status": "partial",
   "theorems": [
    "C103_kept_while_silent",
    "C103_vanished_refuted",
    "C103_reported_partial"
   ],
   "note": "False: the code has no time-out and sets no keep-alive, so a silent client keeps its device for ever. Partial: as soon as the network reports the loss the device is released (same provisos as C26)."
  },
  {
   "property": "C104",
   "status": "proved",
   "theorems": [
    "C104_list_then_attach"
   ],
   "note": ""
  },
  {
   "property": "C105",
   "status": "partial",
   "theorems": [
    "C105_rusb_partial",
    "C105_nusb_partial",
    "C105_same_partial",
    "C105_descriptors_refuted"
   ],
   "note": "False: witness a camera, whose streaming endpoint is lost with the alternate setting. Partial: exactly which bytes are sent instead, for every device, and they are the bytes of the device exactly when versions are x.0 with one digit, names are numbered 1, 2, 3, the configuration is bus-powered with 100 mA and without name, every interface has one setting and the number of its position, and there are no descriptors but those of interfaces, classes and endpoints; with nusb also no class descriptors, USB version 0 and packets of 16."
  },
  {
   "property": "C106",
   "status": "partial",
   "theorems": [
    "C106_idle_polls_refuted",
    "C106_idle_polls_partial"
   ],
   "note": "False: the first poll of an idle keyboard or serial port is answered at once with an empty buffer. Partial: at most two answers per round of the keyboard (one per round of the serial port) bring something, and once all is fetched every further poll is answered at once with nothing."
  },
  {
   "property": "C107",
   "status": "partial",
   "theorems": [
    "C107_short_reads_refuted",
    "C107_short_reads_partial"
   ],
   "note": "False: a read of 8 bytes with the flag that brings 3 is answered with status 0. Partial: exactly what happens instead, submits that differ only in the flags are answered with the same bytes and leave the same state."
  },
  {
   "property": "C108",
   "status": "partial",
   "theorems": [
    "C108_goes_on_refuted",
    "C108_transfers_partial",
    "C108_goes_on_partial",
    "C108_lost_partial",
    "C108_served_partial"
   ],
   "note": "The claim is false: the handlers abort with todo!() on bulk and interrupt endpoints and with unimplemented!() on types and recipients without a name in nusb, which poisons their mutex; and the connection that aborts keeps the device. Proved instead: exactly which requests do this, that every other request is made and answered, once and in order, on handlers that still work, and that all handlers work as long as nobody sends such a request. C108_lost_partial: the device is then lost for all clients. C108_served_partial: for devices made by with_nusb_devices no other client suffers: whatever nusb can do for the device a client holds is done and answered."
  },
  {
   "property": "C109",
   "status": "proved",
   "theorems": [
    "C109_descriptors",
    "C109_stable"
   ],
   "note": "The requests compared need not have the same number, device id, flags, buffer length or data."
  }
 ]
}