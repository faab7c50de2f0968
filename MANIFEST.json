{
 "claims": [
  {
   "property": "C01",
   "status": "proved",
   "theorems": [
    "C01_checksum_closes",
    "C01_checksum_meaning",
    "C01_single_byte_change",
    "C01_corruption_rejected"
   ],
   "note": ""
  },
  {
   "property": "C02",
   "status": "proved",
   "theorems": [
    "C02_crc8_incremental"
   ],
   "note": ""
  },
  {
   "property": "C03",
   "status": "proved",
   "theorems": [
    "C03_wire_format",
    "C03_wellformed_iff",
    "C03_256_malformed"
   ],
   "note": "Format for lengths 1..255 and 257..65535; the 256-byte finding is C03_256_malformed."
  },
  {
   "property": "C04",
   "status": "proved",
   "theorems": [
    "C04_empty_payload",
    "C04_write_extends"
   ],
   "note": ""
  },
  {
   "property": "C05",
   "status": "proved",
   "theorems": [
    "C05_stream_roundtrip",
    "C05_single_iff"
   ],
   "note": ""
  },
  {
   "property": "C06",
   "status": "proved",
   "theorems": [
    "C06_filler_invisible"
   ],
   "note": ""
  },
  {
   "property": "C07",
   "status": "proved",
   "theorems": [
    "C07_delivered_iff"
   ],
   "note": ""
  },
  {
   "property": "C08",
   "status": "proved",
   "theorems": [
    "C08_reading_terminates",
    "C08_each_call_shortens"
   ],
   "note": ""
  },
  {
   "property": "C09",
   "status": "proved",
   "theorems": [
    "C09_panic_iff",
    "C09_never_panics_refuted"
   ],
   "note": "The expected 'never panics' is false (C09_never_panics_refuted); the exact panic condition is C09_panic_iff."
  },
  {
   "property": "C10",
   "status": "proved",
   "theorems": [
    "C10_truncated_never_delivered",
    "C10_unexpected_eof_iff"
   ],
   "note": ""
  },
  {
   "property": "C11",
   "status": "proved",
   "theorems": [
    "C11_resync"
   ],
   "note": ""
  },
  {
   "property": "C12",
   "status": "proved",
   "theorems": [
    "C12_parts",
    "C12_injective",
    "C12_repack"
   ],
   "note": ""
  },
  {
   "property": "C13",
   "status": "proved",
   "theorems": [
    "C13_roundtrip",
    "C13_parse",
    "C13_truncation",
    "C13_short_packet"
   ],
   "note": ""
  },
  {
   "property": "C14",
   "status": "proved",
   "theorems": [
    "C14_fixed_roundtrip",
    "C14_ackdatadropped_with_trx"
   ],
   "note": ""
  },
  {
   "property": "C15",
   "status": "proved",
   "theorems": [
    "C15_variable_roundtrip",
    "C15_unconditional_refuted"
   ],
   "note": ""
  },
  {
   "property": "C16",
   "status": "proved",
   "theorems": [
    "C16_selection",
    "C16_ackdatadropped_confused",
    "C16_no_other_confusion"
   ],
   "note": ""
  },
  {
   "property": "C17",
   "status": "proved",
   "theorems": [
    "C17_mode_history",
    "C17_last_control",
    "C17_no_control"
   ],
   "note": ""
  },
  {
   "property": "C18",
   "status": "proved",
   "theorems": [
    "C18_wire_form",
    "C18_any_payload",
    "C18_values",
    "C18_sizes"
   ],
   "note": ""
  },
  {
   "property": "C19",
   "status": "proved",
   "theorems": [
    "C19_unknown_verbatim",
    "C19_unregistered"
   ],
   "note": ""
  },
  {
   "property": "C20",
   "status": "proved",
   "theorems": [
    "C20_panic_iff",
    "C20_never_panics_refuted"
   ],
   "note": ""
  },
  {
   "property": "C21",
   "status": "proved",
   "theorems": [
    "C21_short",
    "C21_long"
   ],
   "note": ""
  },
  {
   "property": "C22",
   "status": "proved",
   "theorems": [
    "C22_marshal_exactly",
    "C22_nil_payload",
    "C22_decoded_never_panics",
    "C22_nil_interface_panics"
   ],
   "note": ""
  },
  {
   "property": "C23",
   "status": "proved",
   "theorems": [
    "C23_lookup_id",
    "C23_candidates",
    "C23_lookup",
    "C23_register",
    "C23_shipped",
    "C23_all_registered",
    "C23_table_order"
   ],
   "note": ""
  },
  {
   "property": "C24",
   "status": "proved",
   "theorems": [
    "C24_listing",
    "C24_map_order"
   ],
   "note": ""
  },
  {
   "property": "C25",
   "status": "proved",
   "theorems": [
    "C25_respond",
    "C25_non_pointer"
   ],
   "note": ""
  },
  {
   "property": "C26",
   "status": "proved",
   "theorems": [
    "C26_kth_number",
    "C26_distinct",
    "C26_after_reset"
   ],
   "note": ""
  },
  {
   "property": "C27",
   "status": "proved",
   "theorems": [
    "C27_delta",
    "C27_delta_inverse",
    "C27_copy_and_nil"
   ],
   "note": ""
  },
  {
   "property": "C28",
   "status": "proved",
   "theorems": [
    "C28_decoded_requests",
    "C28_general",
    "C28_ext",
    "C28_disp",
    "C28_audio"
   ],
   "note": ""
  },
  {
   "property": "C29",
   "status": "proved",
   "theorems": [
    "C29_acks",
    "C29_decoded"
   ],
   "note": ""
  },
  {
   "property": "C30",
   "status": "proved",
   "theorems": [
    "C30_remote_mode",
    "C30_ui_mode",
    "C30_change",
    "C30_tool_device"
   ],
   "note": ""
  },
  {
   "property": "C31",
   "status": "proved",
   "theorems": [
    "C31_never_set",
    "C31_refuted"
   ],
   "note": ""
  },
  {
   "property": "C32",
   "status": "proved",
   "theorems": [
    "C32_acks",
    "C32_decoded",
    "C32_kept"
   ],
   "note": ""
  },
  {
   "property": "C33",
   "status": "proved",
   "theorems": [
    "C33_certificate",
    "C33_whole"
   ],
   "note": ""
  },
  {
   "property": "C34",
   "status": "proved",
   "theorems": [
    "C34_end",
    "C34_start",
    "C34_first_number",
    "C34_counter"
   ],
   "note": ""
  },
  {
   "property": "C35",
   "status": "proved",
   "theorems": [
    "C35_audio_start"
   ],
   "note": ""
  },
  {
   "property": "C36",
   "status": "proved",
   "theorems": [
    "C36_general",
    "C36_ext",
    "C36_disp",
    "C36_audio",
    "C36_unknown",
    "C36_status"
   ],
   "note": ""
  },
  {
   "property": "C37",
   "status": "proved",
   "theorems": [
    "C37_unsent",
    "C37_missing_ack",
    "C37_refuted",
    "C37_tool_device"
   ],
   "note": ""
  },
  {
   "property": "C38",
   "status": "proved",
   "theorems": [
    "C38_frames_roundtrip",
    "C38_tables_usable"
   ],
   "note": ""
  },
  {
   "property": "C39",
   "status": "proved",
   "theorems": [
    "C39_report_shape",
    "C39_segments",
    "C39_any_writer",
    "C39_empty_frame",
    "C39_no_definition"
   ],
   "note": ""
  },
  {
   "property": "C40",
   "status": "proved",
   "theorems": [
    "C40_terminates",
    "C40_single_report",
    "C40_len1_never_terminates",
    "C40_len0_panics"
   ],
   "note": ""
  },
  {
   "property": "C41",
   "status": "proved",
   "theorems": [
    "C41_pick",
    "C41_pick_fails",
    "C41_legacy_smallest",
    "C41_default_smallest_refuted",
    "C41_shipped"
   ],
   "note": ""
  },
  {
   "property": "C42",
   "status": "proved",
   "theorems": [
    "C42_frame",
    "C42_frame_unique",
    "C42_error",
    "C42_panic",
    "C42_no_leak"
   ],
   "note": ""
  },
  {
   "property": "C43",
   "status": "proved",
   "theorems": [
    "C43_raw_roundtrip",
    "C43_raw_long_truncated",
    "C43_read_errors",
    "C43_write",
    "C43_single",
    "C43_single_endless"
   ],
   "note": ""
  },
  {
   "property": "C44",
   "status": "proved",
   "theorems": [
    "C44_packets_over_hid",
    "C44_streams_over_hid",
    "C44_shipped_tables"
   ],
   "note": ""
  },
  {
   "property": "C45",
   "status": "proved",
   "theorems": [
    "C45_marshal",
    "C45_roundtrip",
    "C45_accepted"
   ],
   "note": ""
  },
  {
   "property": "C46",
   "status": "proved",
   "theorems": [
    "C46_roundtrip",
    "C46_too_long"
   ],
   "note": ""
  },
  {
   "property": "C47",
   "status": "proved",
   "theorems": [
    "C47_mixed",
    "C47_unique"
   ],
   "note": ""
  },
  {
   "property": "C48",
   "status": "proved",
   "theorems": [
    "C48_crash"
   ],
   "note": ""
  },
  {
   "property": "C49",
   "status": "proved",
   "theorems": [
    "C49_transparent"
   ],
   "note": ""
  },
  {
   "property": "C50",
   "status": "proved",
   "theorems": [
    "C50_replay"
   ],
   "note": ""
  },
  {
   "property": "C51",
   "status": "proved",
   "theorems": [
    "C51_fifo"
   ],
   "note": ""
  },
  {
   "property": "C52",
   "status": "proved",
   "theorems": [
    "C52_bad_enqueue",
    "C52_never_returned",
    "C52_any_history"
   ],
   "note": ""
  },
  {
   "property": "C53",
   "status": "proved",
   "theorems": [
    "C53_view",
    "C53_shows",
    "C53_crash",
    "C53_fatal",
    "C53_determined",
    "C53_complete",
    "C53_file",
    "C53_all_shown_refuted"
   ],
   "note": "Loading, head order, per-direction frames, crashes and fatal errors for every file; completeness needs closed directions, refuted without."
  },
  {
   "property": "C54",
   "status": "proved",
   "theorems": [
    "C54_overwrite",
    "C54_refuted"
   ],
   "note": ""
  },
  {
   "property": "C55",
   "status": "proved",
   "theorems": [
    "C55_whole_lines",
    "C55_complete",
    "C55_order_refuted"
   ],
   "note": ""
  },
  {
   "property": "C56",
   "status": "proved",
   "theorems": [
    "C56_roundtrip",
    "C56_parse"
   ],
   "note": ""
  },
  {
   "property": "C57",
   "status": "proved",
   "theorems": [
    "C57_tokens_roundtrip",
    "C57_acks_roundtrip",
    "C57_parsed_consistent"
   ],
   "note": ""
  },
  {
   "property": "C58",
   "status": "proved",
   "theorems": [
    "C58_count_wraps",
    "C58_roundtrip_refuted",
    "C58_long_token_refuted"
   ],
   "note": ""
  },
  {
   "property": "C59",
   "status": "proved",
   "theorems": [
    "C59_cert_section"
   ],
   "note": ""
  },
  {
   "property": "C60",
   "status": "proved",
   "theorems": [
    "C60_roundtrip",
    "C60_unknown_type"
   ],
   "note": ""
  },
  {
   "property": "C61",
   "status": "proved",
   "theorems": [
    "C61_text_lost",
    "C61_text_sent_refuted",
    "C61_sized_sent"
   ],
   "note": ""
  },
  {
   "property": "C62",
   "status": "proved",
   "theorems": [
    "C62_artwork",
    "C62_artwork_partial_entry",
    "C62_sample_rates",
    "C62_strings",
    "C62_model_number"
   ],
   "note": ""
  },
  {
   "property": "C63",
   "status": "proved",
   "theorems": [
    "C63_bool",
    "C63_only_one_is_true",
    "C63_string"
   ],
   "note": ""
  },
  {
   "property": "C64",
   "status": "proved",
   "theorems": [
    "C64_frame",
    "C64_deterministic",
    "C64_order",
    "C64_decodes_back",
    "C64_runs",
    "C64_session",
    "C64_unsendable_silent"
   ],
   "note": "C64_frame holds for every transport; answers is the specification of one frame, serves of whole runs; C64_decodes_back is stated for the payloads that survive the wire (C14, C15) and packet lengths that can be written (C03)."
  },
  {
   "property": "C65",
   "status": "proved",
   "theorems": [
    "C65_frame",
    "C65_no_start_byte",
    "C65_session"
   ],
   "note": ""
  },
  {
   "property": "C66",
   "status": "proved",
   "theorems": [
    "C66_frame_mode",
    "C66_mode_of_request",
    "C66_mode_of_request_refuted"
   ],
   "note": "Expectation refuted; the exact mode and the case in which the expectation holds are proved."
  },
  {
   "property": "C67",
   "status": "proved",
   "theorems": [
    "C67_frame",
    "C67_runs",
    "C67_safe",
    "C67_hid_sturdy",
    "C67_no_crash_refuted"
   ],
   "note": "Expectation refuted by single HID reports; crashing inputs are characterised exactly."
  },
  {
   "property": "C68",
   "status": "proved",
   "theorems": [
    "C68_replay",
    "C68_errors_refuted"
   ],
   "note": "For devices whose reads do not fail except by io.EOF; refuted for devices with read errors."
  },
  {
   "property": "C69",
   "status": "proved",
   "theorems": [
    "C69_answers"
   ],
   "note": ""
  },
  {
   "property": "C70",
   "status": "proved",
   "theorems": [
    "C70_calls",
    "C70_state"
   ],
   "note": ""
  },
  {
   "property": "C71",
   "status": "proved",
   "theorems": [
    "C71_text_lost",
    "C71_refuted"
   ],
   "note": ""
  },
  {
   "property": "C72",
   "status": "proved",
   "theorems": [
    "C72_lost_device",
    "C72_lost_hid_device"
   ],
   "note": "Expectation refuted."
  },
  {
   "property": "C73",
   "status": "proved",
   "theorems": [
    "C73_same_frame",
    "C73_same_packets",
    "C73_valid_until_next",
    "C73_overwritten",
    "C73_valid_for_ever_refuted",
    "C73_report_data"
   ],
   "note": "Memory model Mem.v; C73_same_frame and C73_same_packets tie it to the value model. C73_valid_for_ever_refuted is the finding."
  },
  {
   "property": "C74",
   "status": "proved",
   "theorems": [
    "C74_decoded",
    "C74_valid_until_next",
    "C74_rest_is_kept",
    "C74_tokens_kept_refuted",
    "C74_unknown_kept_refuted"
   ],
   "note": "Expectation refuted; exactly what can change, and when, is proved."
  },
  {
   "property": "C75",
   "status": "proved",
   "theorems": [
    "C75_covered",
    "C75_stale",
    "C75_frames_are_independent_refuted"
   ],
   "note": "Expectation refuted; C75_covered carries the theorems about hid_transport over to the real buffers."
  },
  {
   "property": "C76",
   "status": "proved",
   "theorems": [
    "C76_certificate",
    "C76_valid_until_next",
    "C76_valid_for_ever_refuted"
   ],
   "note": "Certificate buffer with its memory."
  },
  {
   "property": "C77",
   "status": "proved",
   "theorems": [
    "C77_decodes",
    "C77_one_meaning",
    "C77_token",
    "C77_cut_token_accepted"
   ],
   "note": "Both directions, for every payload type. C77_cut_token_accepted is a finding."
  },
  {
   "property": "C78",
   "status": "proved",
   "theorems": [
    "C78_sent",
    "C78_determined",
    "C78_completes",
    "C78_recorded",
    "C78_receiver",
    "C78_all_sent_refuted"
   ],
   "note": "C78_all_sent_refuted is a finding. A round of the sending loop and a device read of the receiver are atomic steps."
  },
  {
   "property": "C79",
   "status": "proved",
   "theorems": [
    "C79_at_read",
    "C79_repeated_refuted",
    "C79_crash_point",
    "C79_crash_replayed",
    "C79_only_crash_refuted"
   ],
   "note": "C79_only_crash_refuted is a finding. Reports of at most 21843 bytes, as in C68."
  },
  {
   "property": "C80",
   "status": "proved",
   "theorems": [
    "C80_watched",
    "C80_session_viewed"
   ],
   "note": "The conclusion excludes a crash of the viewer; C53 says when it crashes."
  },
  {
   "property": "C81",
   "status": "proved",
   "theorems": [
    "C81_names",
    "C81_names_differ"
   ],
   "note": "The values range over all naturals, so over every width."
  },
  {
   "property": "C82",
   "status": "proved",
   "theorems": [
    "C82_lingo_mask",
    "C82_button_mask",
    "C82_masks_differ"
   ],
   "note": ""
  },
  {
   "property": "C83",
   "status": "proved",
   "theorems": [
    "C83_id_text",
    "C83_ids_differ",
    "C83_transaction",
    "C83_transactions_differ",
    "C83_transaction_GoString_refuted"
   ],
   "note": "C83_transaction_GoString_refuted is a finding. Ids below 2^24, where the lingo byte ends."
  },
  {
   "property": "C84",
   "status": "proved",
   "theorems": [
    "C84_line",
    "C84_map_order",
    "C84_one_line"
   ],
   "note": "The text of a field (%v) and the number of runes of a message are parameters."
  },
  {
   "property": "C85",
   "status": "proved",
   "theorems": [
    "C85_said",
    "C85_report",
    "C85_decoded"
   ],
   "note": "spew.Sdump and what is logged of a certificate (its common name or the parser's error) are parameters."
  },
  {
   "property": "C86",
   "status": "proved",
   "theorems": [
    "C86_viewer",
    "C86_lines"
   ],
   "note": "The dumps added at debug level are not modelled."
  },
  {
   "property": "C87",
   "status": "proved",
   "theorems": [
    "C87_same_run",
    "C87_transcript"
   ],
   "note": "The log before a crash is not modelled."
  },
  {
   "property": "C88",
   "status": "proved",
   "theorems": [
    "C88_agree",
    "C88_agree_log",
    "C88_agree_tokenless",
    "C88_unreadable_reply_refuted",
    "C88_crash"
   ],
   "note": "C88_unreadable_reply_refuted is the finding about replies of 256 bytes. Transaction and type of replies are not compared: a reply without the transaction the mode asks for is decoded differently (C66). C88_crash: the viewer crashes on such a trace only over a frame that holds a packet in part (C09)."
  },
  {
   "property": "C89",
   "status": "proved",
   "theorems": [
    "C89_untouched",
    "C89_problem_or_start",
    "C89_stops",
    "C89_lingos",
    "C89_serve",
    "C89_replay",
    "C89_view",
    "C89_send"
   ],
   "note": "Command-line parsing is urfave/cli's; char devices as trace files and links between paths are not modelled; of send the set-up is here, the run is C78."
  },
  {
   "property": "C90",
   "status": "proved",
   "theorems": [
    "C90_recording",
    "C90_replay",
    "C90_view",
    "C90_stale_refuted"
   ],
   "note": "C90_stale_refuted is the finding: a replay of a trace recorded over a longer one answers a request the session did not have. C90_view has the conditions of C88."
  },
  {
   "property": "C91",
   "status": "proved",
   "theorems": [
    "C91_fixed",
    "C91_state",
    "C91_date",
    "C91_track",
    "C91_track_caps",
    "C91_track_artwork",
    "C91_signature"
   ],
   "note": "Answers that cannot be sent are C37, track texts lost on the wire C71, answers taken from the device C69, acknowledgements C36."
  },
  {
   "property": "C92",
   "status": "proved",
   "theorems": [
    "C92_play_state",
    "C92_tracks",
    "C92_refuted"
   ],
   "note": "Proved as it is: C92_play_state and C92_tracks give the contradicting answers for every device and history, C92_refuted refutes the wish on the tool's own device."
  },
  {
   "property": "C93",
   "status": "proved",
   "theorems": [
    "C93_frame",
    "C93_session",
    "C93_unknown"
   ],
   "note": "The machine is SpecProtocol.v, written in bytes only: it imports nothing of the model but the byte library. Frames that crash the packet reader (C09, C67) hold no packets and are outside."
  },
  {
   "property": "C94",
   "status": "proved",
   "theorems": [
    "C94_memory",
    "C94_wire",
    "C94_departs_unique",
    "C94_accessory"
   ],
   "note": "The shipped tables are usable (C38)."
  },
  {
   "property": "C95",
   "status": "proved",
   "theorems": [
    "C95_memory_counts",
    "C95_grouping",
    "C95_grouping_wire",
    "C95_switching_refuted"
   ],
   "note": "C95_switching_refuted shows that the restriction to packets that do not switch is needed."
  },
  {
   "property": "C96",
   "status": "proved",
   "theorems": [
    "C96_bounded",
    "C96_reports",
    "C96_tables"
   ],
   "note": "The bounds are met by 255 tokens and by the last certificate section (C96_case)."
  },
  {
   "property": "C97",
   "status": "proved",
   "theorems": [
    "C97_fixed",
    "C97_read",
    "C97_unnumbered_refuted"
   ],
   "note": "C97_unnumbered_refuted shows that the condition on the request is needed. Replies that cannot be sent at all are C37."
  },
  {
   "property": "C98",
   "status": "proved",
   "theorems": [
    "C98_same_run",
    "C98_cut_short",
    "C98_last_frame"
   ],
   "note": "C87 is the same for runs that end. The entries are assumed to be written at once (logrus writes each entry to standard error)."
  },
  {
   "property": "C99",
   "status": "proved",
   "theorems": [
    "C99_dialogue",
    "C99_memory"
   ],
   "note": "The accessory is not part of the repository: it is the composition of the library's functions written down in SpecDialogue. C99_memory: the same with the server's real buffers, in any reachable state of them."
  },
  {
   "property": "C100",
   "status": "proved",
   "theorems": [
    "C100_never_sent",
    "C100_session",
    "C100_packets_only",
    "C100_length_refuted",
    "C100_inside_refuted",
    "C100_order_refuted"
   ],
   "note": "Proved for one changed byte per packet other than the length, which is what the check sum can promise; what happens otherwise is in the three theorems called refuted."
  },
  {
   "property": "C101",
   "status": "proved",
   "theorems": [
    "C101_resync",
    "C101_never_sent",
    "C101_memory",
    "C101_middle_refuted",
    "C101_mixed_refuted"
   ],
   "note": "Proved for the losses that leave no header of a packet behind; the two exceptions are the theorems called refuted. Reports that are repeated or overtake each other are not covered."
  },
  {
   "property": "C102",
   "status": "proved",
   "theorems": [
    "C102_repeated",
    "C102_crash",
    "C102_short_refuted"
   ],
   "note": "traced run turned into its list of reads (C68/C79), which the file gives to the sender (C78); a server reading the wire then does the same as one reading the list"
  },
  {
   "property": "C103",
   "status": "proved",
   "theorems": [
    "C103_covered",
    "C103_zeros",
    "C103_trace",
    "C103_survivor_refuted",
    "C103_crash_hidden_refuted"
   ],
   "note": "simulation of the viewer with arrays by the viewer with values, frame by frame; the array of a new decoder is zeros behind what was written; the two findings by computation"
  },
  {
   "property": "C104",
   "status": "proved",
   "theorems": [
    "C104_again",
    "C104_memory",
    "C104_middle_refuted"
   ],
   "note": "what arrives is what arrives in C101 when every attempt is taken for a frame of its own; the finding by computation"
  },
  {
   "property": "C105",
   "status": "proved",
   "theorems": [
    "C105_again",
    "C105_memory",
    "C105_modes",
    "C105_delicate_refuted",
    "C105_certificate_refuted"
   ],
   "note": "from the protocol machine (C93, C94): every row of the request table is shown to be idempotent or listed; induction over the repetitions; findings by computation"
  },
  {
   "property": "C106",
   "status": "proved",
   "theorems": [
    "C106_same",
    "C106_stable",
    "C106_exact",
    "C106_unknown",
    "C106_when",
    "C106_session",
    "C106_number_refuted",
    "C106_tokens_refuted",
    "C106_authentication_refuted"
   ],
   "note": "whatever the decoders return is shown to be within the limits of the round trips C14 and C15; wire forms are unique; the session by C93 and C94; findings by computation"
  },
  {
   "property": "C107",
   "status": "proved",
   "theorems": [
    "C107_rest",
    "C107_receiver",
    "C107_ends",
    "C107_sent"
   ],
   "note": "the receiver on a list of reads by induction over ReadFrame and the frame loop; termination by a measure"
  },
  {
   "property": "C108",
   "status": "proved",
   "theorems": [
    "C108_lines",
    "C108_replay",
    "C108_send",
    "C108_view",
    "C108_join",
    "C108_notes",
    "C108_notes_refuted",
    "C108_memory"
   ],
   "note": "the reader against a small inductive reading of lines; simulation of the replay by a device with given reads; comments by C94. C108_memory is C108_replay with the program's own buffers."
  },
  {
   "property": "C109",
   "status": "proved",
   "theorems": [
    "C109_moved",
    "C109_free",
    "C109_memory",
    "C109_tied_refuted"
   ],
   "note": "ten commands are tied to their place, and each has a request that cannot be exchanged with some other (finding); C94 and steadiness of all other rows of the protocol machine"
  },
  {
   "property": "C110",
   "status": "proved",
   "theorems": [
    "C110_told",
    "C110_certificates",
    "C110_certificates_memory",
    "C110_whole",
    "C110_handshake",
    "C110_handshake_memory"
   ],
   "note": "the crash of a free frame in between is the one way the handshake can fail, and is named in the theorem"
  },
  {
   "property": "C111",
   "status": "proved",
   "theorems": [
    "C111_renewed",
    "C111_renewed_plain",
    "C111_memory",
    "C111_number_refuted"
   ],
   "note": "C111_number_refuted shows why frames must be orderly for accessories without numbers; the collected certificate is not part of the protocol's memory, C110 says that section 0 starts it anew"
  },
  {
   "property": "C112",
   "status": "proved",
   "theorems": [
    "C112_view",
    "C112_view_anew",
    "C112_view_bad",
    "C112_send",
    "C112_replay",
    "C112_numbers_refuted",
    "C112_newline_refuted"
   ],
   "note": "C112_newline_refuted and C112_numbers_refuted show why the conditions are needed"
  },
  {
   "property": "C113",
   "status": "proved",
   "theorems": [
    "C113_noise",
    "C113_contained",
    "C113_noise_memory",
    "C113_lost_refuted"
   ],
   "note": "C113_lost_refuted shows why the condition is about reports in a row"
  },
  {
   "property": "C114",
   "status": "proved",
   "theorems": [
    "C114_same",
    "C114_answers",
    "C114_refused_refuted"
   ],
   "note": "C114_refused_refuted is the finding on tokens; devices return from their methods (no panic, no blocking)"
  },
  {
   "property": "C115",
   "status": "proved",
   "theorems": [
    "C115_replies",
    "C115_cert_refuted",
    "C115_numbers_refuted"
   ],
   "note": "C115_cert_refuted and C115_numbers_refuted are the findings; others act between commands, not within one (no data races)"
  },
  {
   "property": "C116",
   "status": "proved",
   "theorems": [
    "C116_capacity",
    "C116_growth",
    "C116_kept",
    "C116_held",
    "C116_bounded",
    "C116_bounded_memory",
    "C116_frame",
    "C116_certificate_refuted",
    "C116_tokens_refuted",
    "C116_frame_refuted"
   ],
   "note": "C116_certificate_refuted, C116_tokens_refuted and C116_frame_refuted are the findings; C116_capacity bounds the decoder's buffer itself, the other bounds count contents; C116_kept is a finding too"
  },
  {
   "property": "C117",
   "status": "proved",
   "theorems": [
    "C117_decode",
    "C117_encode",
    "C117_server",
    "C117_tool",
    "C117_send",
    "C117_session",
    "C117_same_refuted"
   ],
   "note": "C117_same_refuted is the finding. Other differences between versions of Go (library texts, buffer growth) are not modelled here; errors' texts and buffer growth are parameters of the model"
  },
  {
   "property": "C118",
   "status": "proved",
   "theorems": [
    "C118_same",
    "C118_write_errors_refuted",
    "C118_table"
   ],
   "note": "C118_write_errors_refuted is the finding: the results of writes have no effect"
  },
  {
   "property": "C119",
   "status": "proved",
   "theorems": [
    "C119_server",
    "C119_order",
    "C119_lingo",
    "C119_missing",
    "C119_added",
    "C119_unhandled",
    "C119_again",
    "C119_again_refuted",
    "C119_silenced_refuted"
   ],
   "note": "C119_again_refuted and C119_silenced_refuted are the findings; C119_unhandled allows for the longer registry crashing where the shipped one does not"
  },
  {
   "property": "C120",
   "status": "proved",
   "theorems": [
    "C120_readings",
    "C120_alike",
    "C120_unasked"
   ],
   "note": ""
  },
  {
   "property": "C121",
   "status": "proved",
   "theorems": [
    "C121_reacts",
    "C121_machine",
    "C121_memory"
   ],
   "note": "the accessory accepts all writes; a session without end is covered through its beginnings (the same accessory, hanging up after any number of reads)"
  },
  {
   "property": "C122",
   "status": "proved",
   "theorems": [
    "C122_server",
    "C122_machine",
    "C122_memory",
    "C122_read",
    "C122_taken",
    "C122_again_refuted"
   ],
   "note": "a refused report is one that does not reach the accessory; a device file that takes more than it is given makes the library panic and is left out"
  },
  {
   "property": "C123",
   "status": "proved",
   "theorems": [
    "C123_recorded",
    "C123_memory",
    "C123_viewed",
    "C123_order_refuted",
    "C123_rest_refuted",
    "C123_short_refuted"
   ],
   "note": "the file is taken to be written without errors; a device file that takes part of a report without an error is left out here (C123_short_refuted: the tracer records the part, and the viewer can show a reply that was refused)"
  },
  {
   "property": "C124",
   "status": "proved",
   "theorems": [
    "C124_file",
    "C124_session",
    "C124_moment",
    "C124_crash_refuted",
    "C124_view_refuted",
    "C124_memory",
    "C124_memory_refuted"
   ],
   "note": "the moment is the same for the replay and the send command; that the state at a moment is the one of a server that was given the reads up to it is C121/C122. C124_memory is the replay of C124_file with the program's own buffers; C124_memory_refuted: with them, too, a cut recording can crash the replay."
  },
  {
   "property": "C125",
   "status": "proved",
   "theorems": [
    "C125_undisturbed",
    "C125_memory",
    "C125_disk",
    "C125_replay"
   ],
   "note": "a trace file that panics or blocks is left out; C125_replay is for device files that take a write whole or return an error, as C123 and C124; C125_memory says it with the real buffers"
  },
  {
   "property": "C126",
   "status": "proved",
   "theorems": [
    "C126_sent",
    "C126_file",
    "C126_replay",
    "C126_crash",
    "C126_resend",
    "C126_rounds",
    "C126_completes",
    "C126_order_refuted"
   ],
   "note": "a transfer on the device and a write to the trace file are each atomic; C126_replay asks that the reads so far gave data and no error. C126_rounds shows that the coarser steps of C78 and C107 are among these"
  },
  {
   "property": "C127",
   "status": "proved",
   "theorems": [
    "C127_version_refuted",
    "C127_reads",
    "C127_same",
    "C127_alone_refuted"
   ],
   "note": "C127_same covers sessions that end and sessions that crash; C127_reads says that a run depends on the reads alone. C127_alone_refuted is a finding: the crash depends on what is left in the buffer by earlier frames. C127_version_refuted: so does it depend on how the Go version grows buffers."
  }
 ]
}