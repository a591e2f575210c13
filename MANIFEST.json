{
 "claims": [
  {
   "property": "C01",
   "status": "proved",
   "theorems": [
    "C01_round_trip"
   ],
   "note": ""
  },
  {
   "property": "C02",
   "status": "proved",
   "theorems": [
    "C02_wire_format"
   ],
   "note": ""
  },
  {
   "property": "C03",
   "status": "proved",
   "theorems": [
    "C03_unmarshal_exact"
   ],
   "note": ""
  },
  {
   "property": "C04",
   "status": "proved",
   "theorems": [
    "C04_escaping_lossless"
   ],
   "note": ""
  },
  {
   "property": "C05",
   "status": "proved",
   "theorems": [
    "C05_checksum_formula",
    "C05_checksum_single_difference"
   ],
   "note": ""
  },
  {
   "property": "C06",
   "status": "proved",
   "theorems": [
    "C06_corruption_detected"
   ],
   "note": ""
  },
  {
   "property": "C07",
   "status": "proved",
   "theorems": [
    "C07_reply_exact_or_rejected"
   ],
   "note": ""
  },
  {
   "property": "C08",
   "status": "partial",
   "theorems": [
    "C08_readable_partial",
    "C08_unreadable_refuted"
   ],
   "note": "False of the code: a payload with 7 before 15, 240 or 243 is never readable. Proved for all other payloads."
  },
  {
   "property": "C09",
   "status": "proved",
   "theorems": [
    "C09_chunking_irrelevant"
   ],
   "note": ""
  },
  {
   "property": "C10",
   "status": "proved",
   "theorems": [
    "C10_read_total"
   ],
   "note": ""
  },
  {
   "property": "C11",
   "status": "partial",
   "theorems": [
    "C11_query_partial",
    "C11_query_refuted",
    "C11_getters"
   ],
   "note": "False for arbitrary payloads (a corrupted byte can form a frame start or an escape). Proved for payloads of the lengths all getters accept, and for QueryPacket under an explicit side condition."
  },
  {
   "property": "C12",
   "status": "proved",
   "theorems": [
    "C12_query_on_the_wire"
   ],
   "note": ""
  },
  {
   "property": "C13",
   "status": "proved",
   "theorems": [
    "C13_success_has_matching_reply"
   ],
   "note": "For request commands other than 255; the code sends none."
  },
  {
   "property": "C14",
   "status": "partial",
   "theorems": [
    "C14_set_saw_control_sequence_partial",
    "C14_no_ack_refuted"
   ],
   "note": "False of the code: end of file or a lone frame end also counts as ACK (C129_set gives the exact condition). Proved: a calm line delivered some control sequence first."
  },
  {
   "property": "C15",
   "status": "partial",
   "theorems": [
    "C15_own_reply_partial",
    "C15_never_heard_again",
    "C15_after_timeout_refuted"
   ],
   "note": "False of the code: the reader left behind by a timeout swallows the next reply, for ever. Proved on a line no reader is left on."
  },
  {
   "property": "C16",
   "status": "proved",
   "theorems": [
    "C16_speed",
    "C16_comfort",
    "C16_profile"
   ],
   "note": ""
  },
  {
   "property": "C17",
   "status": "proved",
   "theorems": [
    "C17_temperature"
   ],
   "note": ""
  },
  {
   "property": "C18",
   "status": "proved",
   "theorems": [
    "C18_temps",
    "C18_bypass",
    "C18_hours",
    "C18_fans",
    "C18_profiles",
    "C18_errors",
    "C18_boot"
   ],
   "note": ""
  },
  {
   "property": "C19",
   "status": "partial",
   "theorems": [
    "C19_rpm_partial",
    "C19_rpm_refuted",
    "C19_modulo"
   ],
   "note": "False for raw values 1 to 28, where the quotient is truncated to 16 bits; C19_modulo is what is reported for all."
  },
  {
   "property": "C20",
   "status": "proved",
   "theorems": [
    "C20_getters"
   ],
   "note": ""
  },
  {
   "property": "C21",
   "status": "proved",
   "theorems": [
    "C21_profile_set"
   ],
   "note": "For percentages the unit accepts (from lo on; take lo = 0 for all)."
  },
  {
   "property": "C22",
   "status": "proved",
   "theorems": [
    "C22_table",
    "C22_numbering"
   ],
   "note": ""
  },
  {
   "property": "C30",
   "status": "partial",
   "theorems": [
    "C30_speed_partial",
    "C30_modified_partial",
    "C30_speed_refuted"
   ],
   "note": "False of the code: after a failed poll the cached mode is out of date and the next SetFanSpeed to it does nothing. Proved for histories without a failed poll, and whenever the reply says that the speed was changed."
  },
  {
   "property": "C31",
   "status": "partial",
   "theorems": [
    "C31_profile_partial",
    "C31_in_percent_partial",
    "C31_profile_refuted"
   ],
   "note": "False of the code: only the in percentage is compared before the write is skipped. Proved whenever the reply says that the profile was changed; otherwise for the in percentage."
  },
  {
   "property": "C46",
   "status": "proved",
   "theorems": [
    "C46_name_trimmed",
    "C46_boot_name"
   ],
   "note": ""
  },
  {
   "property": "C23",
   "status": "proved",
   "theorems": [
    "C23_getters_serve_last"
   ],
   "note": ""
  },
  {
   "property": "C24",
   "status": "proved",
   "theorems": [
    "C24_failed_refresh"
   ],
   "note": ""
  },
  {
   "property": "C25",
   "status": "proved",
   "theorems": [
    "C25_refresh_decision"
   ],
   "note": ""
  },
  {
   "property": "C26",
   "status": "partial",
   "theorems": [
    "C26_comfort_partial",
    "C26_negative_refuted",
    "C26_any"
   ],
   "note": "Proved for a cached comfort temperature of 0 to 107 degrees; with a negative one the reply shows a wrapped original temperature."
  },
  {
   "property": "C27",
   "status": "proved",
   "theorems": [
    "C27_speed_requests",
    "C51_permitted_requests"
   ],
   "note": ""
  },
  {
   "property": "C28",
   "status": "partial",
   "theorems": [
    "C28_abs_partial",
    "C28_abs_refuted",
    "C28_modulo",
    "C28_zero"
   ],
   "note": "False for Abs above 255, which is truncated to 8 bits before the check. Proved up to 255; C28_modulo and C28_zero say what happens above."
  },
  {
   "property": "C29",
   "status": "partial",
   "theorems": [
    "C29_profile_range_partial",
    "C29_profile_range_refuted",
    "C29_modulo",
    "C29_target"
   ],
   "note": "False for arguments above 255, which are truncated to 8 bits before the check. Proved up to 255, with the complete behaviour for accepted arguments; C29_modulo and C29_target say what happens above."
  },
  {
   "property": "C32",
   "status": "proved",
   "theorems": [
    "C32_polling"
   ],
   "note": ""
  },
  {
   "property": "C33",
   "status": "proved",
   "theorems": [
    "C33_no_lock_leaked",
    "C24_failed_refresh"
   ],
   "note": ""
  },
  {
   "property": "C34",
   "status": "proved",
   "theorems": [
    "C34_flush"
   ],
   "note": ""
  },
  {
   "property": "C35",
   "status": "partial",
   "theorems": [
    "C35_flush_partial",
    "C35_flush_refuted"
   ],
   "note": "False of the code: Success is reported even if the query failed. Proved: whenever the reply was accepted the cache is fresh."
  },
  {
   "property": "C43",
   "status": "proved",
   "theorems": [
    "C43_staleness"
   ],
   "note": ""
  },
  {
   "property": "C45",
   "status": "partial",
   "theorems": [
    "C45_poll_failure_partial",
    "C45_reply_never_sent",
    "C45_poll_failure_refuted"
   ],
   "note": "False of the code: the handler returns the error, but only after the HTTP server's write timeout of 5 s has passed."
  },
  {
   "property": "C47",
   "status": "proved",
   "theorems": [
    "C47_messages",
    "C47_messages_differ"
   ],
   "note": ""
  },
  {
   "property": "C49",
   "status": "proved",
   "theorems": [
    "C49_ticks",
    "C49_start",
    "C49_no_hours",
    "C51_permitted_requests"
   ],
   "note": ""
  },
  {
   "property": "C50",
   "status": "partial",
   "theorems": [
    "C50_poll_lock_refuted",
    "C32_polling"
   ],
   "note": "False for speeds outside 1-4 (the error path returns with the read lock held); C32_polling shows no lock is held otherwise."
  },
  {
   "property": "C51",
   "status": "proved",
   "theorems": [
    "C51_permitted_requests"
   ],
   "note": ""
  },
  {
   "property": "C52",
   "status": "proved",
   "theorems": [
    "C52_in_turn",
    "C52_any_order"
   ],
   "note": "C52_any_order: when the kernel and the scheduler may serve any of the readers, the same with the order they choose."
  },
  {
   "property": "C53",
   "status": "proved",
   "theorems": [
    "C53_leftovers_bounded"
   ],
   "note": ""
  },
  {
   "property": "C54",
   "status": "proved",
   "theorems": [
    "C54_cache_follows_unit"
   ],
   "note": ""
  },
  {
   "property": "C36",
   "status": "proved",
   "theorems": [
    "C36_flush_pairing",
    "C36_flush_answers"
   ],
   "note": ""
  },
  {
   "property": "C37",
   "status": "proved",
   "theorems": [
    "C37_no_deadlock"
   ],
   "note": ""
  },
  {
   "property": "C38",
   "status": "proved",
   "theorems": [
    "C38_calls_serialised",
    "C55_wire_discipline"
   ],
   "note": ""
  },
  {
   "property": "C39",
   "status": "proved",
   "theorems": [
    "C39_snapshot"
   ],
   "note": ""
  },
  {
   "property": "C40",
   "status": "partial",
   "theorems": [
    "C40_poll_partial",
    "C40_poll_refuted"
   ],
   "note": "False of the code: UpdatePoll reads the two percentages without the lock. Proved: each of them is that of some fetched reading."
  },
  {
   "property": "C41",
   "status": "proved",
   "theorems": [
    "C41_profiles_serialised",
    "C41_profile_effect"
   ],
   "note": ""
  },
  {
   "property": "C42",
   "status": "partial",
   "theorems": [
    "C42_lost_update_refuted",
    "C42_changes_partial",
    "C42_changes_succeed"
   ],
   "note": "False of the code: SetFanProfiles does not take the lock that SetFanProfile holds while it reads and writes back. Proved for any number of concurrent SetFanProfile, SetFanProfiles and SetSpeed calls: that is all that can be lost."
  },
  {
   "property": "C55",
   "status": "proved",
   "theorems": [
    "C55_wire_discipline"
   ],
   "note": ""
  },
  {
   "property": "C56",
   "status": "proved",
   "theorems": [
    "C56_profile_origin",
    "C56_comfort_origin",
    "C56_speed_origin"
   ],
   "note": ""
  },
  {
   "property": "C57",
   "status": "proved",
   "theorems": [
    "C57_no_panic"
   ],
   "note": ""
  },
  {
   "property": "C58",
   "status": "partial",
   "theorems": [
    "C58_no_race_partial",
    "C58_no_race_refuted"
   ],
   "note": "False of the code: the Set RPCs look at the caches without locking them. Proved for the getters and FlushCache."
  },
  {
   "property": "C44",
   "status": "proved",
   "theorems": [
    "C44_ranges",
    "C44_accepted",
    "C44_steps"
   ],
   "note": ""
  },
  {
   "property": "C59",
   "status": "partial",
   "theorems": [
    "C59_async_partial",
    "C59_async_fails",
    "C59_async_refuted"
   ],
   "note": "False of the code: __init__ stores no loop when one is passed or when none is running, so every async_ method raises AttributeError."
  },
  {
   "property": "C60",
   "status": "proved",
   "theorems": [
    "C60_getters",
    "C47_messages"
   ],
   "note": ""
  },
  {
   "property": "C61",
   "status": "proved",
   "theorems": [
    "C61_speed",
    "C61_step",
    "C61_profile",
    "C61_comfort"
   ],
   "note": ""
  },
  {
   "property": "C62",
   "status": "partial",
   "theorems": [
    "C62_ping_partial",
    "C62_ping_refuted"
   ],
   "note": "False of the code: GetBootInfo is answered from the server's cache. Proved: ping succeeds whenever the server answers."
  },
  {
   "property": "C63",
   "status": "partial",
   "theorems": [
    "C63_comfort_partial",
    "C63_comfort_refuted"
   ],
   "note": "False of the code: 108 to 255 are accepted by the client and fail in the server. Proved: that, and what is sent for 0 to 107."
  },
  {
   "property": "C48",
   "status": "proved",
   "theorems": [
    "C48_frames"
   ],
   "note": ""
  },
  {
   "property": "C64",
   "status": "proved",
   "theorems": [
    "C64_new_slices",
    "C64_new_packet"
   ],
   "note": ""
  },
  {
   "property": "C65",
   "status": "proved",
   "theorems": [
    "C65_called",
    "C65_calls_only",
    "C65_refused",
    "C65_refused_quietly"
   ],
   "note": "Content-Type headers of ASCII characters. The JSON decoder is a parameter."
  },
  {
   "property": "C66",
   "status": "proved",
   "theorems": [
    "C66_arguments"
   ],
   "note": "For protobuf bodies; the JSON decoder is a parameter."
  },
  {
   "property": "C67",
   "status": "proved",
   "theorems": [
    "C67_reply",
    "C67_unreadable",
    "C67_errors"
   ],
   "note": ""
  },
  {
   "property": "C68",
   "status": "proved",
   "theorems": [
    "C68_request",
    "C68_reply"
   ],
   "note": ""
  },
  {
   "property": "C69",
   "status": "partial",
   "theorems": [
    "C69_getters_partial",
    "C69_getters_refuted"
   ],
   "note": "False of the code: GetBootInfo fails with status 500 if the unit's name is not UTF-8. Proved for all other contents."
  },
  {
   "property": "C70",
   "status": "proved",
   "theorems": [
    "C70_same",
    "C70_methods"
   ],
   "note": ""
  },
  {
   "property": "C71",
   "status": "partial",
   "theorems": [
    "C71_modified_partial",
    "C71_history_partial",
    "C71_half_degree_refuted",
    "C71_below_zero_refuted"
   ],
   "note": "False of the code: a unit at 21.5 degrees is left there by SetComfortTemp(21), which succeeds; SetComfortTemp(251) succeeds on a unit at -5 degrees. Proved: if the reply says modified, the unit has the temperature; on a good line, after any history, it has it up to half a degree."
  },
  {
   "property": "C72",
   "status": "proved",
   "theorems": [
    "C72_temps_follow_unit"
   ],
   "note": "For a reliable line with readable packets (C08)."
  },
  {
   "property": "C73",
   "status": "proved",
   "theorems": [
    "C73_no_panic",
    "C73_no_deadlock",
    "C73_wire_discipline",
    "C73_refused",
    "C73_snapshot",
    "C73_refines"
   ],
   "note": "Content-Type headers of ASCII characters; the JSON decoder is a parameter. A name that is not UTF-8 gives status 500 (C69)."
  },
  {
   "property": "C74",
   "status": "proved",
   "theorems": [
    "C74_clients",
    "C74_speed"
   ],
   "note": "The two percentages may stem from different readings (C40)."
  },
  {
   "property": "C75",
   "status": "partial",
   "theorems": [
    "C75_linearizable_partial",
    "C75_monotone_partial",
    "C75_never_older",
    "C75_cache_partial",
    "C75_linearizable_refuted"
   ],
   "note": "False of the code: SetFanProfile fetches the profiles without storing them, so GetFanProfiles can answer with an older record than the latest fetch. Proved for all other caches, and for the profiles when no SetFanProfile is among the requests. In all cases a later getter never shows an older fetch (C75_never_older)."
  },
  {
   "property": "C76",
   "status": "proved",
   "theorems": [
    "C76_own_exchanges"
   ],
   "note": ""
  },
  {
   "property": "C77",
   "status": "proved",
   "theorems": [
    "C77_read_your_writes",
    "C77_read_after_flush"
   ],
   "note": ""
  },
  {
   "property": "C78",
   "status": "proved",
   "theorems": [
    "C78_conversation",
    "C78_unique",
    "C78_errors"
   ],
   "note": ""
  },
  {
   "property": "C79",
   "status": "proved",
   "theorems": [
    "C79_takes_effect"
   ],
   "note": ""
  },
  {
   "property": "C80",
   "status": "proved",
   "theorems": [
    "C80_shows_after",
    "C80_comfort",
    "C80_profile",
    "C80_speed",
    "C80_shows_flushed"
   ],
   "note": ""
  },
  {
   "property": "C81",
   "status": "proved",
   "theorems": [
    "C81_moment",
    "C81_order",
    "C81_started",
    "C81_fetched"
   ],
   "note": ""
  },
  {
   "property": "C82",
   "status": "proved",
   "theorems": [
    "C82_request",
    "C82_reply",
    "C82_errors",
    "C82_same"
   ],
   "note": "Base URLs with a host name and optionally a port and http or https; arguments and replies within the types of comfo.proto."
  },
  {
   "property": "C83",
   "status": "partial",
   "theorems": [
    "C83_path_partial",
    "C83_slash_refuted",
    "C83_no_scheme",
    "C83_scheme_refuted"
   ],
   "note": "False of the code: with a slash at the end of the base URL every call is redirected and fails; with host and port but no scheme no request is sent. Proved: what happens for all such URLs. URLs without path that have a scheme work (C82)."
  },
  {
   "property": "C84",
   "status": "proved",
   "theorems": [
    "C84_prefix"
   ],
   "note": ""
  },
  {
   "property": "C85",
   "status": "proved",
   "theorems": [
    "C85_responses"
   ],
   "note": ""
  },
  {
   "property": "C86",
   "status": "proved",
   "theorems": [
    "C86_settings",
    "C86_unique",
    "C86_bad"
   ],
   "note": "pflag and viper as transcribed in Main.v."
  },
  {
   "property": "C87",
   "status": "proved",
   "theorems": [
    "C87_order",
    "C87_started"
   ],
   "note": ""
  },
  {
   "property": "C88",
   "status": "proved",
   "theorems": [
    "C88_called",
    "C88_one_object",
    "C88_malformed"
   ],
   "note": "Content-Type headers of ASCII characters. encoding/json and protojson as transcribed in JsonScan.v and JsonRead.v."
  },
  {
   "property": "C89",
   "status": "proved",
   "theorems": [
    "C89_arguments"
   ],
   "note": ""
  },
  {
   "property": "C90",
   "status": "proved",
   "theorems": [
    "C90_order",
    "C90_unknown"
   ],
   "note": "Unknown members must be texts themselves, with nesting within the limit."
  },
  {
   "property": "C91",
   "status": "partial",
   "theorems": [
    "C91_strict_partial",
    "C91_trailing_refuted",
    "C91_number_refuted",
    "C91_cache_refuted"
   ],
   "note": "False of the code: what follows the object is ignored; the string 20 21 is read as 20; an unknown name of a cache flushes BootInfo and succeeds. Proved: if no field is given as a string, the call is what a strict reader makes of the object that the body begins with."
  },
  {
   "property": "C92",
   "status": "proved",
   "theorems": [
    "C92_object",
    "C92_fails",
    "C92_served"
   ],
   "note": "protojson as transcribed in JsonWrite.v. Temperatures are whole degrees, as C92_served needs no hypothesis for. FlushCache: see C93_reply."
  },
  {
   "property": "C93",
   "status": "proved",
   "theorems": [
    "C93_request",
    "C93_reply",
    "C93_errors",
    "C93_same",
    "C93_both"
   ],
   "note": "Base URLs as in C82. C93_same and C93_both are not about FlushCache, whose request and reply are in C93_request and C93_reply."
  },
  {
   "property": "C94",
   "status": "proved",
   "theorems": [
    "C94_clients"
   ],
   "note": "Device names that are UTF-8 (otherwise the error is internal, as stated)."
  },
  {
   "property": "C95",
   "status": "proved",
   "theorems": [
    "C95_says",
    "C95_unique",
    "C95_string",
    "C95_reply"
   ],
   "note": "time.Duration.String as transcribed in Duration.v."
  },
  {
   "property": "C96",
   "status": "proved",
   "theorems": [
    "C96_reads",
    "C96_responses"
   ],
   "note": "encoding/json for twerrJSON as transcribed in JsonError.v; the whole body is read before."
  },
  {
   "property": "C97",
   "status": "proved",
   "theorems": [
    "C97_written",
    "C97_arrives",
    "C97_same",
    "C97_code",
    "C97_text",
    "C97_one_text",
    "C97_order",
    "C97_has_order"
   ],
   "note": "Metadata whose keys are the same after replacement are one entry, hence NoDup in C97_arrives."
  },
  {
   "property": "C98",
   "status": "proved",
   "theorems": [
    "C98_unambiguous",
    "C98_appended"
   ],
   "note": "Encodings as SpecWire defines them (groups at most 10001 deep)."
  },
  {
   "property": "C99",
   "status": "proved",
   "theorems": [
    "C99_go",
    "C99_python",
    "C99_unique"
   ],
   "note": "The descriptors are constants taken from the code by tools/gendesc.py; comfo_proto is comfo.proto by hand."
  },
  {
   "property": "C100",
   "status": "proved",
   "theorems": [
    "C100_routes",
    "C100_methods",
    "C100_caches",
    "C100_go",
    "C100_python",
    "C100_python_server"
   ],
   "note": "Tables taken from the generated code by tools/gendesc.py."
  },
  {
   "property": "C101",
   "status": "proved",
   "theorems": [
    "C101_coarse",
    "C101_fine",
    "C101_one_inside",
    "C101_no_deadlock"
   ],
   "note": "Small steps: each call of ScanTimeout, each event on the connection, each result of a scan, and for Write the call, the transfer and the return."
  },
  {
   "property": "C102",
   "status": "proved",
   "theorems": [
    "C102_named",
    "C102_sent"
   ],
   "note": "FlushCache, which rejects nothing and waits for the goroutines of the caches, is excluded. The errors of the connection have any text."
  },
  {
   "property": "C103",
   "status": "partial",
   "theorems": [
    "C103_value_partial",
    "C103_value_refuted",
    "C103_down_refuted",
    "C103_modulo"
   ],
   "note": "Proved for speeds 0 to 255. Refuted beyond: Abs=261 gives '5', down from cached mode 0 gives '255'."
  },
  {
   "property": "C104",
   "status": "proved",
   "theorems": [
    "C104_known",
    "C104_distinct",
    "C104_all",
    "C104_io"
   ],
   "note": "Texts of errors of the connection are a parameter."
  },
  {
   "property": "C105",
   "status": "proved",
   "theorems": [
    "C105_refused",
    "C105_called"
   ],
   "note": "Content types in ASCII, as in C65. strconv.IsPrint beyond ASCII is a parameter. Paths that http.ServeMux answers (404 in plain text, redirects) are in C107."
  },
  {
   "property": "C106",
   "status": "proved",
   "theorems": [
    "C106_literal",
    "C106_unique"
   ],
   "note": "strconv.Quote as transcribed in ErrorText.v; literals as the Go specification defines them, without the octal escapes."
  },
  {
   "property": "C107",
   "status": "proved",
   "theorems": [
    "C107_told",
    "C107_code"
   ],
   "note": "Status of three digits; http.StatusText is a parameter."
  },
  {
   "property": "C108",
   "status": "proved",
   "theorems": [
    "C108_same",
    "C108_exact",
    "C108_refused",
    "C108_elsewhere",
    "C108_told"
   ],
   "note": "A reader that fails after some bytes; when the response is not written any more the client sees C110."
  },
  {
   "property": "C109",
   "status": "partial",
   "theorems": [
    "C109_protobuf_partial",
    "C109_json_refuted"
   ],
   "note": "True of protobuf requests; refuted for JSON by an object followed by a missing blank."
  },
  {
   "property": "C110",
   "status": "proved",
   "theorems": [
    "C110_reply",
    "C110_json_reply",
    "C110_error",
    "C110_json_error",
    "C110_sent",
    "C110_json_sent"
   ],
   "note": "http.Client is any function from the request to an error or a response; texts of errors of other packages are parameters. No hooks, interceptors or custom headers."
  },
  {
   "property": "C111",
   "status": "proved",
   "theorems": [
    "C111_json",
    "C111_protobuf"
   ],
   "note": "Responses of status 200; others are in C110_error."
  },
  {
   "property": "C112",
   "status": "proved",
   "theorems": [
    "C112_lines",
    "C112_unique",
    "C112_grows",
    "C112_newline",
    "C112_says"
   ],
   "note": "slog's text handler as transcribed in Log.v. Years of four digits; zones of whole minutes; unicode.IsPrint and IsSpace beyond ASCII are parameters."
  },
  {
   "property": "C113",
   "status": "proved",
   "theorems": [
    "C113_refresh",
    "C113_rpc",
    "C113_profile",
    "C113_flush",
    "C113_tick",
    "C113_start",
    "C113_unique",
    "C113_bytes",
    "C113_same",
    "C113_run"
   ],
   "note": "One operation at a time. Errors of set commands, and of the query with which SetFanProfile begins, go to the client and are not logged."
  },
  {
   "property": "C114",
   "status": "proved",
   "theorems": [
    "C114_recorded",
    "C114_other",
    "C114_shown"
   ],
   "note": "Times up to 2^63-1 ns, longer ones are cut. The request's URI is any string."
  },
  {
   "property": "C115",
   "status": "proved",
   "theorems": [
    "C115_recounts",
    "C115_unique",
    "C115_ends",
    "C115_silent",
    "C115_debug"
   ],
   "note": "Texts of the errors of net.Dial, serial.OpenPort and ListenAndServe are parameters."
  },
  {
   "property": "C116",
   "status": "proved",
   "theorems": [
    "C116_descriptor",
    "C116_describes",
    "C116_service",
    "C116_unique"
   ],
   "note": "gzip files of one member without flags; RFC 1951 as a relation in SpecGzip.v."
  },
  {
   "property": "C117",
   "status": "proved",
   "theorems": [
    "C117_shows",
    "C117_unique"
   ],
   "note": "The verbs %x and %v as transcribed in PacketText.v."
  },
  {
   "property": "C118",
   "status": "proved",
   "theorems": [
    "C118_request",
    "C118_longest",
    "C118_flush",
    "C118_worker",
    "C118_everyone",
    "C118_http"
   ],
   "note": "Counted are ReadPacket (its timer) and time.Sleep; not conn.Write, computing, and waiting for other goroutines."
  },
  {
   "property": "C119",
   "status": "partial",
   "theorems": [
    "C119_room_partial",
    "C119_room_refuted"
   ],
   "note": "True of all requests but SetFanSpeed and FlushCache of all caches; refuted for these two."
  },
  {
   "property": "C120",
   "status": "proved",
   "theorems": [
    "C120_frozen",
    "C120_getters",
    "C120_profile",
    "C120_log"
   ],
   "note": "From a server whose worker waits and in which no request is half done."
  },
  {
   "property": "C121",
   "status": "partial",
   "theorems": [
    "C121_no_change_partial",
    "C121_no_change_refuted"
   ],
   "note": "Proved if queries time out or writes fail; refuted for a unit that closes the connection while writes succeed."
  },
  {
   "property": "C122",
   "status": "proved",
   "theorems": [
    "C122_one_by_one",
    "C122_all"
   ],
   "note": "Healthy unit in the sense of SpecUnit.v; requests come after StartCaches, as in comfo.go; all requests for a speed that began are answered."
  },
  {
   "property": "C123",
   "status": "partial",
   "theorems": [
    "C123_up_partial",
    "C123_down_partial",
    "C123_up_refuted"
   ],
   "note": "Proved if no answer is ErrSetPollFailed; refuted for a unit whose fans do not show its speed."
  },
  {
   "property": "C124",
   "status": "proved",
   "theorems": [
    "C124_one_by_one",
    "C124_last",
    "C124_all"
   ],
   "note": "Healthy unit in the sense of SpecUnit.v; requests come after StartCaches, as in comfo.go. The percentage is that of the supply fan, the one the server compares and reports."
  },
  {
   "property": "C125",
   "status": "partial",
   "theorems": [
    "C125_in_order_partial",
    "C125_replaced_refuted",
    "C125_unchanged_refuted"
   ],
   "note": "Proved but for what each is told it replaced, which is false of the code. Healthy unit in the sense of SpecUnit.v, first set to 0 degrees or more; requests come after StartCaches, as in comfo.go."
  },
  {
   "property": "C126",
   "status": "proved",
   "theorems": [
    "C126_records",
    "C126_same"
   ],
   "note": "SetFanProfile's own reading of the profiles is not a refresh: its failure is the client's answer. The order of the records of different goroutines among each other is not modelled."
  },
  {
   "property": "C127",
   "status": "partial",
   "theorems": [
    "C127_profile_partial",
    "C127_speed_partial",
    "C127_speed_once_partial",
    "C127_comfort_refuted"
   ],
   "note": "Proved for profiles and speeds; refuted for comfort temperatures. Healthy unit in the sense of SpecUnit.v; requests come after StartCaches, as in comfo.go."
  },
  {
   "property": "C128",
   "status": "proved",
   "theorems": [
    "C128_turns",
    "C128_last"
   ],
   "note": "Healthy unit in the sense of SpecUnit.v; requests come after StartCaches, as in comfo.go."
  },
  {
   "property": "C129",
   "status": "proved",
   "theorems": [
    "C129_read",
    "C129_query",
    "C129_data",
    "C129_set"
   ],
   "note": "Where the timer may expire among the bytes of a reply (Expire), only for queries without data."
  },
  {
   "property": "C130",
   "status": "proved",
   "theorems": [
    "C130_true",
    "C130_raises",
    "C130_get",
    "C130_comfort",
    "C130_profile",
    "C130_speed"
   ],
   "note": "Replies that arrive; a client whose reply is lost is told nothing."
  },
  {
   "property": "C131",
   "status": "proved",
   "theorems": [
    "C131_life",
    "C131_guarded",
    "C131_once",
    "C131_intercepted",
    "C131_refused",
    "C131_refused_routed",
    "C131_reply",
    "C131_status",
    "C131_inert",
    "C131_pass_on",
    "C131_own",
    "C131_prepared_then_error"
   ],
   "note": "Hooks that panic are not modelled. ResponsePrepared is called before the reply is encoded, so an error may follow it (C131_prepared_then_error)."
  },
  {
   "property": "C132",
   "status": "proved",
   "theorems": [
    "C132_errand",
    "C132_errands",
    "C132_asked",
    "C132_intercepted",
    "C132_refused",
    "C132_sent",
    "C132_typed",
    "C132_plain",
    "C132_pass_on",
    "C132_wrapped"
   ],
   "note": "Request headers set by the caller are in C137; panicking hooks of servers are in C138, those of clients in C141."
  },
  {
   "property": "C133",
   "status": "proved",
   "theorems": [
    "C133_set",
    "C133_fails",
    "C133_bad",
    "C133_get",
    "C133_flush",
    "C133_comfort",
    "C133_profile",
    "C133_speed"
   ],
   "note": "Replies that arrive; base URLs as in C82."
  },
  {
   "property": "C134",
   "status": "proved",
   "theorems": [
    "C134_nothing",
    "C134_unsent",
    "C134_unsent_json",
    "C134_sent",
    "C134_sent_json"
   ],
   "note": "URLs of the characters that are not escaped in paths (and control characters)."
  },
  {
   "property": "C135",
   "status": "partial",
   "theorems": [
    "C135_meet_partial",
    "C135_announced",
    "C135_same_refuted"
   ],
   "note": "False as stated: the client cleans its prefix, the server compares with its own as given. Exact: which prefixes meet; the others get 404 with bad_route. Prefixes of unescaped characters."
  },
  {
   "property": "C136",
   "status": "proved",
   "theorems": [
    "C136_object",
    "C136_fails",
    "C136_reply",
    "C136_same"
   ],
   "note": "A unit that does not time the reply out (reads_well), as C93."
  },
  {
   "property": "C137",
   "status": "partial",
   "theorems": [
    "C137_request",
    "C137_apart",
    "C137_received_partial",
    "C137_received",
    "C137_received_refuted"
   ],
   "note": "False as stated, exact in C137_received: of two spellings of a name the server takes the one that comes first in the order of bytes. net/http as written in Headers.v; names and values that it refuses are not modelled."
  },
  {
   "property": "C138",
   "status": "partial",
   "theorems": [
    "C138_answered_partial",
    "C138_answered_refuted",
    "C138_code_refuted",
    "C138_cut",
    "C138_calm",
    "C138_done",
    "C138_alone",
    "C138_alone_unknown",
    "C138_own"
   ],
   "note": "True of panics in the service and in interceptors; false of panics in hooks, and of errors with codes Twirp does not know. C138_cut says exactly what happens in every case."
  },
  {
   "property": "C139",
   "status": "partial",
   "theorems": [
    "C139_device_partial",
    "C139_device_refuted",
    "C139_device",
    "C139_set",
    "C139_only",
    "C139_ignored"
   ],
   "note": "False as stated: the program does not look at COMFO_USB_DEVICE. True only of the device that is the default anyway."
  },
  {
   "property": "C140",
   "status": "proved",
   "theorems": [
    "C140_usage",
    "C140_status",
    "C140_never_zero",
    "C140_told",
    "C140_runs"
   ],
   "note": "Until ListenAndServe returns; signals are not modelled. Status 2 is that of pflag v1.0.5."
  },
  {
   "property": "C141",
   "status": "proved",
   "theorems": [
    "C141_cut",
    "C141_calm",
    "C141_before",
    "C141_intercepted"
   ],
   "note": "Nothing is recovered but by interceptors; the deferred closing of a body is not modelled."
  },
  {
   "property": "C142",
   "status": "proved",
   "theorems": [
    "C142_error",
    "C142_refusal",
    "C142_reply",
    "C142_json_reply",
    "C142_no_code"
   ],
   "note": "Without an interceptor at the client (C132 has what one makes of a result), and over a connection that does not fail (C108). C142_no_code: an error whose code is empty does not arrive, as it is written with the status 200."
  }
 ]
}