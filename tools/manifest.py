#!/usr/bin/env python3
"""Writes MANIFEST.json from the table below."""
import json, os
C = []
def claim(p, status, theorems, note=""):
    C.append({"property": p, "status": status, "theorems": theorems, "note": note})

claim("C01", "proved", ["C01_round_trip"])
claim("C02", "proved", ["C02_wire_format"])
claim("C03", "proved", ["C03_unmarshal_exact"])
claim("C04", "proved", ["C04_escaping_lossless"])
claim("C05", "proved", ["C05_checksum_formula", "C05_checksum_single_difference"])
claim("C06", "proved", ["C06_corruption_detected"])
claim("C07", "proved", ["C07_reply_exact_or_rejected"])
claim("C08", "partial", ["C08_readable_partial", "C08_unreadable_refuted"],
      "False of the code: a payload with 7 before 15, 240 or 243 is never readable. Proved for all other payloads.")
claim("C09", "proved", ["C09_chunking_irrelevant"])
claim("C10", "proved", ["C10_read_total"])
claim("C11", "partial", ["C11_query_partial", "C11_query_refuted", "C11_getters"],
      "False for arbitrary payloads (a corrupted byte can form a frame start or an escape). Proved for payloads of the lengths all getters accept, and for QueryPacket under an explicit side condition.")
claim("C12", "proved", ["C12_query_on_the_wire"])
claim("C13", "proved", ["C13_success_has_matching_reply"], "For request commands other than 255; the code sends none.")
claim("C14", "partial", ["C14_set_saw_control_sequence_partial", "C14_no_ack_refuted"],
      "False of the code: end of file or a lone frame end also counts as ACK (C129_set gives the exact condition). Proved: a calm line delivered some control sequence first.")
claim("C15", "partial", ["C15_own_reply_partial", "C15_never_heard_again", "C15_after_timeout_refuted"],
      "False of the code: the reader left behind by a timeout swallows the next reply, for ever. Proved on a line no reader is left on.")
claim("C16", "proved", ["C16_speed", "C16_comfort", "C16_profile"])
claim("C17", "proved", ["C17_temperature"])
claim("C18", "proved", ["C18_temps", "C18_bypass", "C18_hours", "C18_fans", "C18_profiles", "C18_errors", "C18_boot"])
claim("C19", "partial", ["C19_rpm_partial", "C19_rpm_refuted", "C19_modulo"], "False for raw values 1 to 28, where the quotient is truncated to 16 bits; C19_modulo is what is reported for all.")
claim("C20", "proved", ["C20_getters"])
claim("C21", "proved", ["C21_profile_set"], "For percentages the unit accepts (from lo on; take lo = 0 for all).")
claim("C22", "proved", ["C22_table", "C22_numbering"])
claim("C30", "partial", ["C30_speed_partial", "C30_modified_partial", "C30_speed_refuted"],
      "False of the code: after a failed poll the cached mode is out of date and the next SetFanSpeed to it does nothing. Proved for histories without a failed poll, and whenever the reply says that the speed was changed.")
claim("C31", "partial", ["C31_profile_partial", "C31_in_percent_partial", "C31_profile_refuted"],
      "False of the code: only the in percentage is compared before the write is skipped. Proved whenever the reply says that the profile was changed; otherwise for the in percentage.")
claim("C46", "proved", ["C46_name_trimmed", "C46_boot_name"])

claim("C23", "proved", ["C23_getters_serve_last"])
claim("C24", "proved", ["C24_failed_refresh"])
claim("C25", "proved", ["C25_refresh_decision"])
claim("C26", "partial", ["C26_comfort_partial", "C26_negative_refuted", "C26_any"],
      "Proved for a cached comfort temperature of 0 to 107 degrees; with a negative one the reply shows a wrapped original temperature.")
claim("C27", "proved", ["C27_speed_requests", "C51_permitted_requests"])
claim("C28", "partial", ["C28_abs_partial", "C28_abs_refuted", "C28_modulo", "C28_zero"], "False for Abs above 255, which is truncated to 8 bits before the check. Proved up to 255; C28_modulo and C28_zero say what happens above.")
claim("C29", "partial", ["C29_profile_range_partial", "C29_profile_range_refuted", "C29_modulo", "C29_target"], "False for arguments above 255, which are truncated to 8 bits before the check. Proved up to 255, with the complete behaviour for accepted arguments; C29_modulo and C29_target say what happens above.")
claim("C32", "proved", ["C32_polling"])
claim("C33", "proved", ["C33_no_lock_leaked", "C24_failed_refresh"])
claim("C34", "proved", ["C34_flush"])
claim("C35", "partial", ["C35_flush_partial", "C35_flush_refuted"], "False of the code: Success is reported even if the query failed. Proved: whenever the reply was accepted the cache is fresh.")
claim("C43", "proved", ["C43_staleness"])
claim("C45", "partial", ["C45_poll_failure_partial", "C45_reply_never_sent", "C45_poll_failure_refuted"],
      "False of the code: the handler returns the error, but only after the HTTP server's write timeout of 5 s has passed.")
claim("C47", "proved", ["C47_messages", "C47_messages_differ"])
claim("C49", "proved", ["C49_ticks", "C49_start", "C49_no_hours", "C51_permitted_requests"])
claim("C50", "partial", ["C50_poll_lock_refuted", "C32_polling"], "False for speeds outside 1-4 (the error path returns with the read lock held); C32_polling shows no lock is held otherwise.")
claim("C51", "proved", ["C51_permitted_requests"])
claim("C52", "proved", ["C52_in_turn", "C52_any_order"], "C52_any_order: when the kernel and the scheduler may serve any of the readers, the same with the order they choose.")
claim("C53", "proved", ["C53_leftovers_bounded"])
claim("C54", "proved", ["C54_cache_follows_unit"])

claim("C36", "proved", ["C36_flush_pairing", "C36_flush_answers"])
claim("C37", "proved", ["C37_no_deadlock"])
claim("C38", "proved", ["C38_calls_serialised", "C55_wire_discipline"])
claim("C39", "proved", ["C39_snapshot"])
claim("C40", "partial", ["C40_poll_partial", "C40_poll_refuted"],
      "False of the code: UpdatePoll reads the two percentages without the lock. Proved: each of them is that of some fetched reading.")
claim("C41", "proved", ["C41_profiles_serialised", "C41_profile_effect"])
claim("C42", "partial", ["C42_lost_update_refuted", "C42_changes_partial", "C42_changes_succeed"],
      "False of the code: SetFanProfiles does not take the lock that SetFanProfile holds while it reads and writes back. Proved for any number of concurrent SetFanProfile, SetFanProfiles and SetSpeed calls: that is all that can be lost.")
claim("C55", "proved", ["C55_wire_discipline"])
claim("C56", "proved", ["C56_profile_origin", "C56_comfort_origin", "C56_speed_origin"])
claim("C57", "proved", ["C57_no_panic"])
claim("C58", "partial", ["C58_no_race_partial", "C58_no_race_refuted"],
      "False of the code: the Set RPCs look at the caches without locking them. Proved for the getters and FlushCache.")

claim("C44", "proved", ["C44_ranges", "C44_accepted", "C44_steps"])
claim("C59", "partial", ["C59_async_partial", "C59_async_fails", "C59_async_refuted"],
      "False of the code: __init__ stores no loop when one is passed or when none is running, so every async_ method raises AttributeError.")
claim("C60", "proved", ["C60_getters", "C47_messages"])
claim("C61", "proved", ["C61_speed", "C61_step", "C61_profile", "C61_comfort"])
claim("C62", "partial", ["C62_ping_partial", "C62_ping_refuted"],
      "False of the code: GetBootInfo is answered from the server's cache. Proved: ping succeeds whenever the server answers.")
claim("C63", "partial", ["C63_comfort_partial", "C63_comfort_refuted"],
      "False of the code: 108 to 255 are accepted by the client and fail in the server. Proved: that, and what is sent for 0 to 107.")

claim("C48", "proved", ["C48_frames"])
claim("C64", "proved", ["C64_new_slices", "C64_new_packet"])

claim("C65", "proved", ["C65_called", "C65_calls_only", "C65_refused", "C65_refused_quietly"],
      "Content-Type headers of ASCII characters. The JSON decoder is a parameter.")
claim("C66", "proved", ["C66_arguments"], "For protobuf bodies; the JSON decoder is a parameter.")
claim("C67", "proved", ["C67_reply", "C67_unreadable", "C67_errors"])
claim("C68", "proved", ["C68_request", "C68_reply"])
claim("C69", "partial", ["C69_getters_partial", "C69_getters_refuted"],
      "False of the code: GetBootInfo fails with status 500 if the unit's name is not UTF-8. Proved for all other contents.")
claim("C70", "proved", ["C70_same", "C70_methods"])
claim("C71", "partial", ["C71_modified_partial", "C71_history_partial", "C71_half_degree_refuted", "C71_below_zero_refuted"],
      "False of the code: a unit at 21.5 degrees is left there by SetComfortTemp(21), which succeeds; SetComfortTemp(251) succeeds on a unit at -5 degrees. Proved: if the reply says modified, the unit has the temperature; on a good line, after any history, it has it up to half a degree.")
claim("C72", "proved", ["C72_temps_follow_unit"], "For a reliable line with readable packets (C08).")
claim("C73", "proved", ["C73_no_panic", "C73_no_deadlock", "C73_wire_discipline", "C73_refused", "C73_snapshot", "C73_refines"],
      "Content-Type headers of ASCII characters; the JSON decoder is a parameter. A name that is not UTF-8 gives status 500 (C69).")
claim("C74", "proved", ["C74_clients", "C74_speed"], "The two percentages may stem from different readings (C40).")
claim("C75", "partial", ["C75_linearizable_partial", "C75_monotone_partial", "C75_never_older", "C75_cache_partial", "C75_linearizable_refuted"],
      "False of the code: SetFanProfile fetches the profiles without storing them, so GetFanProfiles can answer with an older record than the latest fetch. Proved for all other caches, and for the profiles when no SetFanProfile is among the requests. In all cases a later getter never shows an older fetch (C75_never_older).")
claim("C76", "proved", ["C76_own_exchanges"])
claim("C77", "proved", ["C77_read_your_writes", "C77_read_after_flush"])
claim("C78", "proved", ["C78_conversation", "C78_unique", "C78_errors"])
claim("C79", "proved", ["C79_takes_effect"])
claim("C80", "proved", ["C80_shows_after", "C80_comfort", "C80_profile", "C80_speed", "C80_shows_flushed"])
claim("C81", "proved", ["C81_moment", "C81_order", "C81_started", "C81_fetched"])
claim("C82", "proved", ["C82_request", "C82_reply", "C82_errors", "C82_same"],
      "Base URLs with a host name and optionally a port and http or https; arguments and replies within the types of comfo.proto.")
claim("C83", "partial", ["C83_path_partial", "C83_slash_refuted", "C83_no_scheme", "C83_scheme_refuted"],
      "False of the code: with a slash at the end of the base URL every call is redirected and fails; with host and port but no scheme no request is sent. Proved: what happens for all such URLs. URLs without path that have a scheme work (C82).")
claim("C84", "proved", ["C84_prefix"])
claim("C85", "proved", ["C85_responses"])
claim("C86", "proved", ["C86_settings", "C86_unique", "C86_bad"], "pflag and viper as transcribed in Main.v.")
claim("C87", "proved", ["C87_order", "C87_started"])
claim("C88", "proved", ["C88_called", "C88_one_object", "C88_malformed"],
      "Content-Type headers of ASCII characters. encoding/json and protojson as transcribed in JsonScan.v and JsonRead.v.")
claim("C89", "proved", ["C89_arguments"])
claim("C90", "proved", ["C90_order", "C90_unknown"], "Unknown members must be texts themselves, with nesting within the limit.")
claim("C91", "partial", ["C91_strict_partial", "C91_trailing_refuted", "C91_number_refuted", "C91_cache_refuted"],
      "False of the code: what follows the object is ignored; the string 20 21 is read as 20; an unknown name of a cache flushes BootInfo and succeeds. Proved: if no field is given as a string, the call is what a strict reader makes of the object that the body begins with.")
claim("C92", "proved", ["C92_object", "C92_fails", "C92_served"],
      "protojson as transcribed in JsonWrite.v. Temperatures are whole degrees, as C92_served needs no hypothesis for. FlushCache: see C93_reply.")
claim("C93", "proved", ["C93_request", "C93_reply", "C93_errors", "C93_same", "C93_both"],
      "Base URLs as in C82. C93_same and C93_both are not about FlushCache, whose request and reply are in C93_request and C93_reply.")
claim("C94", "proved", ["C94_clients"], "Device names that are UTF-8 (otherwise the error is internal, as stated).")
claim("C95", "proved", ["C95_says", "C95_unique", "C95_string", "C95_reply"], "time.Duration.String as transcribed in Duration.v.")
claim("C96", "proved", ["C96_reads", "C96_responses"], "encoding/json for twerrJSON as transcribed in JsonError.v; the whole body is read before.")
claim("C97", "proved", ["C97_written", "C97_arrives", "C97_same", "C97_code", "C97_text", "C97_one_text", "C97_order", "C97_has_order"], "Metadata whose keys are the same after replacement are one entry, hence NoDup in C97_arrives.")
claim("C98", "proved", ["C98_unambiguous", "C98_appended"], "Encodings as SpecWire defines them (groups at most 10001 deep).")
claim("C99", "proved", ["C99_go", "C99_python", "C99_unique"], "The descriptors are constants taken from the code by tools/gendesc.py; comfo_proto is comfo.proto by hand.")
claim("C100", "proved", ["C100_routes", "C100_methods", "C100_caches", "C100_go", "C100_python", "C100_python_server"], "Tables taken from the generated code by tools/gendesc.py.")
claim("C101", "proved", ["C101_coarse", "C101_fine", "C101_one_inside", "C101_no_deadlock"], "Small steps: each call of ScanTimeout, each event on the connection, each result of a scan, and for Write the call, the transfer and the return.")
claim("C102", "proved", ["C102_named", "C102_sent"], "FlushCache, which rejects nothing and waits for the goroutines of the caches, is excluded. The errors of the connection have any text.")
claim("C103", "partial", ["C103_value_partial", "C103_value_refuted", "C103_down_refuted", "C103_modulo"], "Proved for speeds 0 to 255. Refuted beyond: Abs=261 gives '5', down from cached mode 0 gives '255'.")
claim("C104", "proved", ["C104_known", "C104_distinct", "C104_all", "C104_io"], "Texts of errors of the connection are a parameter.")
claim("C105", "proved", ["C105_refused", "C105_called"], "Content types in ASCII, as in C65. strconv.IsPrint beyond ASCII is a parameter. Paths that http.ServeMux answers (404 in plain text, redirects) are in C107.")
claim("C106", "proved", ["C106_literal", "C106_unique"], "strconv.Quote as transcribed in ErrorText.v; literals as the Go specification defines them, without the octal escapes.")
claim("C107", "proved", ["C107_told", "C107_code"], "Status of three digits; http.StatusText is a parameter.")
claim("C108", "proved", ["C108_same", "C108_exact", "C108_refused", "C108_elsewhere", "C108_told"], "A reader that fails after some bytes; when the response is not written any more the client sees C110.")
claim("C109", "partial", ["C109_protobuf_partial", "C109_json_refuted"], "True of protobuf requests; refuted for JSON by an object followed by a missing blank.")
claim("C110", "proved", ["C110_reply", "C110_json_reply", "C110_error", "C110_json_error", "C110_sent", "C110_json_sent"], "http.Client is any function from the request to an error or a response; texts of errors of other packages are parameters. No hooks, interceptors or custom headers.")
claim("C111", "proved", ["C111_json", "C111_protobuf"], "Responses of status 200; others are in C110_error.")
claim("C112", "proved", ["C112_lines", "C112_unique", "C112_grows", "C112_newline", "C112_says"], "slog's text handler as transcribed in Log.v. Years of four digits; zones of whole minutes; unicode.IsPrint and IsSpace beyond ASCII are parameters.")
claim("C113", "proved", ["C113_refresh", "C113_rpc", "C113_profile", "C113_flush", "C113_tick", "C113_start", "C113_unique", "C113_bytes", "C113_same", "C113_run"], "One operation at a time. Errors of set commands, and of the query with which SetFanProfile begins, go to the client and are not logged.")
claim("C114", "proved", ["C114_recorded", "C114_other", "C114_shown"], "Times up to 2^63-1 ns, longer ones are cut. The request's URI is any string.")
claim("C115", "proved", ["C115_recounts", "C115_unique", "C115_ends", "C115_silent", "C115_debug"], "Texts of the errors of net.Dial, serial.OpenPort and ListenAndServe are parameters.")
claim("C116", "proved", ["C116_descriptor", "C116_describes", "C116_service", "C116_unique"], "gzip files of one member without flags; RFC 1951 as a relation in SpecGzip.v.")
claim("C117", "proved", ["C117_shows", "C117_unique"], "The verbs %x and %v as transcribed in PacketText.v.")
claim("C118", "proved", ["C118_request", "C118_longest", "C118_flush", "C118_worker", "C118_everyone", "C118_http"], "Counted are ReadPacket (its timer) and time.Sleep; not conn.Write, computing, and waiting for other goroutines.")
claim("C119", "partial", ["C119_room_partial", "C119_room_refuted"], "True of all requests but SetFanSpeed and FlushCache of all caches; refuted for these two.")
claim("C120", "proved", ["C120_frozen", "C120_getters", "C120_profile", "C120_log"], "From a server whose worker waits and in which no request is half done.")
claim("C121", "partial", ["C121_no_change_partial", "C121_no_change_refuted"], "Proved if queries time out or writes fail; refuted for a unit that closes the connection while writes succeed.")
claim("C122", "proved", ["C122_one_by_one", "C122_all"], "Healthy unit in the sense of SpecUnit.v; requests come after StartCaches, as in comfo.go; all requests for a speed that began are answered.")
claim("C123", "partial", ["C123_up_partial", "C123_down_partial", "C123_up_refuted"], "Proved if no answer is ErrSetPollFailed; refuted for a unit whose fans do not show its speed.")
claim("C124", "proved", ["C124_one_by_one", "C124_last", "C124_all"], "Healthy unit in the sense of SpecUnit.v; requests come after StartCaches, as in comfo.go. The percentage is that of the supply fan, the one the server compares and reports.")
claim("C125", "partial", ["C125_in_order_partial", "C125_replaced_refuted", "C125_unchanged_refuted"], "Proved but for what each is told it replaced, which is false of the code. Healthy unit in the sense of SpecUnit.v, first set to 0 degrees or more; requests come after StartCaches, as in comfo.go.")
claim("C126", "proved", ["C126_records", "C126_same"], "SetFanProfile's own reading of the profiles is not a refresh: its failure is the client's answer. The order of the records of different goroutines among each other is not modelled.")
claim("C127", "partial", ["C127_profile_partial", "C127_speed_partial", "C127_speed_once_partial", "C127_comfort_refuted"], "Proved for profiles and speeds; refuted for comfort temperatures. Healthy unit in the sense of SpecUnit.v; requests come after StartCaches, as in comfo.go.")
claim("C128", "proved", ["C128_turns", "C128_last"], "Healthy unit in the sense of SpecUnit.v; requests come after StartCaches, as in comfo.go.")
claim("C129", "proved", ["C129_read", "C129_query", "C129_data", "C129_set"], "Where the timer may expire among the bytes of a reply (Expire), only for queries without data.")
claim("C130", "proved", ["C130_true", "C130_raises", "C130_get", "C130_comfort", "C130_profile", "C130_speed"], "Replies that arrive; a client whose reply is lost is told nothing.")
claim("C131", "proved", ["C131_life", "C131_guarded", "C131_once", "C131_intercepted", "C131_refused", "C131_refused_routed", "C131_reply", "C131_status", "C131_inert", "C131_pass_on", "C131_own", "C131_prepared_then_error"], "Hooks that panic are not modelled. ResponsePrepared is called before the reply is encoded, so an error may follow it (C131_prepared_then_error).")
claim("C132", "proved", ["C132_errand", "C132_errands", "C132_asked", "C132_intercepted", "C132_refused", "C132_sent", "C132_typed", "C132_plain", "C132_pass_on", "C132_wrapped"], "Request headers set by the caller are in C137; panicking hooks of servers are in C138, those of clients in C141.")
claim("C133", "proved", ["C133_set", "C133_fails", "C133_bad", "C133_get", "C133_flush", "C133_comfort", "C133_profile", "C133_speed"], "Replies that arrive; base URLs as in C82.")
claim("C134", "proved", ["C134_nothing", "C134_unsent", "C134_unsent_json", "C134_sent", "C134_sent_json"], "URLs of the characters that are not escaped in paths (and control characters).")
claim("C135", "partial", ["C135_meet_partial", "C135_announced", "C135_same_refuted"], "False as stated: the client cleans its prefix, the server compares with its own as given. Exact: which prefixes meet; the others get 404 with bad_route. Prefixes of unescaped characters.")
claim("C136", "proved", ["C136_object", "C136_fails", "C136_reply", "C136_same"], "A unit that does not time the reply out (reads_well), as C93.")
claim("C137", "partial", ["C137_request", "C137_apart", "C137_received_partial", "C137_received", "C137_received_refuted"], "False as stated, exact in C137_received: of two spellings of a name the server takes the one that comes first in the order of bytes. net/http as written in Headers.v; names and values that it refuses are not modelled.")
claim("C138", "partial", ["C138_answered_partial", "C138_answered_refuted", "C138_code_refuted", "C138_cut", "C138_calm", "C138_done", "C138_alone", "C138_alone_unknown", "C138_own"], "True of panics in the service and in interceptors; false of panics in hooks, and of errors with codes Twirp does not know. C138_cut says exactly what happens in every case.")
claim("C139", "partial", ["C139_device_partial", "C139_device_refuted", "C139_device", "C139_set", "C139_only", "C139_ignored"], "False as stated: the program does not look at COMFO_USB_DEVICE. True only of the device that is the default anyway.")
claim("C140", "proved", ["C140_usage", "C140_status", "C140_never_zero", "C140_told", "C140_runs"], "Until ListenAndServe returns; signals are not modelled. Status 2 is that of pflag v1.0.5.")

claim("C141", "proved", ["C141_cut", "C141_calm", "C141_before", "C141_intercepted"], "Nothing is recovered but by interceptors; the deferred closing of a body is not modelled.")
claim("C142", "proved", ["C142_error", "C142_refusal", "C142_reply", "C142_json_reply", "C142_no_code"], "Without an interceptor at the client (C132 has what one makes of a result), and over a connection that does not fail (C108). C142_no_code: an error whose code is empty does not arrive, as it is written with the status 200.")

json.dump({"claims": C}, open(os.path.join(os.path.dirname(__file__), "..", "MANIFEST.json"), "w"), indent=1)
