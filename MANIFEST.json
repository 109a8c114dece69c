{
 "claims": [
  {
   "property": "C01",
   "status": "proved",
   "theorems": [
    "url_encode_decode_round_trip"
   ],
   "note": ""
  },
  {
   "property": "C02",
   "status": "proved",
   "theorems": [
    "url_encode_output_is_safe",
    "url_encode_follows_form"
   ],
   "note": ""
  },
  {
   "property": "C03",
   "status": "partial",
   "theorems": [
    "url_decode_follows_form_standard",
    "url_decode_rejects_truncated_refuted",
    "url_decode_rejects_truncated_partial",
    "url_decode_one_digit_escape"
   ],
   "note": "Well-formed input is decoded per the standard. The second half is false of the code: '%' plus one digit at the end is decoded, not rejected (refuted with witness, exact result proved); a lone '%' is rejected."
  },
  {
   "property": "C04",
   "status": "proved",
   "theorems": [
    "split_inverts_join",
    "split_keeping_delimiters",
    "split_pieces_unique"
   ],
   "note": ""
  },
  {
   "property": "C05",
   "status": "partial",
   "theorems": [
    "split_terminates_refuted",
    "split_empty_delimiter_never_ends",
    "split_terminates_partial"
   ],
   "note": "False for the empty delimiter (the loop never ends, proved for every fuel); proved for every non-empty delimiter."
  },
  {
   "property": "C06",
   "status": "proved",
   "theorems": [
    "wildcard_match_is_glob"
   ],
   "note": "Lengths are mathematical integers (code: int, so below 2^31)."
  },
  {
   "property": "C07",
   "status": "proved",
   "theorems": [
    "trie_get_returns_latest"
   ],
   "note": ""
  },
  {
   "property": "C08",
   "status": "partial",
   "theorems": [
    "trie_get_absent_refuted",
    "trie_get_absent_partial",
    "trie_get_exact"
   ],
   "note": "False of the code: a proper prefix of a stored key can be reported as present (witness: /hel after storing /hello). Proved: exactly which keys Get answers, and absence for keys that no stored key extends."
  },
  {
   "property": "C09",
   "status": "proved",
   "theorems": [
    "trie_search_visits_stored_prefixes"
   ],
   "note": "For ASCII queries (others are undefined behaviour, see C10)."
  },
  {
   "property": "C10",
   "status": "partial",
   "theorems": [
    "trie_total_refuted",
    "trie_non_ascii_is_undefined",
    "trie_ascii_is_safe_partial"
   ],
   "note": "False: every key starting with a byte >= 128 indexes the 128-entry child table out of bounds. Proved safe for ASCII keys."
  },
  {
   "property": "C11",
   "status": "proved",
   "theorems": [
    "trie_reset_forgets"
   ],
   "note": ""
  },
  {
   "property": "C12",
   "status": "partial",
   "theorems": [
    "route_parse_reads_url",
    "route_parse_total_partial",
    "route_parse_total_refuted"
   ],
   "note": "Proved for every target below 2 GiB. Beyond that the int variable holding the position overflows and Parse throws (refuted with witness shape)."
  },
  {
   "property": "C13",
   "status": "partial",
   "theorems": [
    "route_round_trip_refuted",
    "route_round_trip_amp_refuted",
    "route_round_trip_partial"
   ],
   "note": "False in general: the whole URL is encoded on output but not decoded on input, and '&' inside a value is not escaped. Proved exactly for plain paths and parameter names, and values without '&'."
  },
  {
   "property": "C14",
   "status": "proved",
   "theorems": [
    "header_get_returns_last_added"
   ],
   "note": ""
  },
  {
   "property": "C15",
   "status": "partial",
   "theorems": [
    "header_round_trip_refuted",
    "header_round_trip_partial",
    "header_parse_blank_value",
    "header_parse_reads_fields",
    "header_parse_never_crashes",
    "header_parse_stops_at_bad_line"
   ],
   "note": "Round trip is false for empty values, values with leading spaces, and names with ': ' or CRLF; proved for all others. What Parse does on any input is proved."
  },
  {
   "property": "C16",
   "status": "proved",
   "theorems": [
    "content_length_set_get",
    "content_length_missing",
    "content_length_non_numeric",
    "content_length_digits"
   ],
   "note": ""
  },
  {
   "property": "C17",
   "status": "proved",
   "theorems": [
    "cookie_lookup",
    "cookie_lookup_missing"
   ],
   "note": ""
  },
  {
   "property": "C18",
   "status": "partial",
   "theorems": [
    "every_cookie_delivered_partial",
    "every_cookie_delivered_refuted"
   ],
   "note": "False for two cookies of different names: one Set-Cookie line holds both (refuted). Proved for one cookie."
  },
  {
   "property": "C19",
   "status": "partial",
   "theorems": [
    "content_type_round_trip_partial",
    "content_type_round_trip_refuted",
    "custom_type_partial",
    "custom_type_refuted"
   ],
   "note": "Refuted: kCustom without a suffix comes back as another type, and a registration for a suffix the library knows itself is not used. Proved for all other types and suffixes."
  },
  {
   "property": "C78",
   "status": "partial",
   "theorems": [
    "header_names_case_insensitive_refuted"
   ],
   "note": "False of the code: names are compared byte by byte."
  },
  {
   "property": "C20",
   "status": "partial",
   "theorems": [
    "request_round_trip_refuted",
    "request_round_trip_partial"
   ],
   "note": "False in general because the path is encoded on output and not decoded on input (C13); proved for every request whose route survives printing, any sendable headers and any body."
  },
  {
   "property": "C21",
   "status": "partial",
   "theorems": [
    "request_parse_total_partial",
    "request_parse_total_refuted"
   ],
   "note": "Proved for every byte string below 2 GiB; a longer target with '?' throws (refuted)."
  },
  {
   "property": "C22",
   "status": "partial",
   "theorems": [
    "malformed_header_rejected_refuted",
    "malformed_header_hides_rest"
   ],
   "note": "False of the code: the header parser's verdict is tested with the wrong sign and ignored."
  },
  {
   "property": "C23",
   "status": "proved",
   "theorems": [
    "request_accepted_iff",
    "request_parse_reads"
   ],
   "note": "For inputs below 2 GiB (see C21)."
  },
  {
   "property": "C24",
   "status": "partial",
   "theorems": [
    "no_header_injection_refuted",
    "no_header_injection_partial",
    "response_no_header_injection_partial",
    "route_cannot_inject"
   ],
   "note": "False for header values containing CRLF (refuted); path and parameters can never inject (proved for all); header values without CRLF cannot (proved)."
  },
  {
   "property": "C25",
   "status": "partial",
   "theorems": [
    "content_length_correct_partial",
    "content_length_correct_refuted",
    "content_length_huge_body"
   ],
   "note": "Proved for bodies below 2 GiB; false from 2 GiB on (int overflow, refuted)."
  },
  {
   "property": "C26",
   "status": "partial",
   "theorems": [
    "response_round_trip_refuted",
    "response_round_trip_partial"
   ],
   "note": "False only for empty header values (refuted); proved for all others, any body."
  },
  {
   "property": "C27",
   "status": "partial",
   "theorems": [
    "response_parse_total_refuted",
    "response_parse_total_partial"
   ],
   "note": "Throws for exactly one text, CRLF."
  },
  {
   "property": "C28",
   "status": "partial",
   "theorems": [
    "response_without_headers_refuted",
    "response_without_headers_rejected"
   ],
   "note": "False: every response without headers is rejected (proved)."
  },
  {
   "property": "C29",
   "status": "proved",
   "theorems": [
    "response_build_fails_only_unset",
    "request_build_fails_only_unset"
   ],
   "note": ""
  },
  {
   "property": "C30",
   "status": "proved",
   "theorems": [
    "enumerations_convert",
    "status_numbers"
   ],
   "note": ""
  },
  {
   "property": "C80",
   "status": "partial",
   "theorems": [
    "parse_reuse_refuted",
    "parse_reuse_partial"
   ],
   "note": "False: old headers and parameters survive. The exact dependency is proved."
  },
  {
   "property": "C81",
   "status": "partial",
   "theorems": [
    "unterminated_rejected_refuted",
    "unterminated_accepted"
   ],
   "note": "False of the code; what is accepted is characterised."
  },
  {
   "property": "C82",
   "status": "proved",
   "theorems": [
    "response_accepted_iff"
   ],
   "note": ""
  },
  {
   "property": "C31",
   "status": "partial",
   "theorems": [
    "read_until_first_occurrence_partial",
    "read_until_succeeds_partial",
    "read_until_unfinished_partial",
    "read_until_first_occurrence_refuted"
   ],
   "note": "Holds unless the delimiter's last byte arrives among the first |delim|-1 bytes (then ReadUntil throws, see C32) or the text is 2 GB or longer; the full statement is refuted by the stream LF CR LF CR LF."
  },
  {
   "property": "C32",
   "status": "partial",
   "theorems": [
    "read_until_never_throws_refuted",
    "read_until_throws_iff",
    "read_until_blank_line_throws_iff",
    "read_until_nul_delim_throws"
   ],
   "note": "False: LF among the first three bytes throws out_of_range; read_until_throws_iff is the exact set of crashing streams."
  },
  {
   "property": "C33",
   "status": "partial",
   "theorems": [
    "read_delivers_partial",
    "read_delivers_text_partial",
    "read_complete_is_exact",
    "peek_keeps_the_stream",
    "read_delivers_refuted"
   ],
   "note": "True for data without NUL bytes; with NUL bytes the string is cut at the first one (refuted)."
  },
  {
   "property": "C34",
   "status": "partial",
   "theorems": [
    "closed_is_inert_partial",
    "setters_touch_closed_descriptor",
    "closed_is_inert_refuted",
    "close_closes"
   ],
   "note": "All I/O calls are inert after Close; SetNoBlock, SetBlock and the setsockopt family still act on the old number (refuted)."
  },
  {
   "property": "C35",
   "status": "partial",
   "theorems": [
    "closed_at_most_once_partial",
    "closed_at_most_once_refuted"
   ],
   "note": "True for an object that is not copied; two copies close twice (refuted)."
  },
  {
   "property": "C64",
   "status": "partial",
   "theorems": [
    "write_read_partial",
    "append_read_partial",
    "failed_write_changes_nothing",
    "failed_read_keeps_buffer",
    "create_keeps_existing",
    "create_makes_empty",
    "remove_partial",
    "remove_refuted",
    "file_laws_refuted"
   ],
   "note": "Write, Append, Create and Remove obey the laws on regular files with room on the device; a full device refutes the unrestricted statement, and a file that may not be removed makes Remove throw (remove_refuted)."
  },
  {
   "property": "C65",
   "status": "partial",
   "theorems": [
    "success_means_written_partial",
    "success_means_written_refuted"
   ],
   "note": "True when the device has room; on a full device Write and Append return success although bytes are missing (refuted)."
  },
  {
   "property": "C66",
   "status": "partial",
   "theorems": [
    "line_count_counts_lines_partial",
    "line_count_counts_lines_refuted",
    "line_count_unreadable",
    "text_has_lines",
    "suffix_is_extension"
   ],
   "note": "Suffix proved; LineCount proved below 2^31 lines, refuted there (the int overflows)."
  },
  {
   "property": "C36",
   "status": "partial",
   "theorems": [
    "handlers_run_partial",
    "handlers_run_table",
    "well_placed_needed",
    "root_server_well_placed",
    "handlers_run_refuted"
   ],
   "note": "Proved for ASCII paths and every history of well-placed registrations (spec well_placed; well_placed_needed shows the border is exact, root_server_well_placed gives a readable sufficient condition); handlers_run_table says what runs for every history. Refuted in general: after /hello, a handler registered for /hel joins the entry of /hello and does not run for /hel."
  },
  {
   "property": "C37",
   "status": "partial",
   "theorems": [
    "reachable_partial",
    "reachable_refuted"
   ],
   "note": "Proved for ASCII paths and well-placed histories; refuted by registering /hello and then /hel."
  },
  {
   "property": "C38",
   "status": "partial",
   "theorems": [
    "called_only_if_accepted",
    "method_routes_partial",
    "static_routes_only_get",
    "method_routes_refuted"
   ],
   "note": "GET, POST, ... install no method filter: a GET route runs for a POST request (refuted). True when the caller passes the method filter, and for StaticDir and StaticFile; whatever was registered, an entry only runs for requests that all its filters accept."
  },
  {
   "property": "C39",
   "status": "partial",
   "theorems": [
    "group_accumulates_partial",
    "group_second_replaces_first",
    "group_accumulates_refuted"
   ],
   "note": "Proved for the server itself (empty group prefix); in a group the second registration for a path replaces the first (group_second_replaces_first), which refutes the full statement."
  },
  {
   "property": "C40",
   "status": "partial",
   "theorems": [
    "abort_is_ignored",
    "stopped_server_stops_chain_partial",
    "abort_stops_refuted"
   ],
   "note": "Abort is ignored by the chain (abort_is_ignored, refuted); only stopping the server stops it."
  },
  {
   "property": "C41",
   "status": "partial",
   "theorems": [
    "whole_segments_partial",
    "whole_segments_refuted"
   ],
   "note": "Matching is on byte prefixes: a handler mounted at /a runs for exactly the paths that begin with /a, so also for /ab (refuted)."
  },
  {
   "property": "C42",
   "status": "proved",
   "theorems": [
    "static_dir_stays_inside",
    "static_dir_reads_only_inside"
   ],
   "note": ""
  },
  {
   "property": "C43",
   "status": "partial",
   "theorems": [
    "static_dir_serves_partial",
    "static_dir_serves_root",
    "static_dir_missing",
    "static_dir_serves_refuted"
   ],
   "note": "True when the mount path does not occur earlier in the request path; a group /s with a mount /s serves the wrong name (refuted)."
  },
  {
   "property": "C79",
   "status": "partial",
   "theorems": [
    "custom_types_partial",
    "custom_types_dir_wrong",
    "custom_types_refuted"
   ],
   "note": "StaticFile sends the registered type; StaticDir sends an empty one and registers an empty type for the empty suffix (refuted). For suffixes with a built-in type see C214."
  },
  {
   "property": "C83",
   "status": "proved",
   "theorems": [
    "context_get_set",
    "context_get_reads"
   ],
   "note": ""
  },
  {
   "property": "C84",
   "status": "partial",
   "theorems": [
    "static_dir_total_partial",
    "static_dir_total_refuted"
   ],
   "note": "True when every name inside the directory can be looked up; a name whose stat fails makes the handler throw (refuted)."
  },
  {
   "property": "C44",
   "status": "partial",
   "theorems": [
    "one_response_partial",
    "empty_server_answers_404",
    "one_response_refuted"
   ],
   "note": "Proved whenever the handlers return and the response they made can be printed: exactly one text is written, a response with the handlers' status and body, or the 404 page when no status was set. Refuted in general: a path with a byte above 127 is undefined behaviour in the trie look-up, so nothing is written."
  },
  {
   "property": "C45",
   "status": "partial",
   "theorems": [
    "malformed_400_partial",
    "malformed_400_refuted"
   ],
   "note": "Proved for every malformed head without a line feed among its first three bytes; with one, ReadUntil throws (refuted)."
  },
  {
   "property": "C46",
   "status": "partial",
   "theorems": [
    "pipelined_partial",
    "pipelined_refuted"
   ],
   "note": "Proved for any number of requests whose length field is spelled Content-Length, bodies without NUL bytes, ASCII paths; refuted for other spellings, which HTTP allows."
  },
  {
   "property": "C47",
   "status": "partial",
   "theorems": [
    "complete_bodies_partial",
    "truncated_body_is_handled",
    "complete_bodies_refuted"
   ],
   "note": "Proved when no byte of the body arrived; a body that breaks off later is handed to the handlers as if complete (truncated_body_is_handled, refuted)."
  },
  {
   "property": "C48",
   "status": "partial",
   "theorems": [
    "request_arrives_partial",
    "exchange_partial",
    "request_arrives_refuted"
   ],
   "note": "Proved for requests with a plain path and plain parameter names, sendable headers and a body without NUL bytes; refuted by a NUL byte in the body."
  },
  {
   "property": "C49",
   "status": "partial",
   "theorems": [
    "response_arrives_partial",
    "exchange_partial",
    "response_arrives_refuted"
   ],
   "note": "Proved for sendable headers and bodies without NUL bytes; refuted by a NUL byte in the body."
  },
  {
   "property": "C50",
   "status": "partial",
   "theorems": [
    "send_success_partial",
    "failed_write_is_success",
    "send_success_refuted"
   ],
   "note": "Proved when the write takes the whole request; when the write fails Send returns success (failed_write_is_success)."
  },
  {
   "property": "C51",
   "status": "partial",
   "theorems": [
    "host_filter_partial",
    "host_filter_refuted"
   ],
   "note": "The wildcard half is proved in full; the regex half for requests that name a host. A request without Host passes every regex-only filter (refuted)."
  },
  {
   "property": "C85",
   "status": "partial",
   "theorems": [
    "survives_peer_partial",
    "survives_peer_refuted"
   ],
   "note": "Proved for every outcome of the write except SIGPIPE, which terminates the process (refuted)."
  },
  {
   "property": "C86",
   "status": "partial",
   "theorems": [
    "group_may_die_partial",
    "group_may_die_refuted"
   ],
   "note": "Proved while the group object exists; afterwards the route is undefined behaviour (refuted)."
  },
  {
   "property": "C52",
   "status": "partial",
   "theorems": [
    "fifo_partial",
    "fifo_refuted"
   ],
   "note": "Tasks leave the queue in FIFO order and each is called at most once, for every schedule; with at most one worker the calls are in order too. With two workers the calls may overtake each other between the pop and the call (refuted)."
  },
  {
   "property": "C53",
   "status": "proved",
   "theorems": [
    "no_lost_wakeup",
    "someone_awake"
   ],
   "note": "All schedules, spurious wake-ups included."
  },
  {
   "property": "C54",
   "status": "partial",
   "theorems": [
    "stop_returns_partial",
    "stop_returns_refuted"
   ],
   "note": "Proved (every run ends, with Stop returned) when no worker is between its false predicate and its sleep at the moment of notify_all and nobody else stops the pool; otherwise the wake-up is lost and Stop never returns (refuted)."
  },
  {
   "property": "C55",
   "status": "partial",
   "theorems": [
    "tasks_run_partial",
    "tasks_run_refuted"
   ],
   "note": "Proved without Stop: every run ends with every accepted task called. Stop discards the queue (refuted)."
  },
  {
   "property": "C56",
   "status": "partial",
   "theorems": [
    "after_stop_partial",
    "after_stop_refuted"
   ],
   "note": "Proved for the Stop that joins the workers; a second, concurrent Stop returns while tasks still run (refuted)."
  },
  {
   "property": "C57",
   "status": "partial",
   "theorems": [
    "resize_partial",
    "resize_kills",
    "resize_refuted"
   ],
   "note": "Proved for a Resize to the current size; every other Resize leaves a pool that never accepts or runs a task again (resize_kills)."
  },
  {
   "property": "C58",
   "status": "partial",
   "theorems": [
    "busy_exact_partial",
    "unseen_task",
    "busy_exact_refuted"
   ],
   "note": "Exact up to workers next to the increment or decrement; a popped task may be in neither number (unseen_task)."
  },
  {
   "property": "C87",
   "status": "partial",
   "theorems": [
    "stop_safe_partial",
    "stop_safe_refuted"
   ],
   "note": "Proved for a single Stop (or destructor); two that both see the flag up join a thread twice (refuted)."
  },
  {
   "property": "C88",
   "status": "partial",
   "theorems": [
    "stop_safe_partial",
    "destroy_safe_refuted"
   ],
   "note": "Proved for a running pool; after a Resize the destructor destroys joinable threads (refuted)."
  },
  {
   "property": "C89",
   "status": "partial",
   "theorems": [
    "init_again_partial",
    "init_again_refuted"
   ],
   "note": "Proved for the first Init; after Stop the pool stays dead, and a second Init on a running pool terminates the program (refuted)."
  },
  {
   "property": "C59",
   "status": "partial",
   "theorems": [
    "no_line_lost_partial",
    "no_line_lost_refuted"
   ],
   "note": "Proved for at least one buffer, a device with room and a file whose content nobody else changes (its permissions may come and go); with set_buf_num(0) the lines are lost (refuted)."
  },
  {
   "property": "C60",
   "status": "partial",
   "theorems": [
    "in_order_partial",
    "in_order_refuted"
   ],
   "note": "Proved while running (the file is a prefix) and after Stop if the queue was empty; otherwise Stop may write newer lines first (refuted)."
  },
  {
   "property": "C61",
   "status": "partial",
   "theorems": [
    "std_levels",
    "std_text",
    "file_levels",
    "multi_levels_refuted"
   ],
   "note": "Proved for StdLogger and FileLogger; MultiLogger ignores its own level (refuted)."
  },
  {
   "property": "C62",
   "status": "partial",
   "theorems": [
    "init_promise_partial",
    "init_promise_refuted",
    "init_promise_owner_refuted"
   ],
   "note": "Proved for files that can be written and have the owner-write bit, and files Init creates; without the bit Init returns 0 and all messages are dropped (refuted)."
  },
  {
   "property": "C63",
   "status": "proved",
   "theorems": [
    "multi_delivers"
   ],
   "note": ""
  },
  {
   "property": "C90",
   "status": "partial",
   "theorems": [
    "destroy_once_partial",
    "reuse_refuted"
   ],
   "note": "Proved for one life of the logger; after Stop and Init again the destructor terminates the program (refuted)."
  },
  {
   "property": "C91",
   "status": "partial",
   "theorems": [
    "no_race_partial",
    "no_race_refuted"
   ],
   "note": "The text of a buffer is never used by both threads; last_flush_time can be (refuted)."
  },
  {
   "property": "C67",
   "status": "proved",
   "theorems": [
    "address_round_trip",
    "address_string_injective"
   ],
   "note": ""
  },
  {
   "property": "C77",
   "status": "partial",
   "theorems": [
    "timer_armed_partial",
    "timer_armed_refuted"
   ],
   "note": "Proved for times timerfd_settime accepts; otherwise success is returned with the timer disarmed (refuted)."
  },
  {
   "property": "C92",
   "status": "partial",
   "theorems": [
    "bad_ip_partial",
    "bad_ip_refuted"
   ],
   "note": "Init always returns 0 (refuted); text not starting with a digit gives 255.255.255.255."
  },
  {
   "property": "C93",
   "status": "partial",
   "theorems": [
    "domain_ok",
    "domain_fail_partial",
    "domain_fail_keeps_refuted"
   ],
   "note": "Success case proved; a failed call has already changed the port (refuted)."
  },
  {
   "property": "C94",
   "status": "partial",
   "theorems": [
    "timer_no_leak_partial",
    "timer_no_leak_refuted",
    "timer_reinit_partial",
    "timer_reinit_refuted"
   ],
   "note": "Descriptor 0 and repeated Init leak (refuted); otherwise proved."
  },
  {
   "property": "C69",
   "status": "partial",
   "theorems": [
    "trigger_partial",
    "trigger_refuted"
   ],
   "note": "set_trigger_type has no effect (the member of the base class is set, the static one is read), so edge triggering cannot be selected (refuted); sockets are always watched level-triggered."
  },
  {
   "property": "C74",
   "status": "partial",
   "theorems": [
    "init_no_leak_partial",
    "init_no_leak_refuted"
   ],
   "note": "The socket leaks when setsockopt or bind fails or the port is 0, the epoll descriptor when epoll_ctl fails (refuted); proved for the other failures."
  },
  {
   "property": "C95",
   "status": "proved",
   "theorems": [
    "init_ok",
    "booted_ok"
   ],
   "note": ""
  },
  {
   "property": "C96",
   "status": "partial",
   "theorems": [
    "register_partial",
    "register_refuted"
   ],
   "note": "A callback registered before Init is replaced (refuted); proved for callbacks registered after Init."
  },
  {
   "property": "C97",
   "status": "partial",
   "theorems": [
    "add_soc_partial",
    "add_soc_refuted"
   ],
   "note": "Null dereference in multithread mode (refuted); proved for the other modes."
  },
  {
   "property": "C98",
   "status": "partial",
   "theorems": [
    "wakeup_no_leak_partial",
    "wakeup_no_leak_refuted"
   ],
   "note": "Leaks when connect fails (refuted); proved otherwise."
  },
  {
   "property": "C68",
   "status": "partial",
   "theorems": [
    "delivered_refuted",
    "delivered_partial",
    "delivered_once_partial",
    "delivered_threads_partial"
   ],
   "note": "Refuted for the epoll modes: readiness with EPOLLRDHUP is reported as leave only, so data that arrived together with the half-close is never offered (delivered_full, witness lost_run). Proved: every readiness epoll returns is notified once, in order; every read or leave notification causes exactly one callback or is still queued; in multithread mode, if callbacks do not close, all data has been read when the leave is reported."
  },
  {
   "property": "C70",
   "status": "partial",
   "theorems": [
    "closed_once_refuted",
    "closed_once_partial",
    "threads_never_close"
   ],
   "note": "Refuted: multithread mode never closes (closed_once_full; threads_never_close proves every accepted connection stays open); in mixed mode the loop can close somebody else's descriptor (stray_ex). Proved for kIOMultiplexing when callbacks do not close a connection they are told has ended."
  },
  {
   "property": "C71",
   "status": "partial",
   "theorems": [
    "stop_returns_refuted",
    "stop_mixed_partial",
    "stop_threads_partial"
   ],
   "note": "Refuted for kIOMultiplexing (WakeUp does nothing, epoll_wait goes on) and for multithread mode (joins a worker waiting for a silent client, stop_threads_ex). Proved for mixed mode, with a bound on the number of moves; in multithread mode the loop can be stuck only in the join with a busy worker."
  },
  {
   "property": "C72",
   "status": "partial",
   "theorems": [
    "protocol_refuted",
    "protocol_single_partial",
    "protocol_threads_partial"
   ],
   "note": "Refuted for mixed mode (a read callback after leave), when epoll_ctl fails (error without accept) and for closing callbacks in multithread mode (protocol_breaks). Proved for kIOMultiplexing when epoll_ctl succeeds and for multithread mode when callbacks do not close."
  },
  {
   "property": "C73",
   "status": "partial",
   "theorems": [
    "one_reader_refuted",
    "one_reader_partial",
    "delivered_once_partial"
   ],
   "note": "Refuted: level triggering queues a second task while the first worker has not read yet. Proved: at most one reader in the other modes; in mixed mode each notification is handled by exactly one task."
  },
  {
   "property": "C99",
   "status": "partial",
   "theorems": [
    "shutdown_refuted",
    "shutdown_partial"
   ],
   "note": "Refuted for mixed mode: Clean may close the listening socket before the sleeping thread has seen the connection of WakeUp, and epoll_wait never returns. Proved for multithread mode up to the join of busy workers."
  },
  {
   "property": "C100",
   "status": "partial",
   "theorems": [
    "runs_on_refuted",
    "runs_on_partial"
   ],
   "note": "Refuted for multithread mode: one failing accept ends the loop. Proved for the epoll modes."
  },
  {
   "property": "C101",
   "status": "partial",
   "theorems": [
    "all_closed_refuted",
    "all_closed_partial"
   ],
   "note": "Refuted: neither EventLoop nor Clean closes connections that are open when the server stops. Proved for kIOMultiplexing: only connections whose end was not reported are left."
  },
  {
   "property": "C75",
   "status": "partial",
   "theorems": [
    "ssl_wait_all_exact",
    "ssl_wait_all_succeeds",
    "ssl_wait_all_fails",
    "ssl_peek_refuted",
    "ssl_peek_consumes"
   ],
   "note": "Wait-all reads proved exact for all sizes and record cuts. The peek half is refuted: SSLSocket::IORead ignores MSG_PEEK, so ReadPeek consumes what it shows."
  },
  {
   "property": "C76",
   "status": "partial",
   "theorems": [
    "ssl_svr_refuted",
    "ssl_svr_no_key",
    "ssl_svr_file_partial",
    "ssl_init_once_partial",
    "ssl_init_once_refuted"
   ],
   "note": "Refuted for InitSvr: it never loads the private key. Proved for InitSvrFile. Init(ctx) replaces an existing context; the other three refuse."
  },
  {
   "property": "C102",
   "status": "proved",
   "theorems": [
    "ssl_read_until_same",
    "ssl_read_until_records"
   ],
   "note": ""
  },
  {
   "property": "C103",
   "status": "partial",
   "theorems": [
    "ssl_init_no_leak_refuted",
    "ssl_init_no_leak_partial",
    "ssl_init_close"
   ],
   "note": "Refuted: the error paths of InitSvr and InitSvrFile keep the new SSL_CTX (and the certificate). Proved: exactly what stays, that InitCli leaves nothing, and that Close after success frees all."
  },
  {
   "property": "C104",
   "status": "partial",
   "theorems": [
    "ssl_close_refuted",
    "ssl_close_always_late",
    "ssl_close_partial",
    "ssl_close_once"
   ],
   "note": "Refuted: Close closes the descriptor, then calls SSL_shutdown on its number. Proved: the order is right when CloseSSL is called first; each is released at most once."
  },
  {
   "property": "C105",
   "status": "partial",
   "theorems": [
    "ssl_accept_refuted",
    "ssl_accept_partial",
    "ssl_accept_leaks_session"
   ],
   "note": "Refuted: SSL_accept = 0 (handshake shut down by the peer) counts as success. Proved for negative results, lack of memory and contexts that are not initialised."
  },
  {
   "property": "C106",
   "status": "partial",
   "theorems": [
    "ssl_no_session_refuted",
    "ssl_no_session_partial"
   ],
   "note": "Refuted: CloseSSL keeps the socket open, and a later Read passes a null SSL. Proved when only Close is used."
  },
  {
   "property": "C107",
   "status": "proved",
   "theorems": [
    "https_answers"
   ],
   "note": "Under the same conditions on handlers and paths as one_response_partial (C44)."
  },
  {
   "property": "C108",
   "status": "proved",
   "theorems": [
    "https_complete_bodies"
   ],
   "note": ""
  },
  {
   "property": "C109",
   "status": "partial",
   "theorems": [
    "https_pipelined_refuted",
    "https_pipelined_partial"
   ],
   "note": "Refuted: the rest of a record stays in OpenSSL's buffer and epoll does not report it. Proved when requests end at record boundaries."
  },
  {
   "property": "C110",
   "status": "proved",
   "theorems": [
    "http_run_iff"
   ],
   "note": ""
  },
  {
   "property": "C111",
   "status": "partial",
   "theorems": [
    "http_stop_refuted",
    "http_stop_partial"
   ],
   "note": "Refuted: a second Init without Stop loses the first listening socket. Proved for one successful Init after any calls, if WakeUp can connect (or gets no socket)."
  },
  {
   "property": "C112",
   "status": "partial",
   "theorems": [
    "http_plain_refuted",
    "http_plain_partial"
   ],
   "note": "Refuted: Init after InitSSL and Stop keeps the TLS context. Proved when InitSSL was not called before; the InitSSL half is proved."
  },
  {
   "property": "C113",
   "status": "proved",
   "theorems": [
    "tls_own_session"
   ],
   "note": "One callback at a time, as in kIOMultiplexing mode (see C115)."
  },
  {
   "property": "C114",
   "status": "partial",
   "theorems": [
    "tls_no_leak_refuted",
    "tls_no_leak_partial"
   ],
   "note": "Refuted: HandleError keeps the session. Proved when no error events occur."
  },
  {
   "property": "C115",
   "status": "partial",
   "theorems": [
    "one_callback_refuted",
    "one_callback_partial"
   ],
   "note": "Refuted for kMultiThread: two workers insert into the map at the same time. Proved for kIOMultiplexing."
  },
  {
   "property": "C116",
   "status": "proved",
   "theorems": [
    "client_address",
    "client_address_ssl"
   ],
   "note": ""
  },
  {
   "property": "C117",
   "status": "partial",
   "theorems": [
    "client_safe_refuted",
    "client_safe_partial"
   ],
   "note": "Refuted: InitSSL, Init, Close uses a null pointer. Proved: exactly which call sequences do that."
  },
  {
   "property": "C118",
   "status": "partial",
   "theorems": [
    "client_gives_back_refuted",
    "client_gives_back_partial"
   ],
   "note": "Refuted: a second Init loses the first descriptor. Proved when each Init or InitSSL is followed by Close, Init does not come after InitSSL and SSL_new finds memory."
  },
  {
   "property": "C119",
   "status": "proved",
   "theorems": [
    "connections_are_isolated",
    "stateless_router"
   ],
   "note": "stateless_router: the hypothesis holds for every router whose handlers do not look at the application's state."
  },
  {
   "property": "C120",
   "status": "partial",
   "theorems": [
    "all_answered_refuted",
    "all_answered_partial"
   ],
   "note": "Refuted: a peer that sends a request and closes its writing side is not answered. Proved for peers that do not close and do not run into the time-out."
  },
  {
   "property": "C121",
   "status": "partial",
   "theorems": [
    "available_refuted",
    "available_partial"
   ],
   "note": "Refuted: a peer that sends one byte holds the only thread. Proved when all peers send whole requests."
  },
  {
   "property": "C122",
   "status": "partial",
   "theorems": [
    "timeout_closes_refuted",
    "timeout_closes_partial",
    "timeout_frees_thread"
   ],
   "note": "Refuted: a time-out in the body hands the part to the handlers. Proved for time-outs in the head; the thread is freed in any case if handlers do not block."
  },
  {
   "property": "C123",
   "status": "partial",
   "theorems": [
    "process_stays_up_refuted",
    "process_stays_up_partial"
   ],
   "note": "Refuted: a line feed as first byte. Proved: the process goes down only by a line feed among the first three bytes to be read, 2 GiB of input, a write to a closed connection, or failing handlers."
  },
  {
   "property": "C124",
   "status": "partial",
   "theorems": [
    "all_bytes_sent_refuted",
    "all_bytes_sent_partial"
   ],
   "note": "Refuted: what send(2) does not take is not sent again. Proved when send(2) takes as many bytes as the longest answer has."
  },
  {
   "property": "C125",
   "status": "partial",
   "theorems": [
    "all_ready_reported_refuted",
    "all_ready_reported_partial",
    "reported_is_ready"
   ],
   "note": "Refuted: when a callback removes its own socket, the next one is passed over in this round. Proved for callbacks that remove nothing."
  },
  {
   "property": "C126",
   "status": "proved",
   "theorems": [
    "ready_is_reported_soon"
   ],
   "note": ""
  },
  {
   "property": "C127",
   "status": "partial",
   "theorems": [
    "monitor_means_monitored_refuted",
    "monitor_means_monitored_partial",
    "monitored_from_new"
   ],
   "note": "Refuted: the 65th socket is silently not monitored. Proved for up to 64."
  },
  {
   "property": "C128",
   "status": "partial",
   "theorems": [
    "portable_refuted",
    "portable_partial",
    "same_timeout_refuted",
    "same_timeout_partial"
   ],
   "note": "Refuted: a signal ends the loop on macOS and not on Linux; a time-out of 0 means to wait for ever on macOS. Proved for rounds without signals and time-outs other than 0."
  },
  {
   "property": "C129",
   "status": "partial",
   "theorems": [
    "datagram_is_genuine_refuted",
    "datagram_is_genuine_partial"
   ],
   "note": "Refuted: of a datagram with a NUL byte the string has only the part before it. Proved: sender, address and size are right, and the string is the part before the first NUL byte."
  },
  {
   "property": "C130",
   "status": "proved",
   "theorems": [
    "one_read_one_datagram"
   ],
   "note": ""
  },
  {
   "property": "C131",
   "status": "partial",
   "theorems": [
    "reply_reaches_asker_refuted",
    "reply_reaches_asker_partial"
   ],
   "note": "Refuted: another socket may have got the address of one that was closed. Proved as long as the asker is open."
  },
  {
   "property": "C132",
   "status": "partial",
   "theorems": [
    "ssl_write_exact_refuted",
    "ssl_write_exact_partial"
   ],
   "note": "Refuted: the size is converted to an int. Proved below 2 GiB."
  },
  {
   "property": "C133",
   "status": "proved",
   "theorems": [
    "one_worker"
   ],
   "note": ""
  },
  {
   "property": "C134",
   "status": "partial",
   "theorems": [
    "guardian_only_guards_refuted",
    "guardian_only_guards_partial"
   ],
   "note": "Refuted: when the handler says stop (that of the web server does when its child has ended by itself), Guard returns in the guardian, which starts a server itself. Proved for handlers that never say stop."
  },
  {
   "property": "C135",
   "status": "partial",
   "theorems": [
    "stop_reaches_worker_refuted",
    "stop_reaches_worker_partial"
   ],
   "note": "Refuted: a signal between fork and the assignment of child_pid_. Proved at every other moment."
  },
  {
   "property": "C136",
   "status": "partial",
   "theorems": [
    "kills_only_worker_refuted",
    "kills_only_worker_partial",
    "fork_failure_kills_everybody"
   ],
   "note": "Refuted: a second worker has inherited the pid of the first one, which may by now be that of another program; after a failed fork the signal goes to every process. Proved for a guardian that waits for its worker."
  },
  {
   "property": "C137",
   "status": "proved",
   "theorems": [
    "worker_is_replaced"
   ],
   "note": ""
  },
  {
   "property": "C138",
   "status": "proved",
   "theorems": [
    "options_as_given",
    "every_argument_counts"
   ],
   "note": ""
  },
  {
   "property": "C139",
   "status": "partial",
   "theorems": [
    "must_is_must_refuted",
    "must_is_must_partial",
    "complete_call_runs"
   ],
   "note": "Refuted: assigning app.pfunc after the declarations forgets what was missing. Proved when it is assigned first."
  },
  {
   "property": "C140",
   "status": "partial",
   "theorems": [
    "hosts_are_separate_refuted",
    "hosts_are_separate_partial"
   ],
   "note": "Refuted: an item for another host with a longer route that comes first swallows the item. Proved when no route comes after one that extends it."
  },
  {
   "property": "C141",
   "status": "partial",
   "theorems": [
    "redirects_work_refuted",
    "redirects_work_partial"
   ],
   "note": "Refuted with the configuration that comes with the program: /hello answers with the index page. Proved when no other item covers the request and no route comes after one that extends it."
  },
  {
   "property": "C142",
   "status": "partial",
   "theorems": [
    "statics_work_refuted",
    "statics_work_partial",
    "static_dirs_work_partial"
   ],
   "note": "Refuted with the configuration that comes with the program: the index page is not served under /. Proved when no other item covers the request and no route comes after one that extends it."
  },
  {
   "property": "C143",
   "status": "proved",
   "theorems": [
    "starts_iff_all_there"
   ],
   "note": ""
  },
  {
   "property": "C144",
   "status": "partial",
   "theorems": [
    "stop_finds_server_refuted",
    "stop_finds_server_partial",
    "stop_kills_stranger"
   ],
   "note": "Refuted: in the foreground the pid file says 0; the pid file outlives the server, so another program is signalled. Proved while the server started last is running in the background with a pid above 66."
  },
  {
   "property": "C145",
   "status": "partial",
   "theorems": [
    "stop_only_stops_refuted",
    "stop_only_stops_partial"
   ],
   "note": "Refuted: without a pid file a server is started. Proved when the pid file can be read."
  },
  {
   "property": "C146",
   "status": "partial",
   "theorems": [
    "listens_where_told_refuted",
    "listens_where_told_partial"
   ],
   "note": "Refuted: the port is cut to 16 bits. Proved for ports up to 65535."
  },
  {
   "property": "C147",
   "status": "partial",
   "theorems": [
    "threads_answer_refuted",
    "threads_answer_partial",
    "threads_answer_own_number"
   ],
   "note": "Refuted: HandleRead closes a copy of the socket, so a worker goes on reading from a number that may already belong to another connection. Proved when all peers send whole requests, and for arbitrary other peers when the number was not in use."
  },
  {
   "property": "C148",
   "status": "partial",
   "theorems": [
    "threads_available_refuted",
    "threads_available_partial"
   ],
   "note": "Refuted: as many silent peers as workers occupy the pool. Proved while no more connections than workers are accepted."
  },
  {
   "property": "C149",
   "status": "partial",
   "theorems": [
    "mixed_answers_refuted",
    "mixed_answers_partial"
   ],
   "note": "Refuted: a readable descriptor is reported until it is read, so two workers share the bytes of one request. Proved when each request is reported once."
  },
  {
   "property": "C150",
   "status": "partial",
   "theorems": [
    "threads_stay_up_refuted",
    "threads_stay_up_partial"
   ],
   "note": "Refuted for kMixed: a worker that gets only a part of a request ends the process with an exception. Proved for kMultiThread."
  },
  {
   "property": "C151",
   "status": "partial",
   "theorems": [
    "numbers_given_back_refuted",
    "numbers_given_back_partial",
    "threads_never_come_back"
   ],
   "note": "Refuted for kMultiThread: the worker leaves without Close when the peer closes; such a number is never used again. Proved for kMixed."
  },
  {
   "property": "C152",
   "status": "partial",
   "theorems": [
    "descriptors_given_back_refuted",
    "descriptors_given_back_partial",
    "opened_is_usable"
   ],
   "note": "Refuted: a second Init forgets the first descriptor. Proved when Init is only called on a socket that is not open."
  },
  {
   "property": "C153",
   "status": "partial",
   "theorems": [
    "can_write_tells_refuted",
    "can_write_tells_partial"
   ],
   "note": "Refuted: only the owner-write bit is looked at. Proved for files of the process's own user and missing files it may create."
  },
  {
   "property": "C154",
   "status": "partial",
   "theorems": [
    "calls_take_effect_refuted",
    "calls_take_effect_partial",
    "callbacks_run_in_order"
   ],
   "note": "Refuted: of two callbacks given to GET of a group only the second runs. Proved for registrations that the look-up does not confuse, and for the server itself."
  },
  {
   "property": "C155",
   "status": "partial",
   "theorems": [
    "use_guards_refuted",
    "use_guards_partial",
    "use_guards_group"
   ],
   "note": "Refuted: a second Use of a group replaces the first. Proved for Use of the server itself, whatever else is registered, and for the first Use of a group."
  },
  {
   "property": "C156",
   "status": "partial",
   "theorems": [
    "use_stays_inside_refuted",
    "use_stays_inside_partial"
   ],
   "note": "Refuted: after a Use of the server itself, one of a group is for all requests. Proved otherwise."
  },
  {
   "property": "C157",
   "status": "partial",
   "theorems": [
    "response_reuse_refuted",
    "response_reuse_partial"
   ],
   "note": "Refuted: an old Content-Length makes the client wait for a body when the new response has none. Proved when that is not so: everything is the same, except that headers the new response lacks stay."
  },
  {
   "property": "C158",
   "status": "proved",
   "theorems": [
    "https_connections_are_isolated"
   ],
   "note": ""
  },
  {
   "property": "C159",
   "status": "partial",
   "theorems": [
    "https_answers_in_order",
    "https_all_answered_refuted",
    "https_all_answered_partial"
   ],
   "note": "Answers are always for requests of the stream in order. Refuted that all are answered: two requests in one record leave the second waiting inside the TLS library. Proved when every record lies within one request."
  },
  {
   "property": "C160",
   "status": "partial",
   "theorems": [
    "https_available_refuted",
    "https_available_partial"
   ],
   "note": "Refuted: a peer that connects and does not shake hands holds the only thread. Proved when all peers shake hands and send whole requests in records of their own."
  },
  {
   "property": "C161",
   "status": "proved",
   "theorems": [
    "https_handshake_timeout",
    "https_read_timeout"
   ],
   "note": ""
  },
  {
   "property": "C162",
   "status": "partial",
   "theorems": [
    "https_process_stays_up_refuted",
    "https_process_stays_up_partial"
   ],
   "note": "Refuted: a first byte LF throws out of the read. Proved: the process goes down only by a line feed among the first three bytes to be read, 2 GiB of input, a write to a closed connection, or failing handlers."
  },
  {
   "property": "C163",
   "status": "proved",
   "theorems": [
    "rejected_is_told_why",
    "one_reason"
   ],
   "note": ""
  },
  {
   "property": "C164",
   "status": "partial",
   "theorems": [
    "answers_logged_refuted",
    "answers_logged_partial",
    "request_logged"
   ],
   "note": "Refuted: a 400 is logged as given even if the write fails. Proved when the write does not fail, for all streams and routers."
  },
  {
   "property": "C165",
   "status": "partial",
   "theorems": [
    "one_entry_one_line_refuted",
    "one_entry_one_line_partial",
    "lines_can_be_forged"
   ],
   "note": "Refuted: the entry for an answer has a line feed of its own, and a line feed in the path ends a line, so that clients can put any line without a space into the log. Proved that these are the only cases."
  },
  {
   "property": "C166",
   "status": "partial",
   "theorems": [
    "send_text_refuted",
    "send_text_partial",
    "send_text_cases",
    "empty_text_means_exchanged",
    "stale_text_stays"
   ],
   "note": "Refuted: a failed write returns success, with a text; and the text of an earlier failure stays. Proved without these; an empty text means that the whole exchange took place."
  },
  {
   "property": "C167",
   "status": "partial",
   "theorems": [
    "select_loop_ends",
    "epoll_loop_ends",
    "kqueue_loop_ends_refuted",
    "kqueue_loop_ends_partial"
   ],
   "note": "Proved for Select and Epoll. Refuted for KQueue, where a signal ends the loop; proved otherwise."
  },
  {
   "property": "C168",
   "status": "proved",
   "theorems": [
    "hello_server_answers",
    "hello_tls_server_answers"
   ],
   "note": "For TLS: no record holds the end of one request and the beginning of the next."
  },
  {
   "property": "C169",
   "status": "partial",
   "theorems": [
    "simple_server_partial",
    "simple_server_refuted"
   ],
   "note": "Full statement refuted: a name that cannot be looked up makes the handler throw. Proved for file systems in which every name can be looked up and no name that ends with a slash is a file."
  },
  {
   "property": "C170",
   "status": "partial",
   "theorems": [
    "mnist_pages_partial",
    "mnist_pages_refuted"
   ],
   "note": "Full statement refuted: \"/\" is confused with \"/mnist\". Proved: exactly what is served."
  },
  {
   "property": "C171",
   "status": "partial",
   "theorems": [
    "mnist_safe_partial",
    "mnist_safe_refuted"
   ],
   "note": "Full statement refuted: answers to bad requests contain an uninitialised int. Proved: an image gets an answer; everything else reads the uninitialised int."
  },
  {
   "property": "C172",
   "status": "partial",
   "theorems": [
    "best_digit_partial",
    "best_digit_refuted"
   ],
   "note": "Full statement refuted: a NaN as first score is never beaten. Proved if the first score is a number."
  },
  {
   "property": "C173",
   "status": "proved",
   "theorems": [
    "local_host",
    "local_name_room"
   ],
   "note": ""
  },
  {
   "property": "C174",
   "status": "proved",
   "theorems": [
    "unpublished_files_stay_private"
   ],
   "note": "Two runs are compared. Time and the operating system itself are outside the model; names are compared as strings, without links."
  },
  {
   "property": "C175",
   "status": "proved",
   "theorems": [
    "calls_are_serial"
   ],
   "note": "Reading is modelled as a call that is made again when more has arrived; see Model/ClientServer.v."
  },
  {
   "property": "C176",
   "status": "proved",
   "theorems": [
    "every_call_returns"
   ],
   "note": ""
  },
  {
   "property": "C177",
   "status": "proved",
   "theorems": [
    "route_round_trip_exact",
    "header_round_trip_exact",
    "request_round_trip_exact",
    "response_round_trip_exact"
   ],
   "note": "Parsing is into a fresh object."
  },
  {
   "property": "C178",
   "status": "proved",
   "theorems": [
    "website"
   ],
   "note": "The configuration is modelled as the parsed structure; reading of sockets as in C175."
  },
  {
   "property": "C179",
   "status": "proved",
   "theorems": [
    "website_returns"
   ],
   "note": ""
  },
  {
   "property": "C180",
   "status": "proved",
   "theorems": [
    "threads_calls_are_serial",
    "mixed_calls_are_serial_refuted"
   ],
   "note": "The second theorem is about kMixed.  The handlers of one request and the write of the answer are one step."
  },
  {
   "property": "C181",
   "status": "proved",
   "theorems": [
    "threads_every_call_returns",
    "threads_every_call_returns_refuted"
   ],
   "note": "The second theorem is about more clients than threads."
  },
  {
   "property": "C182",
   "status": "proved",
   "theorems": [
    "strangers_calls_are_serial"
   ],
   "note": "The handlers keep the state of the server within some set on any request and do not wait for ever."
  },
  {
   "property": "C183",
   "status": "proved",
   "theorems": [
    "strangers_every_call_returns",
    "strangers_every_call_returns_refuted"
   ],
   "note": "The second theorem is about a server that has been stopped by a stranger."
  },
  {
   "property": "C184",
   "status": "proved",
   "theorems": [
    "only_strangers_stop_the_server"
   ],
   "note": ""
  },
  {
   "property": "C185",
   "status": "proved",
   "theorems": [
    "website_among_strangers"
   ],
   "note": ""
  },
  {
   "property": "C186",
   "status": "proved",
   "theorems": [
    "website_returns_among_strangers"
   ],
   "note": ""
  },
  {
   "property": "C187",
   "status": "proved",
   "theorems": [
    "what_stops_the_website"
   ],
   "note": "The paths in the configuration are shorter than 2 GiB."
  },
  {
   "property": "C188",
   "status": "proved",
   "theorems": [
    "https_send_same"
   ],
   "note": ""
  },
  {
   "property": "C189",
   "status": "partial",
   "theorems": [
    "https_response_arrives_partial",
    "https_response_arrives_refuted"
   ],
   "note": "Proved for sendable headers and bodies without NUL bytes; refuted by a NUL byte in the body."
  },
  {
   "property": "C190",
   "status": "partial",
   "theorems": [
    "https_send_success_partial",
    "https_send_success_refuted",
    "https_failed_write_is_success"
   ],
   "note": "Proved when SSL_write takes the request; when it fails Send returns success (https_failed_write_is_success)."
  },
  {
   "property": "C191",
   "status": "proved",
   "theorems": [
    "https_calls_are_serial"
   ],
   "note": "SSL_write of a client takes the whole request. The handlers keep the state of the server within some set on any request and do not wait for ever."
  },
  {
   "property": "C192",
   "status": "proved",
   "theorems": [
    "https_every_call_returns",
    "https_every_call_returns_refuted"
   ],
   "note": "The second theorem is about a server that has been stopped by a stranger."
  },
  {
   "property": "C193",
   "status": "proved",
   "theorems": [
    "only_strangers_stop_the_https_server"
   ],
   "note": ""
  },
  {
   "property": "C194",
   "status": "proved",
   "theorems": [
    "https_website"
   ],
   "note": ""
  },
  {
   "property": "C195",
   "status": "proved",
   "theorems": [
    "https_website_returns"
   ],
   "note": ""
  },
  {
   "property": "C196",
   "status": "proved",
   "theorems": [
    "what_stops_the_https_website"
   ],
   "note": "The paths in the configuration are shorter than 2 GiB."
  },
  {
   "property": "C197",
   "status": "proved",
   "theorems": [
    "threads_strangers_calls_are_serial",
    "threads_strangers_any_number_refuted"
   ],
   "note": "The second theorem is about numbers that are still in use."
  },
  {
   "property": "C198",
   "status": "proved",
   "theorems": [
    "threads_strangers_every_call_returns",
    "threads_strangers_every_call_returns_refuted"
   ],
   "note": "The second theorem is about a process that has ended."
  },
  {
   "property": "C199",
   "status": "proved",
   "theorems": [
    "only_strangers_stop_the_threads"
   ],
   "note": ""
  },
  {
   "property": "C200",
   "status": "proved",
   "theorems": [
    "binary_request_arrives",
    "binary_response_arrives",
    "binary_keeps_step"
   ],
   "note": "Makes C33, C46, C48 and C49 exact for bodies with NUL bytes."
  },
  {
   "property": "C201",
   "status": "partial",
   "theorems": [
    "table_safe_partial",
    "table_safe_refuted"
   ],
   "note": "False as stated: after RegisterContentType for some suffix, serving files with it from a StaticDir inserts the key \"\" into the unlocked static map, from several threads at once. Proved: with StaticFile only, or with no registered type, or with one for the empty suffix, the map never changes in any execution."
  },
  {
   "property": "C202",
   "status": "proved",
   "theorems": [
    "threads_website"
   ],
   "note": ""
  },
  {
   "property": "C203",
   "status": "proved",
   "theorems": [
    "threads_website_returns"
   ],
   "note": "Like C198, for not more visitors than threads at a time."
  },
  {
   "property": "C204",
   "status": "proved",
   "theorems": [
    "what_stops_the_threads_website"
   ],
   "note": "The paths in the configuration are shorter than 2 GiB."
  },
  {
   "property": "C205",
   "status": "partial",
   "theorems": [
    "init_says_why_partial",
    "init_says_why_refuted",
    "init_ssl_says_why",
    "calls_say_why_partial"
   ],
   "note": "False if epoll_ctl fails: the text is then only the tag (Init) or an older text (AddSoc). All other failures are exact."
  },
  {
   "property": "C206",
   "status": "partial",
   "theorems": [
    "client_says_why",
    "client_ssl_says_why_partial",
    "client_says_why_refuted"
   ],
   "note": "Proved for Init. False for InitSSL: a context that cannot be made is reported as a missing context, a failed handshake with the text of errno. All other failures are exact."
  },
  {
   "property": "C207",
   "status": "partial",
   "theorems": [
    "log_counts_partial",
    "log_counts_refuted",
    "log_names_partial",
    "log_names_refuted",
    "error_entry_is_old"
   ],
   "note": "False as stated. Proved: the number of open connections is that of the \"accept\" entries less the \"leave\" entries and the errors of reading, parsing and writing, less the connections lost by EPOLLERR, whose entry is empty or repeats an older text; which connections are open cannot be told. Which ones (log_names_partial): every open connection has a number that was accepted and has not left since; as long as no connection was closed after an error the converse holds."
  },
  {
   "property": "C208",
   "status": "proved",
   "theorems": [
    "answers_in_log"
   ],
   "note": ""
  },
  {
   "property": "C209",
   "status": "partial",
   "theorems": [
    "malformed_not_decoded_refuted",
    "every_byte_malformed",
    "decode_exact",
    "decode_nothing"
   ],
   "note": "False: every byte can be written with letters after F (%G0 is NUL). Proved: what UrlDecode gives for every text, and that exactly the empty text and texts with a '%' at the end give nothing."
  },
  {
   "property": "C210",
   "status": "partial",
   "theorems": [
    "every_target_read",
    "names_as_written",
    "names_decoded_refuted"
   ],
   "note": "Proved: what Parse makes of every target below 2 GiB, and that there is one reading. False: names are not decoded; a parameter is only found under the name as written in the target."
  },
  {
   "property": "C211",
   "status": "partial",
   "theorems": [
    "slow_available_partial",
    "one_peer_stops_all",
    "slow_available_refuted"
   ],
   "note": "False: for every buffer size a peer that asks often enough and does not read stops the server (one_peer_stops_all); another peer's request then waits for as long as it does not read. Proved: the request can be answered if the peers read when the server waits for them."
  },
  {
   "property": "C212",
   "status": "proved",
   "theorems": [
    "slow_bytes"
   ],
   "note": "Without write time-outs; the claims about the buffers also with them."
  },
  {
   "property": "C213",
   "status": "partial",
   "theorems": [
    "give_up_frees_partial",
    "give_up_closes_refuted"
   ],
   "note": "False: send(2) returns the number of bytes copied before the time-out, Write passes it on, and HandleRead closes only on -1; the answer is cut off and the connection stays open. Proved: the server is free again, the other connections are as they were, exactly the bytes not copied are lost, and the connection is closed exactly if none was copied."
  },
  {
   "property": "C214",
   "status": "partial",
   "theorems": [
    "file_type_exact",
    "dir_type_exact",
    "types_stay_partial",
    "types_stay_refuted",
    "no_suffix_changes",
    "registered_used_partial",
    "registered_used_refuted"
   ],
   "note": "Proved: the type both handlers send for every file name and every table of registered types; histories of requests do not change the types of files with a suffix. False: registrations for built-in suffixes are not used, StaticDir does not send registered types, and after a file with a registered suffix was sent from a directory files without a suffix have an empty type."
  },
  {
   "property": "C215",
   "status": "partial",
   "theorems": [
    "slow_threads_partial",
    "slow_threads_bytes",
    "one_peer_stops_mixed",
    "slow_threads_refuted"
   ],
   "note": "Proved for mode kMultiThread; the count of bytes in both modes. False in mode kMixed: for every number of workers and every buffer size a peer that goes on asking and does not read gets hold of all workers one after the other, and nobody else is answered until it reads (one_peer_stops_mixed). As C148, for connections whose number no other task or worker uses."
  },
  {
   "property": "C216",
   "status": "partial",
   "theorems": [
    "https_threads_answer_partial",
    "https_threads_answer_refuted"
   ],
   "note": "Proved for requests that do not share a record with another one (C159), and connections whose number no worker uses any more when they are accepted. False otherwise: HandleRead closes the number of a peer that sent something else while the worker keeps it; if the kernel gives it to a new connection, HandleLeave of the old worker removes the new session from the map, and the new peer is never answered."
  },
  {
   "property": "C217",
   "status": "partial",
   "theorems": [
    "https_threads_available_partial",
    "https_threads_available_refuted"
   ],
   "note": "False with more connections than workers: with one worker, one peer that connects and does not shake hands stops the server (no receive time-out is set by default). As C216, for connections with a number of their own."
  },
  {
   "property": "C218",
   "status": "partial",
   "theorems": [
    "https_session_safe_partial",
    "https_session_safe_refuted"
   ],
   "note": "Proved for connections whose number no worker uses any more when they are accepted; no other hypothesis. False otherwise: use after free of the SSL object (https_session_safe_refuted)."
  },
  {
   "property": "C219",
   "status": "proved",
   "theorems": [
    "https_threads_numbers_kept"
   ],
   "note": "A defect, stated as what the code does; for connections with a number of their own."
  },
  {
   "property": "C220",
   "status": "partial",
   "theorems": [
    "https_threads_stay_up_partial",
    "https_threads_stay_up_refuted"
   ],
   "note": "Refuted: a line feed among the first three bytes. Proved, for connections with numbers of their own: the process goes down only in a step of a worker whose own peer has sent a line feed among the first three bytes to be read or 2 GiB, whose write meets a closed connection, or whose handlers fail. With a reused number a freed session is used (freed_session_is_used)."
  },
  {
   "property": "C221",
   "status": "proved",
   "theorems": [
    "peers_get_beginnings",
    "https_peers_get_beginnings",
    "threads_peers_get_beginnings",
    "https_threads_peers_get_beginnings"
   ],
   "note": "No hypotheses beside a run of the server. Where an answer was cut, the peer cannot tell (C124, C50)."
  },
  {
   "property": "C222",
   "status": "proved",
   "theorems": [
    "https_whole_answers",
    "https_threads_whole_answers"
   ],
   "note": "Assumes of OpenSSL that SSL_write does not write parts (SSL_MODE_ENABLE_PARTIAL_WRITE is not set by the code); failures may happen at any write."
  },
  {
   "property": "C223",
   "status": "proved",
   "theorems": [
    "server_comes_to_rest",
    "https_server_comes_to_rest"
   ],
   "note": "Level-triggered epoll. Time-outs are not among the steps counted. Bytes inside OpenSSL count as unread in the bound."
  },
  {
   "property": "C224",
   "status": "partial",
   "theorems": [
    "threads_come_to_rest_partial",
    "threads_steps_bounded",
    "threads_come_to_rest_refuted",
    "mixed_queue_grows"
   ],
   "note": "Full statement refuted: kMixed reports a connection again while its task waits. Missing for the full statement: kMixed (there: bounded in the number of reports)."
  },
  {
   "property": "C225",
   "status": "partial",
   "theorems": [
    "https_threads_come_to_rest_partial",
    "https_threads_come_to_rest_refuted"
   ],
   "note": "Full statement refuted: a worker that finds a closed session under a reused number spins. Missing for the full statement: those calls (the bound counts them)."
  },
  {
   "property": "C226",
   "status": "partial",
   "theorems": [
    "get_request_partial",
    "get_request_fresh",
    "get_request_refuted",
    "post_request",
    "get_arrives"
   ],
   "note": "Full statement refuted: GET on an object used before keeps old parameters and body. Missing for the full statement: reused objects (there: what GET sets is exact, the rest stays)."
  },
  {
   "property": "C227",
   "status": "partial",
   "theorems": [
    "post_form_text",
    "post_form_partial",
    "post_form_refuted"
   ],
   "note": "Full statement refuted: the value a+b is sent as it is and reads as 'a b'. The exact text of the body is proved for every object and map."
  },
  {
   "property": "C228",
   "status": "partial",
   "theorems": [
    "last_said_counts",
    "reply_arrives",
    "success_body_partial",
    "success_body_refuted",
    "reply_table_partial",
    "reply_table_refuted"
   ],
   "note": "Full statement refuted for an empty body and for kCustom; the exact behaviour is proved for these too."
  },
  {
   "property": "C229",
   "status": "partial",
   "theorems": [
    "clear_is_new_partial",
    "clear_is_new_refuted",
    "cleared_request_not_built"
   ],
   "note": "Full statement refuted: the version. Missing for the full statement: the version."
  },
  {
   "property": "C230",
   "status": "partial",
   "theorems": [
    "chunks_refused",
    "chunked_partial",
    "chunked_refuted",
    "chunks_no_requests_partial",
    "chunks_no_requests_refuted"
   ],
   "note": "full claims chunked_full and chunks_no_requests (without condition) are false; chunked_partial says what happens without Content-Length"
  },
  {
   "property": "C231",
   "status": "partial",
   "theorems": [
    "connection_partial",
    "connection_refuted"
   ],
   "note": "full claim false: the connection is never closed after an answer; true for requests that do not ask for closing"
  },
  {
   "property": "C232",
   "status": "partial",
   "theorems": [
    "head_partial",
    "head_refuted"
   ],
   "note": "full claim false; head_partial says exactly when the answer has no body"
  },
  {
   "property": "C233",
   "status": "partial",
   "theorems": [
    "expect_partial",
    "expect_refuted"
   ],
   "note": "full claim false; expect_partial says what happens instead"
  },
  {
   "property": "C234",
   "status": "partial",
   "theorems": [
    "framing_exact",
    "framing_partial",
    "framing_refuted",
    "refused_refuted",
    "framed_refuted",
    "never_refused"
   ],
   "note": "full claim false: invalid lengths are never refused, other spellings of the name not found; framing_exact says exactly what is taken"
  },
  {
   "property": "C235",
   "status": "proved",
   "theorems": [
    "address_text_exact",
    "address_text_one"
   ],
   "note": ""
  },
  {
   "property": "C236",
   "status": "partial",
   "theorems": [
    "usage_partial",
    "usage_first",
    "usage_refuted"
   ],
   "note": "full claim false for names declared twice; proved for distinct names"
  },
  {
   "property": "C237",
   "status": "partial",
   "theorems": [
    "field_rules_partial",
    "field_rules_refuted"
   ],
   "note": "full claim false: nothing is refused for its header lines"
  },
  {
   "property": "C238",
   "status": "partial",
   "theorems": [
    "head_file_partial",
    "head_file_refuted"
   ],
   "note": "full claim false; head_file_partial says what happens for every method but GET"
  },
  {
   "property": "C239",
   "status": "partial",
   "theorems": [
    "ssl_says_why",
    "ssl_says_partial",
    "ssl_says_refuted",
    "accept_says_why"
   ],
   "note": "full claim false: the text stays after a later success; ssl_says_partial is for the first call, ssl_says_why for every call"
  },
  {
   "property": "C240",
   "status": "partial",
   "theorems": [
    "kinds_partial",
    "kinds_refuted",
    "written_is_file",
    "remove_leaves_nothing_partial",
    "remove_leaves_nothing_refuted"
   ],
   "note": "full claims false: stat failing, and directories given to Remove"
  },
  {
   "property": "C241",
   "status": "partial",
   "theorems": [
    "new_socket_says",
    "close_connect_say",
    "socket_says_partial",
    "socket_says_refuted"
   ],
   "note": "full claim false for reads without complete and on closed sockets; the rest is proved"
  },
  {
   "property": "C242",
   "status": "partial",
   "theorems": [
    "absolute_partial",
    "absolute_refuted"
   ],
   "note": "full claim false; absolute_partial says what happens for every target that does not start with a slash"
  },
  {
   "property": "C243",
   "status": "partial",
   "theorems": [
    "unknown_partial",
    "unknown_refused",
    "known_served",
    "methods_refuted",
    "versions_refuted"
   ],
   "note": "full claims false; proved exactly which methods and versions are handled and what the others get"
  },
  {
   "property": "C244",
   "status": "partial",
   "theorems": [
    "no_content_partial",
    "no_content_refuted"
   ],
   "note": "full claim false; no_content_partial says what every answer with 204 looks like"
  },
  {
   "property": "C245",
   "status": "partial",
   "theorems": [
    "answer_exact",
    "date_partial",
    "date_refuted"
   ],
   "note": "the rule about the date is false; answer_exact proves the exact text of every answer, date_partial which answers have a date"
  }
 ]
}