{"claims":[
{"property": "C01", "status": "proved", "theorems": ["C01_most_specific", "C01_served"], "note": ""},
{"property": "C02", "status": "proved", "theorems": ["C02_literal_prefix", "C02_unmatched_404"], "note": "literal paths and the 404 answer, for requests the mux hands to the proxy handler"},
{"property": "C03", "status": "partial", "theorems": ["C03_slash_refuted", "C03_boot_refuted"], "note": "refuted: the expression is compiled before the slash is added"},
{"property": "C04", "status": "partial", "theorems": ["C04_alternative_refuted", "C04_operator_refuted", "C04_anchored_partial", "C04_alternation_partial", "C04_operator_partial", "C04_cases_partial"], "note": "refuted for a top-level alternation and for a repetition operator at the beginning of the path; what every path that a configuration can have does match is proved"},
{"property": "C05", "status": "proved", "theorems": ["C05_down_defaults", "C05_up_defaults", "C05_idempotent"], "note": ""},
{"property": "C06", "status": "proved", "theorems": ["C06_boot_iff_valid"], "note": ""},
{"property": "C07", "status": "proved", "theorems": ["C07_file_wins", "C07_env_wins", "C07_no_fallback"], "note": ""},
{"property": "C08", "status": "proved", "theorems": ["C08_schemes", "C08_idempotent"], "note": ""},
{"property": "C09", "status": "partial", "theorems": ["C09_default_refuted", "C09_others_partial"], "note": "refuted for the name default; proved for every other name"},
{"property": "C10", "status": "proved", "theorems": ["C10_share", "C10_share_exact"], "note": ""},
{"property": "C11", "status": "partial", "theorems": ["C11_own_label", "C11_default", "C11_float_refuted", "C11_float_partial"], "note": "proved for exact weights; refuted for binary64 rounding"},
{"property": "C12", "status": "partial", "theorems": ["C12_race_refuted", "C12_no_overlap_partial", "C12_sequential_partial", "C12_alone_partial"], "note": "refuted: overlapping in-place sorts lose a label; proved when exchanges do not overlap"},
{"property": "C13", "status": "partial", "theorems": ["C13_process_refuted", "C13_reseed_refuted"], "note": "Refuted, for the generator alone (C13_reseed_refuted) and for a process with any generator (C13_process_refuted): after an error document the label depends on the second only. What does hold is C115."},
{"property": "C14", "status": "proved", "theorems": ["C14_mapped", "C14_unmapped", "C14_unmapped_503"], "note": "choice of server and the 503 answer"},
{"property": "C15", "status": "proved", "theorems": ["C15_forwarded", "C15_sent"], "note": ""},
{"property": "C16", "status": "partial", "theorems": ["C16_regex_refuted", "C16_literal_partial", "C16_text_partial", "C16_never"], "note": "refuted for regular expression paths; proved for literal paths; what is done with every URI is given exactly (C16_text_partial): the text of the path is replaced where it is first, and nothing if it is not there"},
{"property": "C17", "status": "partial", "theorems": ["C17_steer_refuted", "C17_host_partial", "C17_exactly_partial", "C17_anywhere"], "note": "refuted for transform /; host and port are given exactly for all requests (C17_exactly_partial), and on such a route a client can choose any host (C17_anywhere)"},
{"property": "C18", "status": "partial", "theorems": ["C18_chunked_refuted", "C18_exact_refuted", "C18_declared_partial", "C18_within_partial", "C18_chunked_partial", "C18_started_partial", "C18_sent_partial"], "note": "refuted for bodies of undeclared length and for declared lengths equal to the limit; proved otherwise"},
{"property": "C19", "status": "partial", "theorems": ["C19_whole_partial", "C19_within_partial", "C19_dropped_refuted", "C19_attempts", "C19_sent_partial", "C19_sent_within_partial"], "note": "refuted: a body of undeclared length over the limit is forwarded empty; proved otherwise"},
{"property": "C20", "status": "partial", "theorems": ["C20_refuted", "C20_method_partial", "C20_upstream", "C20_sent", "C20_capitals"], "note": "refuted when the body is too large (413 comes first); proved otherwise for requests that reach the proxy handler"},
{"property": "C21", "status": "proved", "theorems": ["C21_bound", "C21_once", "C21_sent"], "note": ""},
{"property": "C22", "status": "proved", "theorems": ["C22_headers", "C22_sent", "C22_spelling", "C22_respelled"], "note": ""},
{"property": "C23", "status": "proved", "theorems": ["C23_choice", "C23_upstream", "C23_error", "C23_proxied", "C23_everywhere"], "note": ""},
{"property": "C24", "status": "partial", "theorems": ["C24_headers_partial", "C24_server", "C24_request_id_refuted", "C24_hsts_refuted", "C24_relayed_partial"], "note": "refuted for X-Request-Id and Strict-Transport-Security; proved for every other header"},
{"property": "C25", "status": "partial", "theorems": ["C25_at_most_one", "C25_none_refuted", "C25_exactly_one_partial"], "note": "never two responses on any schedule; refuted that there is always one, since the handler can panic; exactly one when goroutines write on time and statuses are valid"},
{"property": "C26", "status": "partial", "theorems": ["C26_any_partial", "C26_on_time_partial", "C26_late_refuted", "C26_replies_partial"], "note": "refuted: a goroutine of a timed-out attempt stores its status in the attempt that replaced it; proved when goroutines write on time"},
{"property": "C27", "status": "partial", "theorems": ["C27_on_time", "C27_late", "C27_one_attempt_partial", "C27_status_refuted", "C27_gzip_refuted"], "note": "refuted for the status and for the compression flag; proved when goroutines write on time, which C27_on_time shows without upstream timeouts or without retries"},
{"property": "C28", "status": "partial", "theorems": ["C28_on_time_partial", "C28_late_refuted", "C28_code_refuted", "C28_closed_once"], "note": "refuted: late goroutine write, and upstream status below 100; proved when goroutines write on time and statuses are valid; no channel is closed twice on any schedule"},
{"property": "C29", "status": "partial", "theorems": ["C29_decoded_partial", "C29_decoded_once", "C29_exactly_partial", "C29_content_partial", "C29_brotli_refuted", "C29_archive_refuted", "C29_empty_refuted", "C29_relayed_partial"], "note": "What clients decode is given for every answer (C29_decoded_partial) and with it exactly when it is the content sent (C29_exactly_partial); refuted for other codings, gzip archives and empty gzip content."},
{"property": "C30", "status": "proved", "theorems": ["C30_true", "C30_head", "C30_decimal", "C30_relayed", "C30_any"], "note": ""},
{"property": "C31", "status": "partial", "theorems": ["C31_gzip_refuted", "C31_plain_partial", "C31_started_partial", "C31_replies_partial"], "note": "refuted for clients that accept gzip; proved for the others"},
{"property": "C32", "status": "partial", "theorems": ["C32_plain_partial", "C32_weight_refuted", "C32_relayed_partial", "C32_contains"], "note": "refuted for gzip;q=0; proved for headers that do not mention gzip"},
{"property": "C33", "status": "proved", "theorems": ["C33_downstream"], "note": "up to the handler's last look at the downstream timer (PCheck1 on the way to a proxied answer, PFin1 on the way to 502 or 504); a timer firing after that has no effect"},
{"property": "C34", "status": "proved", "theorems": ["C34_timeout", "C34_retry", "C34_error", "C34_success", "C34_in_order"], "note": "any schedule for timeouts; the 502 half is stated for runs without timers and, with timers, for runs with writes on time"},
{"property": "C35", "status": "proved", "theorems": ["C35_all", "C35_bound", "C35_progress", "C35_finish"], "note": ""},
{"property": "C36", "status": "proved", "theorems": ["C36_none_running"], "note": ""},
{"property": "C37", "status": "proved", "theorems": ["C37_write_timeout"], "note": "for round trip timeouts from 0 to 9223372035 seconds, outside which the duration overflows"},
{"property": "C38", "status": "proved", "theorems": ["C38_replaced", "C38_independent", "C38_relayed"], "note": ""},
{"property": "C39", "status": "partial", "theorems": ["C39_no_upstream", "C39_401_partial", "C39_refuted"], "note": "no upstream attempt without a valid token: proved; the 401 answer is refuted for tokens that are no JWS message (panic) and proved otherwise"},
{"property": "C40", "status": "proved", "theorems": ["C40_accepted", "C40_in_time", "C40_kid"], "note": "assumes that verification does not change the claims jwx reads from a token"},
{"property": "C41", "status": "partial", "theorems": ["C41_sound", "C41_year_1_refuted", "C41_complete_partial", "C41_unit_refuted", "C41_overflow_refuted", "C41_exactly_partial", "C41_unskewed"], "note": "soundness proved for all skews (dates in the first second of year 1 excepted); for skews up to 292 years the tokens accepted are given exactly (C41_exactly_partial): those in time, but for dates between now and skew milliseconds read as seconds since 1970, which get no skew; refuted that all in time are accepted"},
{"property": "C42", "status": "proved", "theorems": ["C42_key", "C42_unsigned", "C42_other"], "note": "jwx is assumed to verify only what the given algorithm and key signed"},
{"property": "C43", "status": "partial", "theorems": ["C43_parsed_partial", "C43_refuted", "C43_crash_exactly"], "note": "refuted: an unparsable token panics; proved for all others"},
{"property": "C44", "status": "partial", "theorems": ["C44_refuted", "C44_kept", "C44_new_kid_partial"], "note": "refuted for every known kid; proved for new kids"},
{"property": "C45", "status": "proved", "theorems": ["C45_adds"], "note": ""},
{"property": "C46", "status": "proved", "theorems": ["C46_rate", "C46_possible", "C46_lock", "C46_ends"], "note": ""},
{"property": "C47", "status": "partial", "theorems": ["C47_refuted", "C47_fresh_partial", "C47_exactly_partial"], "note": "refuted for repeated or missing kids; the keys found after a refresh are given exactly (C47_exactly_partial)"},
{"property": "C48", "status": "proved", "theorems": ["C48_accepted", "C48_result", "C48_no_panic", "C48_checked", "C48_named"], "note": ""},
{"property": "C49", "status": "partial", "theorems": ["C49_refuted", "C49_never_checked"], "note": "refuted: the about page never looks at its jwt"},
{"property": "C50", "status": "proved", "theorems": ["C50_extract_sound_complete"], "note": ""},
{"property": "C51", "status": "proved", "theorems": ["C51_ipv4_host_port", "C51_ipv4_in_message", "C51_decimal"], "note": ""},
{"property": "C52", "status": "partial", "theorems": ["C52_text", "C52_one", "C52_named_partial", "C52_apart_partial", "C52_others_refuted", "C52_zone", "C52_zone_partial", "C52_links_refuted", "C52_link_refuted", "C52_exactly_partial", "C52_rest_partial", "C52_clients_partial", "C52_another_refuted", "C52_ipv6_refuted", "C52_ipv6_partial"], "note": "The addresses logged as they are are given exactly, for texts (C52_exactly_partial) and for all addresses of clients (C52_clients_partial), and so is what is logged of the others (C52_rest_partial). Refuted: 2001:db8:1:2:3::6 and every address that differs in the first group is logged as db8:1:2:3::6, the address of somebody else (C52_another_refuted). Read as RFC 4291 says, what is logged names the client if and only if the address is legible (C52_named_partial), texts stand for one address only (C52_text, C52_one), and everybody else is logged under the address of another host (C52_others_refuted). Zones do not matter for what is found (C52_zone, C52_zone_partial): clients with one link-local address on two links are not told apart (C52_links_refuted), and of interface identifiers of four groups the last group is lost (C52_link_refuted)."},
{"property": "C53", "status": "proved", "theorems": ["C53_one", "C53_expires_first"], "note": ""},
{"property": "C54", "status": "partial", "theorems": ["C54_shows_partial", "C54_refuted", "C54_panics_exactly"], "note": "refuted: a serial with an odd number of hexadecimal digits other than 1 and 31 panics; the output is right for all others"},
{"property": "C55", "status": "partial", "theorems": ["C55_day_partial", "C55_days_partial", "C55_serial_refuted", "C55_dead", "C55_expired_refuted", "C55_expired_silent"], "note": "refuted for expired certificates and for unprintable serials; proved for chains that verify and print"},
{"property": "C56", "status": "partial", "theorems": ["C56_pools_partial", "C56_refuted", "C56_common_names"], "note": "refuted: only common names are compared; proved if these tell names apart"},
{"property": "C57", "status": "proved", "theorems": ["C57_recent", "C57_any"], "note": ""},
{"property": "C58", "status": "partial", "theorems": ["C58_exact_partial", "C58_none_missed_partial", "C58_rounding_refuted", "C58_zero_refuted", "C58_absent", "C58_message"], "note": "proved below 2^53 bytes; refuted above by rounding and for a resident size of zero"},
{"property": "C59", "status": "partial", "theorems": ["C59_status_partial", "C59_about_partial", "C59_bytes_refuted", "C59_inert", "C59_greetings"], "note": "refuted for texts that are not valid UTF-8; proved otherwise"},
{"property": "C60", "status": "proved", "theorems": ["C60_registered", "C60_unknown", "C60_table", "C60_case_blind"], "note": ""},
{"property": "C61", "status": "proved", "theorems": ["C61_about"], "note": ""},
{"property": "C62", "status": "partial", "theorems": ["C62_forwarded_refuted", "C62_all_refuted"], "note": "refuted"},
{"property": "C63", "status": "partial", "theorems": ["C63_empty_refuted", "C63_url_refuted", "C63_total_partial", "C63_once_partial"], "note": "refuted for an empty server list, for upstream URLs with an invalid port and (C39_refuted) unreadable tokens; proved otherwise"},
{"property": "C64", "status": "partial", "theorems": ["C64_exactly_partial", "C64_round", "C64_refuted", "C64_plain_partial", "C64_under_partial"], "note": "refuted: routes match the raw URI; proved for unencoded paths C64_exactly_partial gives exactly which ways of writing a path lead to its route (those with the route's path in front, not encoded); C64_round shows that with a catch-all route every path can be taken round its own route."},
{"property": "C65", "status": "partial", "theorems": ["C65_refuted", "C65_exactly_partial", "C65_process_partial", "C65_process_refuted"], "note": "refuted for ES algorithms; the crashing documents are characterised exactly, also for the whole process"},
{"property": "C66", "status": "partial", "theorems": ["C66_refuted", "C66_whole_partial", "C66_appends"], "note": "refuted: a report that overlaps an append can index out of range; proved without overlap"},
{"property": "C67", "status": "partial", "theorems": ["C67_refuted", "C67_clean_partial", "C67_redirected", "C67_fields"], "note": "refuted for CONNECT; proved for every other method"},
{"property": "C68", "status": "partial", "theorems": ["C68_refuted", "C68_exactly_partial"], "note": "refuted: duplicate about paths, or / as about path, panic at registration; proved that these are the only ways"},
{"property": "C69", "status": "partial", "theorems": ["C69_refuted", "C69_only_partial", "C69_dispatch_partial"], "note": "refuted in both directions; proved that the about page is served only at or below an about path"},
{"property": "C70", "status": "proved", "theorems": ["C70_started", "C70_hsts"], "note": ""},
{"property": "C71", "status": "partial", "theorems": ["C71_line_partial", "C71_logged_partial", "C71_address_partial", "C71_refuted", "C71_named_partial", "C71_others_refuted", "C71_zone_partial", "C71_links_refuted", "C71_client_partial", "C71_client_refuted"], "note": "refuted: a late goroutine can make the handler panic between response and line; at most one line, never one without a response, and its content are proved for every schedule, exactly one line if no goroutine writes late; the address is right for IPv4 and exactly the legible IPv6 addresses (C71_client_partial), others are lines about somebody else (C71_client_refuted); read as RFC 4291 says, the line names the client if and only if the address is legible (C71_named_partial), and otherwise somebody else, always (C71_others_refuted); the same with zones (C71_zone_partial), which the line leaves out (C71_links_refuted)"},
{"property": "C72", "status": "partial", "theorems": ["C72_message_partial", "C72_refuted"], "note": "proved if no goroutine writes late, for clients that do not get gzip; refuted otherwise"},
{"property": "C73", "status": "partial", "theorems": ["C73_relayed_partial", "C73_about_refuted", "C73_error_refuted", "C73_client_error_refuted", "C73_empty_refuted"], "note": "refuted for the about page, error documents, 4xx answers and empty bodies; proved for other bodies passed on"},
{"property": "C74", "status": "partial", "theorems": ["C74_attempt_partial", "C74_relayed_partial", "C74_refuted"], "note": "refuted when no attempt was answered (the line then has no upstream part); URI and count proved for every schedule, the status if no goroutine writes late"},
{"property": "C75", "status": "proved", "theorems": ["C75_listens", "C75_in_use"], "note": ""},
{"property": "C76", "status": "partial", "theorems": ["C76_timeouts_partial", "C76_refuted", "C76_exactly_partial"], "note": "proved for exactly the seconds that fit into a duration (292 years, C76_exactly_partial); refuted beyond"},
{"property": "C77", "status": "partial", "theorems": ["C77_tls_partial", "C77_unknown_refuted"], "note": "refuted: an unknown mode serves plain HTTP; the rest is proved"},
{"property": "C78", "status": "partial", "theorems": ["C78_client_partial", "C78_refuted", "C78_exactly_partial"], "note": "proved for exactly the seconds that fit into a duration (C78_exactly_partial); refuted beyond"},
{"property": "C79", "status": "proved", "theorems": ["C79_keep_alive"], "note": ""},
{"property": "C80", "status": "partial", "theorems": ["C80_id_partial", "C80_same_partial", "C80_refuted"], "note": "shape and dependence proved; refuted: host name and version are concatenated without a separator"},
{"property": "C81", "status": "proved", "theorems": ["C81_written"], "note": ""},
{"property": "C82", "status": "partial", "theorems": ["C82_client_partial", "C82_handshake_partial", "C82_handshake_v6_partial", "C82_v6_refuted"], "note": "proved for IPv4 and for exactly the legible IPv6 addresses (C82_client_partial); refuted for the others"},
{"property": "C83", "status": "partial", "theorems": ["C83_refuted", "C83_others_partial"], "note": "refuted: such events are logged at level TRACE only"},
{"property": "C84", "status": "proved", "theorems": ["C84_kid", "C84_none"], "note": ""},
{"property": "C85", "status": "proved", "theorems": ["C85_refresh"], "note": ""},
{"property": "C86", "status": "partial", "theorems": ["C86_paragraph", "C86_limit_partial", "C86_days_refuted", "C86_disruption_partial", "C86_always", "C86_disruption_refuted", "C86_earliest_partial", "C86_earliest_refuted", "C86_levels"], "note": "refuted for the day of disruption, for authorities that expire first and for certificates without a well-defined end; the rest is proved"},
{"property": "C87", "status": "proved", "theorems": ["C87_opens", "C87_keys"], "note": ""},
{"property": "C88", "status": "partial", "theorems": ["C88_one", "C88_lock", "C88_spaced_partial", "C88_refuted", "C88_asked", "C88_asks"], "note": "everything is proved but the ten seconds between the first two refreshes of a jwt that has both a key and a URL, for which they are refuted"},
{"property": "C89", "status": "partial", "theorems": ["C89_refuted", "C89_installed_partial", "C89_accepted", "C89_retry_partial"], "note": "Proved for entries that are processed: a kid that is new, in a document without an entry for another algorithm before it. Refuted for keys behind an entry for another algorithm: the request is refused again after the refresh (C89_refuted); C44 and C47 refute the rest."},
{"property": "C90", "status": "proved", "theorems": ["C90_order", "C90_alone", "C90_independent"], "note": ""},
{"property": "C91", "status": "partial", "theorems": ["C91_stay", "C91_refuted"], "note": "refuted; proved instead that keys in use stay in use"},
{"property": "C92", "status": "proved", "theorems": ["C92_accepted", "C92_matches", "C92_unambiguous"], "note": "for the subset of the syntax that Regex.v covers, on bytes"},
{"property": "C93", "status": "proved", "theorems": ["C93_gzip", "C93_kept", "C93_gunzip", "C93_function", "C93_gzip_returns", "C93_gunzip_returns"], "note": ""},
{"property": "C94", "status": "partial", "theorems": ["C94_exactly_partial", "C94_refuted", "C94_partial"], "note": "Refuted; C94_exactly_partial says exactly when such a body stays undecodable: the client takes gzip if and only if the body begins like gzip, or nothing of it is left."},
{"property": "C95", "status": "partial", "theorems": ["C95_refuted", "C95_ends_partial", "C95_goes_on_partial", "C95_exclusive", "C95_history", "C95_logged"], "note": "refuted for failing measurements; the rest is proved"},
{"property": "C96", "status": "partial", "theorems": ["C96_refuted", "C96_declared_partial", "C96_undeclared_partial", "C96_kept_partial"], "note": "refuted for clients that take gzip and for upstreams that do not declare lengths; exact condition proved for both kinds of upstreams"},
{"property": "C97", "status": "partial", "theorems": ["C97_line_partial", "C97_reply", "C97_token_line_partial", "C97_token_reply", "C97_refuted"], "note": "refuted for the query, which is in the URI of the attempt that is logged; proved for headers, bodies and tokens, in every run"},
{"property": "C98", "status": "proved", "theorems": ["C98_released", "C98_once"], "note": ""},
{"property": "C99", "status": "partial", "theorems": ["C99_failure_code", "C99_lines_partial", "C99_attempts_partial", "C99_order", "C99_outcome_partial", "C99_code_partial", "C99_code_refuted", "C99_attempts_refuted", "C99_level"], "note": "refuted for goroutines that write late: they change the status sent, or make the handler panic before the outcome is logged; the part about the level holds without exception C99_failure_code: the status in the line about an attempt that failed."},
{"property": "C100", "status": "partial", "theorems": ["C100_numbers_partial", "C100_texts_partial", "C100_flag_partial", "C100_routes_partial", "C100_jwts_partial", "C100_policies_partial", "C100_resources_partial", "C100_unreadable_partial", "C100_refuted", "C100_skew_refuted", "C100_numbers_last", "C100_texts_last", "C100_flag_last", "C100_routes_last", "C100_twice_refuted"], "note": "Proved for all documents: each setting is what is written or, if nothing of its type is written, the zero value that stands for the default; routes in order, jwts, policies and resources by name; no start without YAML or routes. Refuted for values of the wrong type: they are dropped silently, a route with a list for jwt is served without a token, a number for acceptableSkewSeconds gives 120 seconds. If a setting is written twice, in names of different case, the last value of the right type counts; so a route that says JWT: auth and then jwt: \"\" is served without a token."},
{"property": "C101", "status": "proved", "theorems": ["C101_guards", "C101_in_use"], "note": "From the document to the request sent upstream, with settings of the right type (see C100)."},
{"property": "C102", "status": "proved", "theorems": ["C102_targets", "C102_attempts"], "note": ""},
{"property": "C103", "status": "proved", "theorems": ["C103_listener", "C103_client"], "note": ""},
{"property": "C104", "status": "proved", "theorems": ["C104_round_trip", "C104_attempts", "C104_runs", "C104_time_passes"], "note": "The delay of the scheduler is an argument; see the trusted base."},
{"property": "C105", "status": "proved", "theorems": ["C105_never_early", "C105_in_time"], "note": ""},
{"property": "C106", "status": "partial", "theorems": ["C106_document_partial", "C106_refuted"], "note": "C106_document_partial needs seconds that fit into a duration of 292 years; C106_refuted shows why."},
{"property": "C107", "status": "partial", "theorems": ["C107_same_lines", "C107_every_run", "C107_attempt", "C107_response", "C107_timeouts", "C107_response_timeouts", "C107_bounds", "C107_response_bounds", "C107_within_partial", "C107_within_refuted"], "note": "All but the last sentence is proved. The last holds for lines about attempts and is refuted for the line about a response, where the duration of the request is read before that of the attempt (C107_within_refuted)."},
{"property": "C108", "status": "partial", "theorems": ["C108_first", "C108_not_late", "C108_not_early_partial", "C108_some_timeout_partial", "C108_refuted"], "note": "That an attempt is not repeated without reason is proved for goroutines that write on time; in general the read timeout of some attempt is over. An attempt answered in full and in time can be repeated because the response of an earlier one replaces its own (C108_refuted)."},
{"property": "C109", "status": "proved", "theorems": ["C109_share", "C109_default", "C109_draw", "C109_even", "C109_go_share", "C109_go_default", "C109_document"], "note": ""},
{"property": "C110", "status": "proved", "theorems": ["C110_id", "C110_body", "C110_sent", "C110_refused"], "note": ""},
{"property": "C111", "status": "partial", "theorems": ["C111_verdict", "C111_line_partial", "C111_line_refuted", "C111_contents", "C111_in_time", "C111_cause", "C111_rotation", "C111_dates_refuted"], "note": "Partial: a panic leaves no line (C111_line_refuted), and dates up to second 1 are not shown (C111_dates_refuted). Everything else of the claim is proved."},
{"property": "C112", "status": "partial", "theorems": ["C112_server", "C112_unmapped_partial", "C112_unmapped_refuted", "C112_uri"], "note": "Partial: no line tells of a route whose resource is not configured (C112_unmapped_refuted). Everything else is proved."},
{"property": "C113", "status": "proved", "theorems": ["C113_lines", "C113_same_token"], "note": ""},
{"property": "C114", "status": "partial", "theorems": ["C114_process_sound_partial", "C114_process_complete", "C114_sound_partial", "C114_complete", "C114_late_refuted"], "note": "proved in both directions for runs in which goroutines write on time; refuted without that: a late goroutine leads to a response no sequential proxy gives"},
{"property": "C115", "status": "proved", "theorems": ["C115_stream", "C115_number", "C115_replicas", "C115_share", "C115_document", "C115_draw", "C115_value"], "note": ""},
{"property": "C116", "status": "partial", "theorems": ["C116_kept_partial", "C116_source", "C116_depends", "C116_refuted"], "note": "Refuted: bodies are compressed or decompressed by Accept-Encoding and Vary is never added (C116_source, C116_depends); an upstream's Vary is kept."},
{"property": "C117", "status": "partial", "theorems": ["C117_kept_partial", "C117_refuted"], "note": "Refuted: Cache-Control is not looked at; C117_kept_partial says exactly when the bytes stay the same."},
{"property": "C118", "status": "partial", "theorems": ["C118_tags_partial", "C118_tag_kept", "C118_tags_refuted", "C118_part_partial", "C118_part_refuted"], "note": "Refuted for clients that differ in gzip and for parts that are compressed; holds among clients who all ask for gzip or all do not."},
{"property": "C119", "status": "partial", "theorems": ["C119_bare", "C119_refuted"], "note": "Refuted: every 4xx response has five headers of the proxy's at most (C119_bare), so no challenge, no Allow, no Retry-After."},
{"property": "C120", "status": "partial", "theorems": ["C120_kept", "C120_hops_refuted", "C120_via_refuted"], "note": "Refuted: the headers that tell of hops are passed on as the client sent them, in every request (C120_kept)."},
{"property": "C121", "status": "partial", "theorems": ["C121_strong", "C121_welcome_partial", "C121_refuted"], "note": "Every session is strong (C121_strong) and the clients that get one are characterised (C121_welcome_partial). Refuted in full: with an ECDSA certificate no TLS 1.2 client gets a session (C121_refuted)."},
{"property": "C122", "status": "partial", "theorems": ["C122_said", "C122_listening", "C122_boot_partial", "C122_line_partial", "C122_line_refuted", "C122_boot_refuted"], "note": "What the signal and the line stand for is stated exactly (C122_boot_partial, C122_line_partial, C122_said). Refuted: both can precede a failure to listen (C122_line_refuted, C122_boot_refuted)."},
{"property": "C123", "status": "partial", "theorems": ["C123_one_per_kid", "C123_bound_partial", "C123_same", "C123_refuted"], "note": "One key for each kid, at most the kids ever published, nothing added by a document that comes again (C123_one_per_kid, C123_bound_partial, C123_same). Refuted: keys are never given up, so with one key published at any time any number comes to be held (C123_refuted)."},
{"property": "C124", "status": "partial", "theorems": ["C124_sent_partial", "C124_exact_partial", "C124_origin_form", "C124_path_refuted", "C124_query_refuted"], "note": "What is sent is given exactly (C124_sent_partial): a path stays if all its characters may occur in a path, otherwise it is decoded and encoded again; the query stays, and what follows # goes. So the target stays for exactly the well-formed paths without # (C124_exact_partial). Refuted by an escaped slash beside a bar (C124_path_refuted) and a # in the query (C124_query_refuted). Servers have plain names."},
{"property": "C125", "status": "partial", "theorems": ["C125_exactly_partial", "C125_nothing", "C125_fragment_refuted", "C125_port_refuted", "C125_forms"], "note": "Upstream requests can be made for exactly the targets whose part after # (if any) can be decoded (C125_exactly_partial); for others nothing is sent to anybody (C125_nothing). Refuted by /a?#% (C125_fragment_refuted), and with a transform by letters left behind the port (C125_port_refuted, C63_url_refuted with the modelled http.NewRequest)."},
{"property": "C126", "status": "partial", "theorems": ["C126_same_route_partial", "C126_refuted"], "note": "Holds for well-formed paths (C126_same_route_partial). Refuted: /%61dmin/| is routed by / and sent as /admin/%7C, for which the process answers 401 (C126_refuted)."},
{"property": "C127", "status": "proved", "theorems": ["C127_framed"], "note": "The lines written by the client of net/http (Wire.v) for every request sent."},
{"property": "C128", "status": "partial", "theorems": ["C128_kept_partial", "C128_agent", "C128_codings", "C128_own", "C128_agent_refuted", "C128_coding_refuted"], "note": "Holds for all lines but User-Agent and Accept-Encoding (C128_kept_partial); what becomes of these is given exactly (C128_agent, C128_codings), and so are the lines of the proxy (C128_own). Refuted by the User-Agent of net/http (C128_agent_refuted) and by gzip for clients that want no coding (C128_coding_refuted)."},
{"property": "C129", "status": "partial", "theorems": ["C129_once_partial", "C129_bound_partial", "C129_refuted"], "note": "Holds without keys of idempotency for POST, CONNECT, PUT and DELETE (C129_once_partial); for all others failed connections from the pool come on top (C129_bound_partial). Refuted: one attempt makes any number of copies (C129_refuted)."},
{"property": "C130", "status": "partial", "theorems": ["C130_exactly_partial", "C130_spelled_partial", "C130_content_partial", "C130_archive_refuted"], "note": "Holds for gzip decoded by the transport unless the content looks like gzip itself, and in the other cases as C29 does; empty content is no exception any more (C130_content_partial); C130_exactly_partial gives the exact condition. Refuted: of an archive compressed on the wire a client without Accept-Encoding gets what is in it (C130_archive_refuted). The same however the upstream spells gzip (C130_spelled_partial)."},
{"property": "C131", "status": "partial", "theorems": ["C131_exactly_partial", "C131_only", "C131_report", "C131_day_refuted", "C131_fallen_refuted"], "note": "Proved for 23 hours and sizes below 2^53 bytes: some report tells exactly if a sample is at least twice one at most 23 samples before it, as soon as these are complete, provided that reports follow each other at least as closely as samples do. Refuted: 24 samples are 23 hours, so that doubling in a day is not told (C131_day_refuted); an increase is told while there is less than at the beginning (C131_fallen_refuted)."},
{"property": "C132", "status": "partial", "theorems": ["C132_durations", "C132_dates", "C132_site", "C132_authority", "C132_disruption", "C132_grace", "C132_grace_refuted", "C132_message", "C132_when", "C132_uptime_partial", "C132_days_refuted", "C132_first_day", "C132_short_partial", "C132_past"], "note": "Proved: durations, dates by the calendar, and the whole text of the report, except for the sentence about an expired grace period, which tells a negative time (C132_grace, C132_grace_refuted). The uptime is told in whole weeks from a week on and in whole years from a year on (C132_uptime_partial, C132_days_refuted), and not at all in the first day (C132_first_day)."},
{"property": "C133", "status": "partial", "theorems": ["C133_same", "C133_lines", "C133_warned_partial", "C133_new", "C133_refuted", "C133_panic"], "note": "The lines are given exactly (C133_lines), and so is when a load warns and when it fails without a warning (C133_warned_partial); new keys are among those said to be parsed (C133_new). Refuted: an entry that is no key is said to be successfully parsed, and the load fails without a warning (C133_refuted)."},
{"property": "C134", "status": "partial", "theorems": ["C134_alone", "C134_whole", "C134_ends", "C134_settled_partial", "C134_refuted"], "note": "Proved for every interleaving: a call ends with what it would have found alone (C134_alone), never uses a missing pattern (C134_whole) and makes at most twelve accesses, none of which waits (C134_ends). Refuted: the first requests race for the patterns (C134_refuted); once they are set there is no race any more (C134_settled_partial)."},
{"property": "C135", "status": "partial", "theorems": ["C135_rest", "C135_exact", "C135_fresh", "C135_orderly_partial", "C135_refuted"], "note": "What a request sees is given exactly (C135_exact); memory at rest holds the set of Jwt.v (C135_rest), and keys there at the beginning are not missed (C135_fresh). Refuted: with the pointer of before and the length of after a load a request gets beyond the array (C135_refuted); with lengths stored behind and copied before pointers it sees one set (C135_orderly_partial)."},
{"property": "C136", "status": "partial", "theorems": ["C136_word", "C136_first_partial", "C136_one_partial", "C136_scheme_refuted", "C136_second_refuted", "C136_spaces", "C136_spaces_refuted"], "note": "What the code does is exact: the verdict is about the second word of the first field (C136_word), and all fields are sent (C136_first_partial). Refuted: any scheme will do (C136_scheme_refuted), a second field is sent unchecked (C136_second_refuted), two spaces make the handler panic (C136_spaces, C136_spaces_refuted). Proved for one field with the scheme Bearer and one space (C136_one_partial)."},
{"property": "C137", "status": "partial", "theorems": ["C137_line", "C137_any_line", "C137_members", "C137_read", "C137_apart_partial", "C137_bytes_refuted", "C137_colour_partial", "C137_colour_any_partial", "C137_colour_refuted"], "note": "Without colour every line is one line (C137_line, C137_any_line) and a JSON object with just the members logged (C137_members, C137_read), from which all of UTF-8 is read back (C137_apart_partial). Refuted: bytes that are no UTF-8 are logged alike (C137_bytes_refuted); with LOGCOLOR and LOGLEVEL=DEBUG any line can be put into the log by a request that is refused with 401 (C137_colour_refuted), although fields and fixed messages stay on their line (C137_colour_partial, C137_colour_any_partial)."},
{"property": "C138", "status": "partial", "theorems": ["C138_nearest", "C138_order", "C138_unreal", "C138_sample_partial", "C138_growth_partial", "C138_uptime_partial", "C138_quiet", "C138_told_refuted"], "note": "C138_nearest, C138_order, C138_unreal about numbers; C138_sample_partial, C138_growth_partial, C138_uptime_partial for processes asked for level debug or trace; C138_quiet and C138_told_refuted: at all other levels, the default among them, nothing is told, not even that memory doubled."},
{"property": "C139", "status": "partial", "theorems": ["C139_offered", "C139_fields", "C139_formed_partial", "C139_malformed", "C139_formed_refuted", "C139_kept", "C139_goaway", "C139_goaway_source", "C139_goaway_refuted"], "note": "C139_offered, C139_fields and C139_kept hold without exception; C139_formed_partial for answers without Keep-Alive, Proxy-Connection and Upgrade and methods other than CONNECT; C139_malformed: with one of the three headers no relayed response outside 400 to 499 is well-formed; C139_formed_refuted: the Keep-Alive header node.js sends; C139_goaway, C139_goaway_source: exactly an upstream's Connection: close winds the client's connection down; C139_goaway_refuted."},
{"property": "C140", "status": "partial", "theorems": ["C140_host", "C140_user", "C140_told", "C140_goes_partial", "C140_steered", "C140_refuted"], "note": "C140_host, C140_user and C140_told: net/http agrees with RFC 3986 on the host of every URL it accepts; C140_goes_partial: the Host line is the server's unless a transform / glued text to it; C140_steered: with transform / a client reaches any plain host and port, through net/http's own parser; C140_refuted. The full statement is false as for C17."},
{"property": "C141", "status": "partial", "theorems": ["C141_bad", "C141_misread", "C141_served", "C141_target", "C141_fields", "C141_body", "C141_hop", "C141_body_sent", "C141_no_body", "C141_body_refuted", "C141_sized_refuted", "C141_line_partial", "C141_line_exact", "C141_split", "C141_line_refuted", "C141_connect"], "note": "C141_served and C141_target, C141_fields, C141_body: what of HTTP/2 gets to the handler, exactly; C141_hop, C141_body_sent, C141_no_body: what the upstream gets; C141_line_partial, C141_line_exact and C141_split: the request line is well formed exactly if the query has no space; C141_connect: CONNECT is answered by net/http. C141_line_refuted: over HTTP/2 a query with a space breaks the request line of the upstream; C141_body_refuted: a request whose Content-Length is no number goes upstream without its body; C141_sized_refuted: lengths below -1 get to the handler. C141_misread: lengths that are no numbers count as 0."},
{"property": "C142", "status": "partial", "theorems": ["C142_framed_partial", "C142_connect_refuted", "C142_head_refuted", "C142_one_framing", "C142_closes", "C142_closes_relayed", "C142_keeps", "C142_told_partial", "C142_told_refuted", "C142_date", "C142_type_partial", "C142_type_refuted", "C142_framed_client_partial", "C142_closes_client", "C142_keeps_client", "C142_connect", "C142_head", "C142_kept_client", "C142_told_client", "C142_old_partial", "C142_old_refuted"], "note": "C142_framed_partial: the client reads exactly the body, the next message follows; missing are CONNECT and HEAD in other letters than capitals (C142_connect_refuted, C142_head_refuted). C142_one_framing; C142_closes, C142_closes_relayed, C142_keeps: which connections are closed; C142_told_partial: closing is told, not the other way round (C142_told_refuted). C142_date; C142_type_partial: the upstream's type, unless it sends an empty Content-Encoding (C142_type_refuted). C142_connect and C142_head say for all such requests what their clients get. C142_framed_client_partial, C142_closes_client and C142_keeps_client say the same from the headers of the request (same exceptions). C142_kept_client: connections to clients of HTTP/1.0 that ask are kept; C142_told_client: whoever asks for closing is told. C142_old_partial: clients of HTTP/1.0 are not told that a closed connection is kept, except behind requests that were not read to their end (C142_old_refuted)."}
]}
