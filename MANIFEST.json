{
 "claims": [
  {
   "property": "C01",
   "status": "proved",
   "theorems": [
    "all_terminate",
    "most_terminate"
   ],
   "note": "in the model a loop that exceeds its bound yields OutOfFuel; library functions are assumed to terminate"
  },
  {
   "property": "C02",
   "status": "proved",
   "theorems": [
    "openings_exist",
    "prints_well_formed"
   ],
   "note": ""
  },
  {
   "property": "C03",
   "status": "proved",
   "theorems": [
    "prints_result_shape"
   ],
   "note": ""
  },
  {
   "property": "C04",
   "status": "proved",
   "theorems": [
    "walk_split",
    "prints_exact"
   ],
   "note": ""
  },
  {
   "property": "C05",
   "status": "proved",
   "theorems": [
    "cuts",
    "cut_quiet",
    "cut_panics",
    "cut_returns_refuted",
    "demo_duration_truncated"
   ],
   "note": "never-panics is refuted; the exact condition is proved"
  },
  {
   "property": "C06",
   "status": "proved",
   "theorems": [
    "end_marker_exists",
    "demo_duration_sum",
    "demo_duration_overflow",
    "demo_duration_truncated"
   ],
   "note": ""
  },
  {
   "property": "C07",
   "status": "proved",
   "theorems": [
    "ms_conversion",
    "ms_to_ns_mono",
    "ms_to_ns_close",
    "ms_to_ns_seconds",
    "ms_to_ns_whole",
    "ms_to_ns_seconds_refuted"
   ],
   "note": ""
  },
  {
   "property": "C08",
   "status": "proved",
   "theorems": [
    "match_duration_seeking",
    "countdown_sum",
    "match_duration_seeking_refuted"
   ],
   "note": ""
  },
  {
   "property": "C09",
   "status": "proved",
   "theorems": [
    "countdown_hoonymode",
    "match_duration_hoonymode",
    "match_duration_decimal",
    "match_duration_integer",
    "match_duration_without_stats",
    "match_duration_negative_refuted"
   ],
   "note": ""
  },
  {
   "property": "C10",
   "status": "proved",
   "theorems": [
    "ktxstats_chain",
    "ktxstats_embedded"
   ],
   "note": ""
  },
  {
   "property": "C100",
   "status": "proved",
   "theorems": [
    "frags_merged",
    "flags_merged",
    "mates_merged_refuted",
    "pings_merged_refuted"
   ],
   "note": "the renaming is arbitrary; scores: demos smaller than 2 GiB without team kills by an unnamed killer; flags: release builds, or fewer than 256 events of a kind under each new name"
  },
  {
   "property": "C101",
   "status": "proved",
   "theorems": [
    "teams_merged",
    "teams_relabelled",
    "recordings_reteamed",
    "recordings_teams",
    "frags_reteamed",
    "frags_reteamed_refuted",
    "teams_merged_refuted",
    "joined_color_refuted"
   ],
   "note": "teams_merged covers any map on team names; teams_relabelled covers injective maps. recordings_reteamed and recordings_teams state the same for players() and teams() on two recordings that differ in the userinfo strings only and have no readable statistics. frags_reteamed says that the scores do not depend on the names of the teams. The bounds on the ping of a joined team hold while the sum of pings and the count are at most 8388608. The refuted theorems show that joined sums can overflow, and that the colour of a joined team can be that of none of its parts."
  },
  {
   "property": "C102",
   "status": "proved",
   "theorems": [
    "team_columns",
    "team_own_members",
    "player_leaves",
    "recordings_columns",
    "recordings_recolored",
    "recolored_refuted"
   ],
   "note": "R is any relation between players that keeps the team, so the two lists may differ in everything else. Overflows are excluded (sums_fit). Recolouring needs an injective map and, from three players on, one colour worn most: recolored_refuted for a map that joins colours. The recordings have no readable statistics, so players come from parsing."
  },
  {
   "property": "C103",
   "status": "proved",
   "theorems": [
    "stats_one_more",
    "parsed_one_more",
    "recordings_one_more",
    "recordings_teams_one_more"
   ],
   "note": "The recordings have the same events and statistics after the client list and no readable statistics, so players come from parsing; the new client comes last, as a new slot does. Names of the players of the smaller recording are distinct; the new player may share a name."
  },
  {
   "property": "C104",
   "status": "proved",
   "theorems": [
    "rows_determined",
    "events_determined",
    "tables_determined",
    "fault_message_determined",
    "teams_determined",
    "teams_only",
    "teams_determined_refuted"
   ],
   "note": "Tables are hash maps, so they are compared row by row, not by order. Together with C12, C14, C17, C23, C26, C29, C31, C51 and C68 this makes each result the only one that fits its description."
  },
  {
   "property": "C105",
   "status": "proved",
   "theorems": [
    "stats_climb",
    "stats_climb_refuted",
    "climb_passes",
    "parsed_climb",
    "teams_climb",
    "team_color_climb_refuted",
    "recordings_climb",
    "recordings_teams_climb"
   ],
   "note": "For recordings: well-formed (wf_recording), players with distinct names, no statistics that can be read; for teams, sums that fit their types. The colour of a team of two may change."
  },
  {
   "property": "C106",
   "status": "proved",
   "theorems": [
    "score_rows_once",
    "flag_rows_once",
    "stats_standing",
    "standing_rows_refuted",
    "parsed_standing"
   ],
   "note": "parsed demos: at most 256 clients, pings reported; players with the same name and score may change places with one another"
  },
  {
   "property": "C11",
   "status": "proved",
   "theorems": [
    "ktxstats_missing",
    "ktxstats_embedded",
    "ktxstats_returns",
    "ktxstats_returns_refuted"
   ],
   "note": "never-panics is refuted; the exact condition is proved for overflow checks on"
  },
  {
   "property": "C12",
   "status": "proved",
   "theorems": [
    "ping_records_inverse",
    "pings_average",
    "pings_none",
    "pings_overflow",
    "pings_truncated",
    "pings_average_refuted"
   ],
   "note": ""
  },
  {
   "property": "C13",
   "status": "proved",
   "theorems": [
    "obituary_event",
    "obituary_exact",
    "obituary_unknown",
    "obituary_event_refuted"
   ],
   "note": "the exclusions on names are necessary; obituary_exact covers every text"
  },
  {
   "property": "C14",
   "status": "proved",
   "theorems": [
    "frags_score_table",
    "scored_exists",
    "frags_score_table_named"
   ],
   "note": ""
  },
  {
   "property": "C15",
   "status": "proved",
   "theorems": [
    "anonymous_teamkill"
   ],
   "note": ""
  },
  {
   "property": "C16",
   "status": "proved",
   "theorems": [
    "flag_event_named",
    "flag_event_named_exact",
    "flag_names_exact",
    "flag_names_in_a_line",
    "flag_event_exact",
    "flag_event_unknown",
    "flag_event_named_refuted"
   ],
   "note": "the exact condition on names, per message and for all messages; flag_event_exact covers every text"
  },
  {
   "property": "C17",
   "status": "proved",
   "theorems": [
    "flags_counted",
    "flags_overflow",
    "announces_exists",
    "tells_all_exists",
    "flags_one_each",
    "flags_two_in_a_frame_refuted",
    "flags_counted_refuted"
   ],
   "note": "the exact counts are proved for every demo that ends quietly; counting every message is refuted for two messages in one frame and for 256 equal deeds"
  },
  {
   "property": "C18",
   "status": "proved",
   "theorems": [
    "serverinfo_string_ok",
    "serverinfo_string_err",
    "serverinfo_string_panics"
   ],
   "note": ""
  },
  {
   "property": "C19",
   "status": "proved",
   "theorems": [
    "is_valid_true",
    "is_valid_false",
    "is_valid_short",
    "is_valid_returns_refuted"
   ],
   "note": "returns-for-every-input is refuted"
  },
  {
   "property": "C20",
   "status": "proved",
   "theorems": [
    "end_of_demo_decided",
    "aborted_decided",
    "paused_decided",
    "finished_not_paused",
    "aborted_stays"
   ],
   "note": ""
  },
  {
   "property": "C21",
   "status": "proved",
   "theorems": [
    "clientinfo_run"
   ],
   "note": ""
  },
  {
   "property": "C22",
   "status": "proved",
   "theorems": [
    "clientinfo_shape",
    "clientinfo_missing",
    "clientinfo_returns",
    "clientinfo_returns_refuted"
   ],
   "note": "never-panics is refuted"
  },
  {
   "property": "C23",
   "status": "proved",
   "theorems": [
    "clients_numbered",
    "clients_wrap",
    "clients_fail",
    "clients_numbered_refuted",
    "players_and_spectators",
    "each_client_once"
   ],
   "note": ""
  },
  {
   "property": "C24",
   "status": "proved",
   "theorems": [
    "name_lists",
    "team_list",
    "team_list_refuted"
   ],
   "note": "under the stated contract of the text crate's sort"
  },
  {
   "property": "C25",
   "status": "proved",
   "theorems": [
    "humans",
    "bots",
    "humans_or_bots"
   ],
   "note": ""
  },
  {
   "property": "C26",
   "status": "proved",
   "theorems": [
    "players_parsed",
    "players_parsed_many",
    "players_parsing_fails"
   ],
   "note": ""
  },
  {
   "property": "C27",
   "status": "proved",
   "theorems": [
    "players_deterministic",
    "players_parsed_deterministic",
    "players_deterministic_refuted"
   ],
   "note": "full determinism is refuted for players with equal name and score"
  },
  {
   "property": "C28",
   "status": "proved",
   "theorems": [
    "player_order_exact",
    "player_order_total",
    "player_sort_unique"
   ],
   "note": ""
  },
  {
   "property": "C29",
   "status": "proved",
   "theorems": [
    "stats_players",
    "stats_ping_refuted"
   ],
   "note": ""
  },
  {
   "property": "C30",
   "status": "proved",
   "theorems": [
    "players_source",
    "teams_source",
    "teams_stats_source"
   ],
   "note": ""
  },
  {
   "property": "C31",
   "status": "proved",
   "theorems": [
    "teams_exact",
    "teams_exact_small",
    "each_player_in_one_team",
    "teams_exact_refuted"
   ],
   "note": "without the bounds the statement is refuted"
  },
  {
   "property": "C32",
   "status": "proved",
   "theorems": [
    "teams_exact",
    "teams_exact_small",
    "team_ping_refuted"
   ],
   "note": "field tm_ping of team_of"
  },
  {
   "property": "C33",
   "status": "proved",
   "theorems": [
    "teams_exact",
    "teams_exact_small",
    "team_color_refuted"
   ],
   "note": "field tm_color of team_of"
  },
  {
   "property": "C34",
   "status": "proved",
   "theorems": [
    "teams_deterministic",
    "teams_deterministic_refuted"
   ],
   "note": "full determinism is refuted; the ties that break it are excluded by hypothesis"
  },
  {
   "property": "C35",
   "status": "proved",
   "theorems": [
    "timestamp_epoch",
    "timestamp_no_epoch",
    "timestamp_short"
   ],
   "note": ""
  },
  {
   "property": "C36",
   "status": "proved",
   "theorems": [
    "matchdate_string_ok",
    "matchdate_string_err",
    "matchdate_string_returns",
    "utf8_decided"
   ],
   "note": ""
  },
  {
   "property": "C37",
   "status": "proved",
   "theorems": [
    "named_offset",
    "numeric_offset",
    "utc_offset_exact",
    "utc_offset_returns",
    "zones_distinct",
    "offset_form_refuted"
   ],
   "note": "the fixed form of the offset text is refuted; utc_offset_exact lists every accepted text"
  },
  {
   "property": "C38",
   "status": "proved",
   "theorems": [
    "matchdate_instant",
    "matchdate_cases",
    "matchdate_panics",
    "matchdate_returns_refuted",
    "next_day",
    "next_month",
    "next_year"
   ],
   "note": "under the stated contract of the date parser, which reads_dates_met shows can be met; never-panics is refuted and the panics are characterised exactly"
  },
  {
   "property": "C39",
   "status": "proved",
   "theorems": [
    "filename_ok",
    "filename_err",
    "server_ok",
    "server_err"
   ],
   "note": ""
  },
  {
   "property": "C40",
   "status": "proved",
   "theorems": [
    "tail_ignored",
    "clients_local",
    "tail_ignored_refuted",
    "prints_concatenation"
   ],
   "note": "for the score table the client list must not depend on the tail; without that the statement is refuted"
  },
  {
   "property": "C41",
   "status": "proved",
   "theorems": [
    "obituaries_printed"
   ],
   "note": ""
  },
  {
   "property": "C42",
   "status": "proved",
   "theorems": [
    "checks_only_stop",
    "checks_irrelevant",
    "checks_matter",
    "teams_exact_refuted",
    "team_color_refuted"
   ],
   "note": ""
  },
  {
   "property": "C43",
   "status": "proved",
   "theorems": [
    "cursor_position_irrelevant"
   ],
   "note": ""
  },
  {
   "property": "C44",
   "status": "proved",
   "theorems": [
    "offsets_between_some",
    "offsets_between_none",
    "offsets_between_clear"
   ],
   "note": ""
  },
  {
   "property": "C45",
   "status": "proved",
   "theorems": [
    "print_byte_size"
   ],
   "note": ""
  },
  {
   "property": "C46",
   "status": "proved",
   "theorems": [
    "header_decoded",
    "header_total",
    "header_index"
   ],
   "note": ""
  },
  {
   "property": "C47",
   "status": "proved",
   "theorems": [
    "byte_value",
    "u16_value",
    "u32_value",
    "bstring_value",
    "score_record",
    "score_record_errors",
    "ping_record",
    "ping_record_errors",
    "print_record",
    "print_record_errors"
   ],
   "note": ""
  },
  {
   "property": "C48",
   "status": "proved",
   "theorems": [
    "message_type_table",
    "message_type_rest",
    "hidden_message_table",
    "hidden_message_rest",
    "print_id_table",
    "print_id_rest",
    "unknown_codes",
    "codes_distinct",
    "target_table",
    "command_table"
   ],
   "note": ""
  },
  {
   "property": "C49",
   "status": "proved",
   "theorems": [
    "block_header",
    "block_header_errors"
   ],
   "note": ""
  },
  {
   "property": "C50",
   "status": "proved",
   "theorems": [
    "stats_duration_number",
    "stats_duration_written",
    "stats_duration_written_refuted",
    "exponents_in_full",
    "stats_duration_special",
    "stats_duration_other",
    "stats_duration_absent",
    "duration_text_one",
    "match_duration_source",
    "double_range"
   ],
   "note": "stats_duration_number holds for every text, with the exponent as std takes it; stats_duration_written with the exponent as written, for texts of up to 65000 bytes, beyond which it is false (stats_duration_written_refuted)."
  },
  {
   "property": "C51",
   "status": "proved",
   "theorems": [
    "utf8_fault_exists",
    "utf8_fault_one",
    "utf8_fault_text",
    "matchdate_string_fault",
    "ktxstats_fault"
   ],
   "note": ""
  },
  {
   "property": "C52",
   "status": "proved",
   "theorems": [
    "matchdate_string_texts",
    "matchdate_texts",
    "serverinfo_texts",
    "countdown_text",
    "obituary_text",
    "flag_event_text"
   ],
   "note": ""
  },
  {
   "property": "C53",
   "status": "proved",
   "theorems": [
    "frags_joined",
    "flags_joined",
    "pings_joined",
    "frags_joined_refuted"
   ],
   "note": "an anonymous team kill at the joint breaks additivity of the scores; refuted by example"
  },
  {
   "property": "C54",
   "status": "proved",
   "theorems": [
    "frags_any_order",
    "flags_any_order",
    "frags_any_order_refuted"
   ],
   "note": "anonymous team kills depend on the order; refuted by example"
  },
  {
   "property": "C55",
   "status": "proved",
   "theorems": [
    "bodies_only"
   ],
   "note": ""
  },
  {
   "property": "C56",
   "status": "proved",
   "theorems": [
    "frags_sum",
    "frags_bounds",
    "teams_sum"
   ],
   "note": ""
  },
  {
   "property": "C57",
   "status": "proved",
   "theorems": [
    "ping_between",
    "team_ping_between",
    "ping_between_refuted"
   ],
   "note": "without the bound on the sum the 16-bit sum wraps; refuted by example"
  },
  {
   "property": "C58",
   "status": "proved",
   "theorems": [
    "clientinfo_exact",
    "search_decided"
   ],
   "note": "both for found lists and for the panics"
  },
  {
   "property": "C59",
   "status": "proved",
   "theorems": [
    "ktxstats_unchecked",
    "ktxstats_checked"
   ],
   "note": "data shorter than 2^63 bytes, which Rust guarantees"
  },
  {
   "property": "C60",
   "status": "proved",
   "theorems": [
    "clock_one",
    "demo_duration_any",
    "countdown_any",
    "seeking_any",
    "seeking_stops"
   ],
   "note": ""
  },
  {
   "property": "C61",
   "status": "proved",
   "theorems": [
    "out_of_range_only",
    "out_of_range_or_overflow",
    "other_panics"
   ],
   "note": ""
  },
  {
   "property": "C62",
   "status": "proved",
   "theorems": [
    "prints_panics",
    "clients_panics",
    "serverinfo_panics",
    "is_valid_panics",
    "timestamp_panics",
    "frags_panics",
    "flags_panics",
    "pings_panics",
    "sound_demo"
   ],
   "note": "frags_panics: without overflow checks, or demos below 2^31 bytes"
  },
  {
   "property": "C63",
   "status": "proved",
   "theorems": [
    "recording_contents",
    "recording_events",
    "recording_times",
    "recording_players"
   ],
   "note": "recording_contents: closed under the global context"
  },
  {
   "property": "C64",
   "status": "proved",
   "theorems": [
    "growing_texts",
    "growing_clients",
    "growing_clients_final",
    "growing_kinds",
    "growing_prints",
    "growing_flags",
    "growing_pings",
    "growing_matchdate_refuted",
    "growing_paused_refuted",
    "growing_duration_refuted",
    "growing_clients_refuted"
   ],
   "note": "what is not final (date errors, pauses, durations, an unended client) is refuted by example"
  },
  {
   "property": "C65",
   "status": "proved",
   "theorems": [
    "prints_size",
    "ktxstats_size",
    "serverinfo_size",
    "clientinfo_size",
    "clients_size",
    "pings_size",
    "parsed_players_size",
    "durations_size"
   ],
   "note": ""
  },
  {
   "property": "C66",
   "status": "proved",
   "theorems": [
    "clients_fit",
    "frags_fit",
    "flags_fit",
    "pings_fit",
    "players_fit",
    "teams_fit"
   ],
   "note": "for statistics whose parser stores 32-bit scores"
  },
  {
   "property": "C67",
   "status": "proved",
   "theorems": [
    "lists_agree",
    "teams_divide",
    "lists_agree_stats_refuted",
    "lists_agree_refuted"
   ],
   "note": "refuted for more than 256 clients and across embedded statistics"
  },
  {
   "property": "C68",
   "status": "proved",
   "theorems": [
    "pings_any",
    "scores_any",
    "teams_any",
    "mean_ping_close"
   ],
   "note": "mean_ping_close bounds the rounding of team pings"
  },
  {
   "property": "C69",
   "status": "proved",
   "theorems": [
    "stats_panics",
    "stats_decided",
    "scores_panics",
    "parsing_panics",
    "players_panics",
    "team_list_panics",
    "teams_panics",
    "demo_duration_panics",
    "countdown_panics",
    "seeking_panics",
    "stats_duration_panics",
    "match_duration_panics"
   ],
   "note": "with C62 this covers every public function"
  },
  {
   "property": "C70",
   "status": "proved",
   "theorems": [
    "head_matters",
    "end_matters",
    "clients_matter",
    "date_matters",
    "stats_matter",
    "middle_does_not_matter",
    "stats_matter_less_refuted"
   ],
   "note": "the 18 bytes before the mark are needed; refuted for 17"
  },
  {
   "property": "C71",
   "status": "proved",
   "theorems": [
    "valid_guarantees",
    "valid_lists",
    "valid_no_panic",
    "valid_promises_refuted"
   ],
   "note": "what validity does not promise is refuted by example"
  },
  {
   "property": "C72",
   "status": "proved",
   "theorems": [
    "stats_shuffled",
    "teams_regrouped",
    "teams_stable",
    "teams_shuffled",
    "teams_shuffled_refuted",
    "teams_stable_refuted"
   ],
   "note": "the colour of a pair, and with overflow checks whether a sum is reached, depend on the order; refuted by example"
  },
  {
   "property": "C73",
   "status": "proved",
   "theorems": [
    "found_cut",
    "found_cut_refuted",
    "events_are_texts",
    "results_are_texts",
    "errors_are_texts",
    "stats_are_texts",
    "results_are_texts_refuted"
   ],
   "note": "In the model a text is a list of bytes, so that it is UTF-8 has to be proved. found_cut justifies the model's unchecked cut at a found position (fragevent.rs, flagevent.rs). The hypothesis returns_strings is what the type String says of the other crates' results; clean_env satisfies it."
  },
  {
   "property": "C74",
   "status": "proved",
   "theorems": [
    "flags_shown",
    "flag_events_debug",
    "print_debug",
    "client_debug",
    "player_debug",
    "team_debug",
    "server_debug",
    "flag_events_legible",
    "print_legible",
    "client_legible",
    "player_legible",
    "team_legible",
    "server_legible",
    "shown_one_way",
    "quoted_printable"
   ],
   "note": "Texts with ASCII content; format {:?} without #."
  },
  {
   "property": "C75",
   "status": "proved",
   "theorems": [
    "wide_target",
    "narrow_target",
    "narrow_stats",
    "narrow_others",
    "narrow_vast",
    "narrow_clock",
    "narrow_hangs",
    "narrow_countdown_hangs",
    "narrow_hangs_only",
    "narrow_clocks_hang_only",
    "narrow_terminates",
    "terminates_narrow_refuted"
   ],
   "note": "the width is a parameter of Model/Width.v; holds: 2 * size + 16384 below 2^width"
  },
  {
   "property": "C76",
   "status": "proved",
   "theorems": [
    "recording_lists",
    "recording_when",
    "recording_match_duration",
    "recording_from_stats",
    "recording_teams",
    "recording_aborted"
   ],
   "note": "On the recordings of C63. What the date parser, the JSON reader and the collation return is a parameter; the conditions on them are hypotheses of the theorems."
  },
  {
   "property": "C77",
   "status": "proved",
   "theorems": [
    "first_demo_tells",
    "second_demo_tells",
    "valid_splice",
    "splice_time",
    "splice_countdown",
    "splice_match",
    "splice_time_refuted"
   ],
   "note": "The second demo tells the end if it has the end-of-match text, or the whole file has none and it has the standby status, or the whole file has neither."
  },
  {
   "property": "C78",
   "status": "proved",
   "theorems": [
    "client_conversion",
    "player_conversion",
    "server_conversion",
    "team_conversion",
    "team_conversion_any",
    "team_conversion_none"
   ],
   "note": "The number 0 of Client::from is the first argument of client_from in the model; clients() passes the index there."
  },
  {
   "property": "C79",
   "status": "proved",
   "theorems": [
    "thin_prints_same",
    "thin_flags_same",
    "thin_pings_same",
    "thin_frags_same",
    "thin_frags_refuted"
   ],
   "note": "thin_frags_refuted: leaving out frames behind an unnamed team kill changes who is charged."
  },
  {
   "property": "C80",
   "status": "proved",
   "theorems": [
    "library_affixes",
    "library_search",
    "library_split",
    "library_first_of_table",
    "library_slice",
    "library_slice_from",
    "library_slice_to",
    "library_utf8",
    "library_chars",
    "library_text_from",
    "library_text_to",
    "library_text_slice",
    "library_trim",
    "library_trim_matches",
    "library_order",
    "library_sort",
    "library_dedup",
    "library_map",
    "library_unsigned_sum",
    "library_unsigned_difference",
    "library_signed_sum",
    "library_casts",
    "library_float_casts"
   ],
   "note": "The definitions standing for standard library operations determine exactly the outcomes their documentation gives."
  },
  {
   "property": "C81",
   "status": "proved",
   "theorems": [
    "frags_renamed",
    "frags_renamed_refuted",
    "flags_renamed",
    "pings_renumbered"
   ],
   "note": "Injectivity is needed (frags_renamed_refuted)."
  },
  {
   "property": "C82",
   "status": "proved",
   "theorems": [
    "prints_loop",
    "pings_loop",
    "flags_loop",
    "frags_loop",
    "team_killer_loop",
    "clock_loop",
    "clientinfo_strings_loop",
    "ktxstats_string_loop"
   ],
   "note": "The rounds are written from the source a second time, as rules, and without fuel. For the statistics the input is assumed shorter than 2^63 bytes, as every slice is."
  },
  {
   "property": "C83",
   "status": "proved",
   "theorems": [
    "frames_rounds",
    "prints_work",
    "pings_work",
    "flags_work",
    "deaths_work",
    "clientinfo_rounds",
    "ktxstats_rounds"
   ],
   "note": "Rounds of loops are counted, not the work inside find, rfind and the conversions of texts."
  },
  {
   "property": "C84",
   "status": "proved",
   "theorems": [
    "flag_events_pretty",
    "print_pretty",
    "client_pretty",
    "player_pretty",
    "team_pretty",
    "server_pretty",
    "clients_pretty",
    "players_pretty",
    "teams_pretty",
    "flag_events_pretty_legible",
    "print_pretty_legible",
    "client_pretty_legible",
    "player_pretty_legible",
    "team_pretty_legible",
    "server_pretty_legible",
    "clients_pretty_legible",
    "players_pretty_legible",
    "pretty_one_way"
   ],
   "note": "The builders of core::fmt are written out in Model/Pretty.v; texts are ASCII."
  },
  {
   "property": "C85",
   "status": "proved",
   "theorems": [
    "prints_rewritten",
    "prints_copied",
    "date_copied",
    "info_copied",
    "clients_copied",
    "stats_copied",
    "stats_copied_refuted"
   ],
   "note": "stats_copied needs a text that begins with the version mark and has it nowhere else; stats_copied_refuted shows that some condition is needed."
  },
  {
   "property": "C86",
   "status": "proved",
   "theorems": [
    "days_before_year",
    "moments_in_order",
    "dates_in_order",
    "dates_across_zones",
    "every_instant",
    "dates_in_order_refuted"
   ],
   "note": "The calendar is the specification's own (days of months and years added up), so order, uniqueness and completeness are theorems about it. dates_in_order, dates_across_zones and every_instant assume reads_dates: chrono reads yyyy-mm-dd hh:mm:ss with an offset as the calendar says; reads_dates_met shows that the assumption can be met. dates_in_order_refuted: texts of different zones need not be in order."
  },
  {
   "property": "C87",
   "status": "proved",
   "theorems": [
    "players_agree",
    "teams_agree",
    "demo_teams_agree",
    "players_agree_refuted"
   ],
   "note": "What the unit test test_players checks for three demos, for all demos. The statistics and the clients of the demo must list the same people (matched); no two of them have both score and name in common (no_ties), otherwise places may be swapped: players_agree_refuted. Sums must fit (sums_fit, small_pings)."
  },
  {
   "property": "C88",
   "status": "proved",
   "theorems": [
    "texts_use",
    "counts_use",
    "times_use",
    "results_use"
   ],
   "note": "For each of 33 functions the exact set of libraries, hash map orders and build settings its result depends on: equality when these agree, and a pair of environments that differ in one of them with different results. The overflow witnesses for the clocks and scores are demos of 16843010 and 2^31 frames, handled by induction."
  },
  {
   "property": "C89",
   "status": "proved",
   "theorems": [
    "chat_marks",
    "chat_counts",
    "chat_head",
    "chat_clients_same",
    "chat_date_same",
    "chat_stats_same",
    "chat_players_same",
    "chat_forges_refuted",
    "chat_hides_killer_refuted"
   ],
   "note": "Compared are the encodings of fs ++ gs and of fs ++ chat t :: gs. The frame before the message must end in NUL, as texts do; where it matters, the clients must stand before the message, the date line on one side and the statistics after it. The frag result needs that every team killer is named; without it the same message changes the result (second refuted theorem). The first refuted theorem shows that each excluded text matters."
  },
  {
   "property": "C90",
   "status": "proved",
   "theorems": [
    "cut_short_invalid",
    "cut_accepted_at",
    "start_lost_invalid",
    "start_lost_false",
    "junk_before_invalid",
    "junk_after_finished",
    "junk_after_invalid",
    "hole_noticed_refuted"
   ],
   "note": "A file that lacks its end, its start, or has something before or after it is rejected by is_valid(); the exceptions are exact (a second end text). With a start missing and 1024 to 1279 bytes left the answer may be a panic (C19), so start_lost_invalid says that it is not true, and start_lost_false gives false outside that range. That a hole in the middle is noticed is refuted."
  },
  {
   "property": "C91",
   "status": "proved",
   "theorems": [
    "wait_marks",
    "wait_counts",
    "wait_head",
    "wait_clients",
    "wait_date_same",
    "wait_stats_same",
    "wait_players",
    "wait_demo_duration",
    "wait_countdown",
    "wait_match",
    "wait_match_exact_refuted"
   ],
   "note": "Compared are the encodings of fs ++ gs and of fs ++ wait t :: gs. The conditions on the place are those of C89; no killer has to be named here. Demo and countdown durations are given exactly; the bounds on the match duration hold up to 16384 seconds. The refuted theorem shows that waiting before the match can change its length by some nanoseconds, so the bound cannot be replaced by equality."
  },
  {
   "property": "C92",
   "status": "proved",
   "theorems": [
    "stretch_times",
    "stretch_serverinfo",
    "stretch_marked_refuted",
    "stretch_half_refuted"
   ],
   "note": "Compared are the encodings of a ++ h ++ b and a ++ h' ++ b, where h and h' need not have the same number of frames or bytes. No bound on the sums of times: an overflow is the same on both sides. The refuted theorems show that neither a mark in the stretch nor the first part of one at its end may be allowed."
  },
  {
   "property": "C93",
   "status": "proved",
   "theorems": [
    "frags_edits",
    "frags_edits_named",
    "frags_edits_tight",
    "frags_edits_clients_refuted"
   ],
   "note": "For demos made of frames, below 2 GiB. The condition that the clients stay the same is needed, see frags_edits_clients_refuted; it is not needed if every obituary names the killer."
  },
  {
   "property": "C94",
   "status": "proved",
   "theorems": [
    "prints_patched",
    "frags_patched",
    "flags_patched",
    "pings_patched",
    "prints_patched_equal_refuted",
    "frags_patched_anonymous_refuted",
    "pings_patched_many_refuted"
   ],
   "note": "For demos made of frames. The conditions (equal neighbours count once, named killers, at most eight frames with pings) are needed, see the refuted statements."
  },
  {
   "property": "C95",
   "status": "proved",
   "theorems": [
    "obituary_clear",
    "first_name_exact",
    "second_name_exact",
    "obituary_any_name_refuted"
   ],
   "note": "clear_second is sufficient for all obituaries; second_name_exact gives the exact condition for each phrase"
  },
  {
   "property": "C96",
   "status": "proved",
   "theorems": [
    "demo_time_recovered",
    "demo_time_recovered_refuted",
    "match_time_near",
    "match_time_recovered",
    "match_seconds_refuted",
    "match_time_recovered_refuted"
   ],
   "note": "the bounds on the length of the demo are shown to be needed by the three refuted statements"
  },
  {
   "property": "C97",
   "status": "proved",
   "theorems": [
    "scores_from_prints",
    "same_prints_same_scores",
    "scores_from_echo_refuted",
    "scores_from_frames_refuted"
   ],
   "note": "both conditions are shown to be needed by the refuted statements"
  },
  {
   "property": "C98",
   "status": "proved",
   "theorems": [
    "flags_from_prints",
    "pieced_exists",
    "same_prints_same_flags",
    "flags_from_echo_refuted",
    "flags_from_frames_refuted",
    "flags_from_hidden_refuted"
   ],
   "note": "for text conversions that do not bring up the word flag; the conditions on frames are shown to be needed by the refuted statements"
  },
  {
   "property": "C99",
   "status": "proved",
   "theorems": [
    "tables_as_written",
    "tables_apart",
    "tables_of_players"
   ],
   "note": "for every recording of C63 in which nothing happens and every three tables; the written demo must be smaller than 2 GiB; a row of the flag table has at least one event and counters below 256"
  }
 ]
}