{
 "claims": [
  {
   "property": "C01",
   "status": "proved",
   "theorems": [
    "C01_counter_never_exceeds_reports",
    "C01_ban_needs_maxretry_reports"
   ],
   "note": ""
  },
  {
   "property": "C02",
   "status": "proved",
   "theorems": [
    "C02_exact_in_window",
    "C02_window_sound_refuted",
    "C02_window_complete_refuted",
    "C02_estimate",
    "C02_burst_counts"
   ],
   "note": "Exact while all reports lie within findtime; the sliding-window reading outside it is refuted in both directions (C02_window_*_refuted)."
  },
  {
   "property": "C03",
   "status": "proved",
   "theorems": [
    "C03_cleanup_exact"
   ],
   "note": ""
  },
  {
   "property": "C04",
   "status": "proved",
   "theorems": [
    "C04_isolation",
    "C04_unknown_id_refuted"
   ],
   "note": "Isolation proved; asking for an unknown ID returns another bannable ID (C04_unknown_id_refuted)."
  },
  {
   "property": "C05",
   "status": "proved",
   "theorems": [
    "C05_tracked_exactly",
    "C05_fixed_setting_needed_refuted"
   ],
   "note": ""
  },
  {
   "property": "C06",
   "status": "proved",
   "theorems": [
    "C06_ban_list_exact",
    "C06_answers",
    "C06_contents"
   ],
   "note": ""
  },
  {
   "property": "C07",
   "status": "proved",
   "theorems": [
    "C07_no_early_unban",
    "C07_others_stay"
   ],
   "note": ""
  },
  {
   "property": "C08",
   "status": "proved",
   "theorems": [
    "C08_next_check_lifts",
    "C08_drain",
    "C08_lowered_bantime_refuted"
   ],
   "note": "Proved for histories that do not shorten active bans; refuted when the jail ban time is lowered."
  },
  {
   "property": "C09",
   "status": "proved",
   "theorems": [
    "C09_reban_only_extends",
    "C09_exact_end",
    "C09_exact_end_refuted"
   ],
   "note": ""
  },
  {
   "property": "C10",
   "status": "proved",
   "theorems": [
    "C10_ordered_listing",
    "C10_same_ids"
   ],
   "note": ""
  },
  {
   "property": "C11",
   "status": "proved",
   "theorems": [
    "C11_ban_reaches_every_action",
    "C11_manual_ban",
    "C11_started_once"
   ],
   "note": ""
  },
  {
   "property": "C12",
   "status": "proved",
   "theorems": [
    "C12_ban_unban_alternate",
    "C12_concurrent_unban_refuted",
    "C12_norestored_refuted",
    "C12_failed_flush_refuted"
   ],
   "note": ""
  },
  {
   "property": "C13",
   "status": "proved",
   "theorems": [
    "C13_flush_exact",
    "C13_stop",
    "C13_raising_check_refuted"
   ],
   "note": ""
  },
  {
   "property": "C14",
   "status": "proved",
   "theorems": [
    "C14_checks_not_starved",
    "C14_check_lifts",
    "C14_pace_refuted"
   ],
   "note": ""
  },
  {
   "property": "C15",
   "status": "proved",
   "theorems": [
    "C15_reload_diff",
    "C15_new_action_refuted",
    "C15_python_action_refuted",
    "C15_duplicate_refused"
   ],
   "note": ""
  },
  {
   "property": "C16",
   "status": "proved",
   "theorems": [
    "C16_unban_exact",
    "C16_plain_ids"
   ],
   "note": ""
  },
  {
   "property": "C17",
   "status": "proved",
   "theorems": [
    "C17_fifo_nothing_lost",
    "C17_served_in_order"
   ],
   "note": ""
  },
  {
   "property": "C18",
   "status": "proved",
   "theorems": [
    "C18_latest_settings",
    "C18_never_above_maxtime",
    "C18_never_below_bantime",
    "C18_monotone",
    "C18_exact",
    "C18_multipliers",
    "C18_ban_found",
    "C18_unchanged_otherwise",
    "C18_never_shortened",
    "C18_shortened_refuted"
   ],
   "note": ""
  },
  {
   "property": "C19",
   "status": "proved",
   "theorems": [
    "C19_fifo",
    "C19_no_event_blocks",
    "C19_stop_complete",
    "C19_unforced_stop",
    "C19_forced_stop_refuted"
   ],
   "note": ""
  },
  {
   "property": "C20",
   "status": "proved",
   "theorems": [
    "C20_only_known_offenders",
    "C20_weight",
    "C20_counter"
   ],
   "note": ""
  },
  {
   "property": "C21",
   "status": "proved",
   "theorems": [
    "C21_restore_exact",
    "C21_end_unchanged",
    "C21_restore_order",
    "C21_restore_slow",
    "C21_minus_one_refuted"
   ],
   "note": ""
  },
  {
   "property": "C22",
   "status": "proved",
   "theorems": [
    "C22_restore_unchanged",
    "C22_current_bans",
    "C22_outdated_removed",
    "C22_history_and_jails"
   ],
   "note": ""
  },
  {
   "property": "C23",
   "status": "proved",
   "theorems": [
    "C23_add_ban",
    "C23_del_ban",
    "C23_history",
    "C23_over_all_jails",
    "C23_window"
   ],
   "note": ""
  },
  {
   "property": "C24",
   "status": "proved",
   "theorems": [
    "C24_position_kept",
    "C24_resume",
    "C24_restart",
    "C24_no_hash_refuted"
   ],
   "note": ""
  },
  {
   "property": "C25",
   "status": "proved",
   "theorems": [
    "C25_exactly_once",
    "C25_bottom",
    "C25_progress",
    "C25_stop",
    "C25_utf16",
    "C25_demo",
    "C25_utf16_demo",
    "C25_cr_refuted",
    "C25_utf16_refuted",
    "C25_stop_refuted"
   ],
   "note": "For every encoding in which new-line bytes are new-line characters, every schedule of writes, reads, rotations, stops and restarts; for UTF-16LE without empty lines and CR. Refuted corners: an incomplete line ending in CR (C25_cr_refuted), UTF-16LE with empty lines (C25_utf16_refuted), the line read while the jail is stopped (C25_stop_refuted)."
  },
  {
   "property": "C26",
   "status": "proved",
   "theorems": [
    "C26_rotation",
    "C26_restart",
    "C26_truncated",
    "C26_truncated_demo",
    "C26_unseen_refuted",
    "C26_overwritten_refuted",
    "C26_same_first_line_refuted",
    "C26_gap_refuted"
   ],
   "note": "Rotation, restart and truncation once a complete line was seen. Refuted corners: rotation before that (lines twice), overwriting in place with more than was read, restart on another file with the same first line, lines written between the last reading and the rotation."
  },
  {
   "property": "C27",
   "status": "proved",
   "theorems": [
    "C27_safe",
    "C27_place",
    "C27_ends",
    "C27_exact",
    "C27_demo",
    "C27_demo_mixed",
    "C27_exact_refuted",
    "C27_inside_refuted"
   ],
   "note": "For all files, line lengths and undated lines; termination; exact for lines of equal length that all have a time; not exact in general (C27_exact_refuted)."
  },
  {
   "property": "C28",
   "status": "proved",
   "theorems": [
    "C28_counted",
    "C28_attempt_refuted",
    "C28_entries",
    "C28_ignored",
    "C28_answered",
    "C28_accepted",
    "C28_deleted",
    "C28_cached",
    "C28_behind_file_refuted",
    "C28_file_slash_refuted",
    "C28_raw_string_refuted",
    "C28_delete_spelling_refuted",
    "C28_cache_stale_refuted"
   ],
   "note": "Ignored addresses and the effect on counting; with a cache an answer may be older (C28_cached). Refuted: attempts reported by a client ignore the list, entries behind a file entry, cache after changes of the list."
  },
  {
   "property": "C29",
   "status": "proved",
   "theorems": [
    "C29_time",
    "C29_window",
    "C29_old",
    "C29_operation_refuted",
    "C29_yesterday_refuted"
   ],
   "note": "Proved for the log read before operation; in operation lines older than findtime count if younger than a minute, older times become now (refutations)."
  },
  {
   "property": "C30",
   "status": "proved",
   "theorems": [
    "C30_in_net",
    "C30_net_address",
    "C30_prefix",
    "C30_prefix6",
    "C30_name",
    "C30_mask",
    "C30_bad_mask_refuted",
    "C30_wider_refuted"
   ],
   "note": ""
  },
  {
   "property": "C31",
   "status": "proved",
   "theorems": [
    "C31_text_round_trip",
    "C31_canonical_text",
    "C31_equal_text",
    "C31_brackets",
    "C31_mapped",
    "C31_zero_refuted",
    "C31_over_refuted",
    "C31_mapped_refuted",
    "C31_dotted_refuted",
    "C31_raw_equal_refuted",
    "C31_cache",
    "C31_cache_refuted"
   ],
   "note": ""
  },
  {
   "property": "C32",
   "status": "proved",
   "theorems": [
    "C32_ptr4",
    "C32_ptr6",
    "C32_ptr_injective",
    "C32_subnet_refuted"
   ],
   "note": ""
  },
  {
   "property": "C33",
   "status": "proved",
   "theorems": [
    "C33_member",
    "C33_networks",
    "C33_file_fresh",
    "C33_failed_read_refuted"
   ],
   "note": ""
  },
  {
   "property": "C34",
   "status": "proved",
   "theorems": [
    "C34_get_sound",
    "C34_get_exact",
    "C34_stored_found",
    "C34_size",
    "C34_size_after_set",
    "C34_eviction",
    "C34_zero_maximum_refuted",
    "C34_full_cache_renewal_refuted",
    "C34_live_evicted_refuted"
   ],
   "note": ""
  },
  {
   "property": "C35",
   "status": "proved",
   "theorems": [
    "C35_script",
    "C35_no_new_characters",
    "C35_meaning",
    "C35_collision_refuted",
    "C35_glue_refuted",
    "C35_eleven_refuted",
    "C35_nested_refuted",
    "C35_words_refuted"
   ],
   "note": "Script text characterised exactly; no value brings shell characters in. Refuted corners: variable-name collisions, tags glued to identifier characters, an eleventh variable, nested capture tags, values with blanks (C35_*_refuted)."
  },
  {
   "property": "C36",
   "status": "proved",
   "theorems": [
    "C36_round_trip",
    "C36_shell",
    "C36_no_shell_characters",
    "C36_plain",
    "C36_newline_refuted"
   ],
   "note": "Round trip with C-like escapes for all values; for a shell all but newline and carriage return (C36_newline_refuted)."
  },
  {
   "property": "C37",
   "status": "proved",
   "theorems": [
    "C37_ends",
    "C37_full",
    "C37_unique",
    "C37_nothing_left",
    "C37_ring",
    "C37_query",
    "C37_query_ok",
    "C37_many_refuted"
   ],
   "note": "Termination for all definitions; the full expansion for values where each < begins a tag or is followed by a blank. A tag used through more than 26 others is rejected (C37_many_refuted)."
  },
  {
   "property": "C38",
   "status": "proved",
   "theorems": [
    "C38_any_chunking",
    "C38_unambiguous",
    "C38_readable",
    "C38_chunks_irrelevant",
    "C38_delivered",
    "C38_exchange",
    "C38_client_whole",
    "C38_client_part",
    "C38_embedded_refuted",
    "C38_short_send_refuted",
    "C38_after_close_refuted"
   ],
   "note": ""
  },
  {
   "property": "C39",
   "status": "proved",
   "theorems": [
    "C39_meaning",
    "C39_round_trip",
    "C39_near",
    "C39_whole_units",
    "C39_groups",
    "C39_years",
    "C39_year_refuted",
    "C39_digits_refuted",
    "C39_leading_zero_refuted"
   ],
   "note": ""
  },
  {
   "property": "C40",
   "status": "proved",
   "theorems": [
    "C40_answers",
    "C40_closed",
    "C40_closed_refuted",
    "C40_readonly",
    "C40_stream",
    "C40_failed_setting"
   ],
   "note": "Answers for every command, state and world. That no reload stays open holds while no end of a reload raises; refuted otherwise (C40_closed_refuted)."
  },
  {
   "property": "C41",
   "status": "proved",
   "theorems": [
    "C41_unique",
    "C41_add_exists",
    "C41_add_new",
    "C41_add_unnoted",
    "C41_unknown",
    "C41_others",
    "C41_threads",
    "C41_database",
    "C41_database_refuted",
    "C41_registry"
   ],
   "note": "For every history; that the database agrees with the registry is proved while the database works and refuted otherwise (C41_database_refuted)."
  },
  {
   "property": "C42",
   "status": "proved",
   "theorems": [
    "C42_reload",
    "C42_named",
    "C42_one",
    "C42_unknown",
    "C42_error_refuted",
    "C42_dead_refuted",
    "C42_defaults_refuted",
    "C42_nested_refuted",
    "C42_dellog_refuted",
    "C42_setting_refuted"
   ],
   "note": "For a stream that a new server executes without error, jails running, ends of a reload without error. Refuted corners: one error removes the running jails, a jail that died is removed although named, settings left out keep old values, nested reloads, a log file removed and added again, a jail named like a server setting (C42_*_refuted)."
  },
  {
   "property": "C43",
   "status": "proved",
   "theorems": [
    "C43_lawful",
    "C43_epoch",
    "C43_ban",
    "C43_unban",
    "C43_prolong",
    "C43_flush",
    "C43_stop",
    "C43_start",
    "C43_reload",
    "C43_check",
    "C43_demo",
    "C43_shared_flush_refuted",
    "C43_set_refuted",
    "C43_failed_start_refuted",
    "C43_check_refuted"
   ],
   "note": "For every configuration, history of calls and outcome of the commands, told from the trace of calls and commands. Refuted corners: a flush command common to both families is skipped for the second (C43_shared_flush_refuted), setting a parameter forgets what ran (C43_set_refuted), without on-demand start bans run although the start failed, a check without repair hides a failure."
  },
  {
   "property": "C44",
   "status": "proved",
   "theorems": [
    "C44_instant",
    "C44_same_instant",
    "C44_default",
    "C44_no_such_date",
    "C44_valid",
    "C44_unknown_refuted",
    "C44_listed_refuted",
    "C44_lower_refuted",
    "C44_tai64n"
   ],
   "note": "For every date and zone offset the format can express. Refuted: unknown or lower-case zone abbreviations, listed names that cannot be reached (C44_*_refuted)."
  },
  {
   "property": "C45",
   "status": "proved",
   "theorems": [
    "C45_year",
    "C45_year_zone",
    "C45_no_such_day",
    "C45_not_ahead",
    "C45_today",
    "C45_today_zone",
    "C45_day_of_year",
    "C45_day_no_year",
    "C45_week",
    "C45_leap_day_refuted",
    "C45_zone_day_refuted",
    "C45_zone_today_refuted",
    "C45_day_366_refuted",
    "C45_week_ahead_refuted",
    "C45_error_refuted"
   ],
   "note": "Proved for dates without year or without day; refuted corners: Feb 29 in a common year, zone shifts across a day or year, day 366, weeks without year may lie ahead (C45_*_refuted)."
  },
  {
   "property": "C46",
   "status": "proved",
   "theorems": [
    "C46_unique",
    "C46_kept",
    "C46_promoted",
    "C46_distance",
    "C46_used_first",
    "C46_others",
    "C46_append",
    "C46_default",
    "C46_elsewhere",
    "C46_used_first_refuted"
   ],
   "note": "For every history of additions and lines. That used templates stand first needs that no search ended in an error (C46_used_first_refuted)."
  },
  {
   "property": "C47",
   "status": "proved",
   "theorems": [
    "C47_watched",
    "C47_pass",
    "C47_patience",
    "C47_awake",
    "C47_unchanged",
    "C47_noticed_refuted",
    "C47_fell_idle_refuted",
    "C47_missing_refuted",
    "C47_other_refuted"
   ],
   "note": "The watched logs and what a pass reads are told from the history of operations and looks; 51 failing looks in a row drop a log, fewer than 100 errors never make the filter idle. Refuted: a noticed change is forgotten when reading another log raises or the filter falls idle; two missing logs make the whole filter idle before either is dropped; an exception other than OSError loses the pass."
  },
  {
   "property": "C48",
   "status": "proved",
   "theorems": [
    "C48_terminates",
    "C48_stack",
    "C48_terminates_refuted",
    "C48_order",
    "C48_shared",
    "C48_shared_refuted",
    "C48_value",
    "C48_known",
    "C48_conditional",
    "C48_override",
    "C48_local",
    "C48_again_refuted",
    "C48_success"
   ],
   "note": "Proved for all finite sets of files and include lines, with and without the shared configuration: reading ends unless local versions drag each other in in circles, the order before/self/after/local, and that the last word wins. Refuted: a .local file that includes its own .conf is read for ever; with circles the shared lists depend on earlier readings; a file included as before by conf and local is read again after conf."
  },
  {
   "property": "C49",
   "status": "proved",
   "theorems": [
    "C49_exact",
    "C49_sound",
    "C49_immediate",
    "C49_ends"
   ],
   "note": ""
  },
  {
   "property": "C50",
   "status": "proved",
   "theorems": [
    "C50_quiet",
    "C50_waits",
    "C50_found",
    "C50_single",
    "C50_bounded",
    "C50_activity_refuted",
    "C50_many_refuted",
    "C50_nofail_refuted",
    "C50_name_refuted"
   ],
   "note": "For any interleaving of up to 100 sessions. Refuted corners: a session is forgotten 300 s after its first line however active (C50_activity_refuted), a live one is pushed out beyond 100 (C50_many_refuted), nofail without a session counts (C50_nofail_refuted), a failure ID is not used for a host name (C50_name_refuted)."
  },
  {
   "property": "C51",
   "status": "proved",
   "theorems": [
    "C51_total_counts_recorded_reports"
   ],
   "note": ""
  },
  {
   "property": "C52",
   "status": "proved",
   "theorems": [
    "C52_perform_ban",
    "C52_perform_ban_service",
    "C52_perform_ban_one"
   ],
   "note": ""
  },
  {
   "property": "C53",
   "status": "proved",
   "theorems": [
    "C53_reban_exact",
    "C53_checks_limited",
    "C53_batch_refuted"
   ],
   "note": ""
  },
  {
   "property": "C54",
   "status": "proved",
   "theorems": [
    "C54_prolong_reaches"
   ],
   "note": ""
  },
  {
   "property": "C55",
   "status": "proved",
   "theorems": [
    "C55_merged",
    "C55_all_ids",
    "C55_cache_coherent",
    "C55_stale_after_delete_refuted",
    "C55_stale_for_all_refuted"
   ],
   "note": ""
  },
  {
   "property": "C56",
   "status": "proved",
   "theorems": [
    "C56_no_dns",
    "C56_plain4",
    "C56_plain6",
    "C56_answer",
    "C56_dotted_refuted"
   ],
   "note": ""
  },
  {
   "property": "C57",
   "status": "proved",
   "theorems": [
    "C57_lines",
    "C57_skipped",
    "C57_partition",
    "C57_single",
    "C57_none",
    "C57_empty_match_refuted",
    "C57_same_text_refuted",
    "C57_form_feed_refuted"
   ],
   "note": "For matches that are not empty and whose lines have different texts; refuted for empty matches, lines of the same text and form feeds (C57_*_refuted)."
  },
  {
   "property": "C58",
   "status": "proved",
   "theorems": [
    "C58_refinement",
    "C58_ban_needs_failures",
    "C58_prompt"
   ],
   "note": ""
  },
  {
   "property": "C59",
   "status": "proved",
   "theorems": [
    "C59_ignored",
    "C59_none",
    "C59_first",
    "C59_found",
    "C59_several_ignored",
    "C59_several_none",
    "C59_several_found",
    "C59_nobody_refuted",
    "C59_several_refuted",
    "C59_prefregex_refuted"
   ],
   "note": "Single-line filters without prefregex; with prefregex or several lines the counterexamples C59_prefregex_refuted, C60_prefregex_refuted hold."
  },
  {
   "property": "C60",
   "status": "proved",
   "theorems": [
    "C60_bounded",
    "C60_prefregex_refuted"
   ],
   "note": ""
  },
  {
   "property": "C61",
   "status": "proved",
   "theorems": [
    "C61_unban",
    "C61_unban_all",
    "C61_banned",
    "C61_banip",
    "C61_unbanip"
   ],
   "note": ""
  },
  {
   "property": "C62",
   "status": "proved",
   "theorems": [
    "C62_value",
    "C62_addlogpath",
    "C62_dellogpath",
    "C62_addregex",
    "C62_addignoreip",
    "C62_delregex",
    "C62_start",
    "C62_start_half",
    "C62_start_dead",
    "C62_stop"
   ],
   "note": ""
  },
  {
   "property": "C63",
   "status": "proved",
   "theorems": [
    "C63_found",
    "C63_nothing",
    "C63_error",
    "C63_again",
    "C63_nearest_refuted",
    "C63_history_refuted",
    "C63_empty_line_refuted"
   ],
   "note": "Exact characterisation for every history. Refuted: the nearest date is not always found, the answer depends on earlier lines, an empty line with the empty pattern is an error (C63_*_refuted)."
  },
  {
   "property": "C64",
   "status": "proved",
   "theorems": [
    "C64_own",
    "C64_given",
    "C64_first",
    "C64_case_refuted"
   ],
   "note": "Proved for patterns with a percent sign; patterns without one that differ in case are confused (C64_case_refuted)."
  },
  {
   "property": "C65",
   "status": "proved",
   "theorems": [
    "C65_ban_has_cause",
    "C65_no_cause_no_ban",
    "C65_actions_of_the_jail",
    "C65_firewall"
   ],
   "note": "For every interleaving of filter, observer, actions and commands. The weight of what the observer adds is bounded by 2^(bans-1), at most 2^19, per look. The composition of the parts is checked by the bound; the database between observer and restart is not part of it."
  },
  {
   "property": "C66",
   "status": "proved",
   "theorems": [
    "C66_waiting_ban_served",
    "C66_waiting_ban_in_firewall"
   ],
   "note": "Progress in number of rounds, for any faults; the wait between rounds is not modelled. Without a command in between: an unban command removes the ID, as it should."
  },
  {
   "property": "C67",
   "status": "proved",
   "theorems": [
    "C67_restart",
    "C67_survives",
    "C67_bans_again",
    "C67_unban_before_store_refuted",
    "C67_unban_waiting_refuted",
    "C67_prolonged_refuted",
    "C67_crash_before_store_refuted"
   ],
   "note": "For every interleaving of actions, observer, commands, other jails and crashes in which no running ban is made longer and no ID is unbanned between its ban and its storing or while it waits to be restored; each of these situations is refuted separately. The jail's settings stay the same over the history. The increment of a ban time by the observer is an arbitrary positive (or permanent) value."
  },
  {
   "property": "C68",
   "status": "proved",
   "theorems": [
    "C68_options",
    "C68_accepted",
    "C68_error",
    "C68_quoted",
    "C68_blank_refuted",
    "C68_missing_comma_refuted"
   ],
   "note": "The regular expressions are modelled literally with Python's backtracking order and proved equal to a grammar, in both directions. ASCII characters only."
  },
  {
   "property": "C69",
   "status": "proved",
   "theorems": [
    "C69_words",
    "C69_comments",
    "C69_comma_comment_refuted"
   ],
   "note": "Both directions, against a grammar and against the comment rule of a line. ASCII characters only."
  },
  {
   "property": "C70",
   "status": "proved",
   "theorems": [
    "C70_actions",
    "C70_blank_before_bracket_refuted"
   ],
   "note": "For the grammar of well-formed lists; what becomes of malformed lists is shown by the refuted case only."
  },
  {
   "property": "C71",
   "status": "proved",
   "theorems": [
    "C71_added",
    "C71_settings",
    "C71_first",
    "C71_datepattern",
    "C71_regexes",
    "C71_journal",
    "C71_ignoreip",
    "C71_logs",
    "C71_actions",
    "C71_order",
    "C71_exists",
    "C71_words_refuted"
   ],
   "note": "The configuration parser, the interpolation of tags, glob, shlex and json are arbitrary functions (oracles)."
  },
  {
   "property": "C72",
   "status": "proved",
   "theorems": [
    "C72_precedence",
    "C72_jail_first_refuted"
   ],
   "note": "For options that contain no tags to interpolate; what the interpolation does is C35-C37."
  },
  {
   "property": "C73",
   "status": "proved",
   "theorems": [
    "C73_enabled",
    "C73_read",
    "C73_stream",
    "C73_wrong",
    "C73_missing",
    "C73_isolated_refuted"
   ],
   "note": "That one raising jail keeps all others from being configured is the refuted case."
  },
  {
   "property": "C74",
   "status": "proved",
   "theorems": [
    "C74_options",
    "C74_jail",
    "C74_wrong_number_refuted"
   ],
   "note": ""
  },
  {
   "property": "C75",
   "status": "proved",
   "theorems": [
    "C75_actions",
    "C75_names",
    "C75_unique_refuted"
   ],
   "note": ""
  },
  {
   "property": "C76",
   "status": "proved",
   "theorems": [
    "C76_followed",
    "C76_waiting",
    "C76_race_refuted",
    "C76_above_refuted",
    "C76_renamed_refuted",
    "C76_root_refuted"
   ],
   "note": "Left out by the hypothesis: directories changing in the middle of a callback, directories above that of a log, logs renamed to each other, logs in the root directory, idle jails; the first four are refuted cases, the last one is under C77."
  },
  {
   "property": "C77",
   "status": "proved",
   "theorems": [
    "C77_catches_up",
    "C77_rests",
    "C77_due",
    "C77_idle_refuted"
   ],
   "note": "The check has to come when all that is waited for is due; that this may never happen in practice is the refuted case of C78."
  },
  {
   "property": "C78",
   "status": "proved",
   "theorems": [
    "C78_waits",
    "C78_minute",
    "C78_check",
    "C78_new",
    "C78_starved_refuted"
   ],
   "note": "The refuted case: a directory missing for more than 102 s is never looked for again."
  },
  {
   "property": "C79",
   "status": "proved",
   "theorems": [
    "C79_files",
    "C79_dirs",
    "C79_removed",
    "C79_only_logs",
    "C79_leak_refuted"
   ],
   "note": "For directories only if logs are not nested; the other case is refuted."
  },
  {
   "property": "C80",
   "status": "proved",
   "theorems": [
    "C80_tags",
    "C80_plain",
    "C80_closed_twice_refuted"
   ],
   "note": "The compilation of the resulting expression by Python is not modelled. Refuted: closing a group twice."
  },
  {
   "property": "C81",
   "status": "proved",
   "theorems": [
    "C81_numbered_refuted",
    "C81_order_refuted"
   ],
   "note": "Names of parts have one prefix only. Refuted: F-ALT_USER1 of the manual page is not an alternative of F-USER; the order is that of texts, not of numbers."
  },
  {
   "property": "C82",
   "status": "proved",
   "theorems": [
    "C82_accepted",
    "C82_id",
    "C82_host",
    "C82_prefix",
    "C82_alternatives_refuted",
    "C82_prefix_refuted"
   ],
   "note": "Compilation is a function from texts to group names. Refuted: alternatives alone are not accepted; a group that took no part overwrites the value of the prefix expression."
  },
  {
   "property": "C83",
   "status": "proved",
   "theorems": [
    "C83_local",
    "C83_else",
    "C83_backslash_refuted"
   ],
   "note": "Refuted: a group after an escaped backslash."
  },
  {
   "property": "C84",
   "status": "proved",
   "theorems": [
    "C84_status",
    "C84_soon",
    "C84_output",
    "C84_ignore",
    "C84_start_refuted",
    "C84_chatty_refuted"
   ],
   "note": "Refuted: an ignore command that cannot be started; a command with more output than fits into a pipe."
  },
  {
   "property": "C85",
   "status": "proved",
   "theorems": [
    "C85_signals",
    "C85_stopped",
    "C85_ignores",
    "C85_obeys",
    "C85_bound",
    "C85_queue",
    "C85_success_refuted",
    "C85_lock_refuted"
   ],
   "note": "Refuted: a stopped command that ends with status 0 counts as succeeded; a process left behind by a failing command blocks all commands."
  },
  {
   "property": "C86",
   "status": "proved",
   "theorems": [
    "C86_selection",
    "C86_add",
    "C86_del",
    "C86_demo",
    "C86_empty_refuted",
    "C86_undo_refuted"
   ],
   "note": "Refuted: an empty alternative chooses all entries; a match with a plus sign can be deleted with the words it was added with."
  },
  {
   "property": "C87",
   "status": "proved",
   "theorems": [
    "C87_once",
    "C87_complete",
    "C87_exact",
    "C87_progress",
    "C87_errors",
    "C87_demo",
    "C87_start_refuted",
    "C87_rotation_refuted",
    "C87_twice_refuted"
   ],
   "note": "Refuted: no loss at the start when no entry is selected yet; no loss at an invalidation when the entry of the position was removed; no repetition when matches are changed around an invalidation."
  },
  {
   "property": "C88",
   "status": "proved",
   "theorems": [
    "C88_position",
    "C88_soon",
    "C88_start",
    "C88_restart",
    "C88_demo",
    "C88_again_refuted",
    "C88_tie_refuted",
    "C88_stop_refuted"
   ],
   "note": "Refuted: nothing read twice over a restart (source time and time of reception differ); no loss with equal times; position stored at a stop after an entry that could not be made a line."
  },
  {
   "property": "C89",
   "status": "proved",
   "theorems": [
    "C89_once",
    "C89_begin",
    "C89_backlog",
    "C89_demo",
    "C89_error_refuted"
   ],
   "note": "Refuted: the same when reading fails once in the backlog (the failure is taken as the end of the journal)."
  },
  {
   "property": "C90",
   "status": "proved",
   "theorems": [
    "C90_line",
    "C90_message",
    "C90_form",
    "C90_demo"
   ],
   "note": ""
  },
  {
   "property": "C91",
   "status": "proved",
   "theorems": [
    "C91_settings",
    "C91_start",
    "C91_accepted",
    "C91_all_or_nothing",
    "C91_one_wrong_refuted",
    "C91_name_refuted"
   ],
   "note": "Composes the proved behaviour of the configuration readers (C71-C75) with that of the server (C40-C42). Two findings: one expression the server refuses keeps every jail from being started; a jail called like a setting of the server is not set up."
  },
  {
   "property": "C92",
   "status": "proved",
   "theorems": [
    "C92_reload",
    "C92_accepted",
    "C92_again",
    "C92_removed_refuted"
   ],
   "note": "The jails concerned must run, and a new server must take the configuration (C92_accepted says when). Finding: a setting that is no longer in the configuration keeps its old value."
  },
  {
   "property": "C93",
   "status": "proved",
   "theorems": [
    "C93_start",
    "C93_reload",
    "C93_restart_jail",
    "C93_restart",
    "C93_other"
   ],
   "note": "The interactive mode, waiting for the server and forking are not modelled; whether a new server comes up is an input."
  },
  {
   "property": "C94",
   "status": "proved",
   "theorems": [
    "C94_addresses",
    "C94_reverse",
    "C94_text",
    "C94_once",
    "C94_once_refuted"
   ],
   "note": "Each call happens at one moment; the time a lookup takes is not modelled. C94_once_refuted: a lookup in whose middle IPv6 is detected from the own names asks twice."
  },
  {
   "property": "C95",
   "status": "proved",
   "theorems": [
    "C95_names",
    "C95_addresses",
    "C95_full_name_refuted",
    "C95_stale_refuted"
   ],
   "note": "C95_full_name_refuted and C95_stale_refuted show where the code differs from what its comments promise."
  },
  {
   "property": "C96",
   "status": "proved",
   "theorems": [
    "C96_blank",
    "C96_set",
    "C96_off",
    "C96_auto",
    "C96_switch_refuted"
   ],
   "note": "Threads racing in IPv6IsAllowed are not modelled (a setting made by another thread during the detection would be lost)."
  },
  {
   "property": "C97",
   "status": "proved",
   "theorems": [
    "C97_exact",
    "C97_own"
   ],
   "note": ""
  },
  {
   "property": "C98",
   "status": "proved",
   "theorems": [
    "C98_upgrade",
    "C98_crash",
    "C98_backup",
    "C98_restored",
    "C98_crash_refuted"
   ],
   "note": "A crash between the creation of the table of current bans and its filling is a finding: C98_crash_refuted; C98_crash names that window exactly."
  },
  {
   "property": "C99",
   "status": "proved",
   "theorems": [
    "C99_current",
    "C99_future",
    "C99_new",
    "C99_partly",
    "C99_damaged_lost",
    "C99_damaged_repaired",
    "C99_kept",
    "C99_stuck_refuted",
    "C99_failed_upgrade_refuted"
   ],
   "note": "Findings: C99_stuck_refuted (a crash while creating leaves a file no start opens), C99_failed_upgrade_refuted (after a failed upgrade the start fails, the next one uses an empty database; the data are in the backup only)."
  },
  {
   "property": "C100",
   "status": "proved",
   "theorems": [
    "C100_told",
    "C100_exact",
    "C100_own",
    "C100_others",
    "C100_agree",
    "C100_mixed_refuted",
    "C100_reset_refuted"
   ],
   "note": "Findings: C100_mixed_refuted (merged bans are asked for anew for each key, although meant to be remembered), C100_reset_refuted (a hazard of the API: reset(False) exposes the table of the class)."
  },
  {
   "property": "C101",
   "status": "proved",
   "theorems": [
    "C101_commands",
    "C101_stale_refuted"
   ],
   "note": "Finding: C101_stale_refuted (everything except time and family is remembered from the first command that read it)."
  },
  {
   "property": "C102",
   "status": "proved",
   "theorems": [
    "C102_value",
    "C102_names",
    "C102_meaning",
    "C102_errors",
    "C102_raw",
    "C102_own_section",
    "C102_module_refuted"
   ],
   "note": "Hypotheses: values are tidy (cross references in lower case, no parenthesis after a doubled percent sign); C102_own_section, C102_errors and C102_raw need none of it. Finding: C102_module_refuted."
  },
  {
   "property": "C103",
   "status": "proved",
   "theorems": [
    "C103_reference",
    "C103_known",
    "C103_chain_refuted",
    "C103_case_refuted",
    "C103_hidden_refuted"
   ],
   "note": "Findings: C103_chain_refuted (two files that extend an option one after the other), C103_case_refuted (sections with capital letters, DEFAULT/option), C103_hidden_refuted."
  },
  {
   "property": "C104",
   "status": "proved",
   "theorems": [
    "C104_named",
    "C104_plain",
    "C104_default_refuted",
    "C104_scope_refuted"
   ],
   "note": "Findings: C104_default_refuted, C104_scope_refuted."
  },
  {
   "property": "C105",
   "status": "proved",
   "theorems": [
    "C105_no_lost_wakeup",
    "C105_wakeup_coming",
    "C105_drained",
    "C105_order",
    "C105_paused",
    "C105_ends",
    "C105_forced",
    "C105_lost_refuted"
   ],
   "note": "Finding: C105_lost_refuted (a stop that is not forced and gives up)."
  },
  {
   "property": "C106",
   "status": "proved",
   "theorems": [
    "C106_one_per_name",
    "C106_cancels",
    "C106_purge_to_come",
    "C106_soon",
    "C106_an_hour",
    "C106_purge",
    "C106_last_refuted"
   ],
   "note": "Finding: C106_last_refuted (a purge that raises is the last one)."
  },
  {
   "property": "C107",
   "status": "proved",
   "theorems": [
    "C107_stop",
    "C107_stays",
    "C107_exits",
    "C107_early_refuted",
    "C107_mute_refuted",
    "C107_raise_refuted"
   ],
   "note": "Findings: C107_early_refuted and C107_mute_refuted (a signal during the start is lost), C107_raise_refuted (a stop in which something raises)."
  },
  {
   "property": "C108",
   "status": "proved",
   "theorems": [
    "C108_who",
    "C108_serving",
    "C108_one",
    "C108_alone",
    "C108_pid_refuted",
    "C108_restart_refuted",
    "C108_forced_refuted"
   ],
   "note": "Findings: C108_pid_refuted (a failing second start removes the PID file of the serving one), C108_restart_refuted (the ending server removes the socket of the next one), C108_forced_refuted."
  },
  {
   "property": "C109",
   "status": "proved",
   "theorems": [
    "C109_counter",
    "C109_gives_up",
    "C109_goes_on",
    "C109_log",
    "C109_crash_refuted"
   ],
   "note": "Finding: C109_crash_refuted."
  },
  {
   "property": "C110",
   "status": "proved",
   "theorems": [
    "C110_read",
    "C110_begin",
    "C110_time",
    "C110_local",
    "C110_unclear_refuted"
   ],
   "note": "Hypotheses: the pattern is clear, i.e. it shows where each field ends, and the date stands first (at the beginning of the line for C110_begin, C110_time, C110_local; where no date begins before it for C110_read). Finding: C110_unclear_refuted."
  },
  {
   "property": "C111",
   "status": "proved",
   "theorems": [
    "C111_found",
    "C111_nothing",
    "C111_first",
    "C111_field",
    "C111_years",
    "C111_decade_refuted",
    "C111_time_refuted"
   ],
   "note": "The process is started in a year from 2001 to 9986. Findings: C111_decade_refuted, C111_time_refuted."
  },
  {
   "property": "C112",
   "status": "proved",
   "theorems": [
    "C112_pattern",
    "C112_read",
    "C112_twice_refuted",
    "C112_blank_refuted",
    "C112_dollar_refuted",
    "C112_percent_refuted"
   ],
   "note": "For patterns of fields, single characters and the point, with the marks of the manual; other regular expressions in patterns are outside the model (result Outside). Findings: C112_twice_refuted, C112_blank_refuted, C112_dollar_refuted, C112_percent_refuted."
  },
  {
   "property": "C113",
   "status": "proved",
   "theorems": [
    "C113_sum",
    "C113_single",
    "C113_negative_refuted",
    "C113_prefix_refuted"
   ],
   "note": "Findings with several lines (maxlines above 1): C113_negative_refuted, C113_prefix_refuted."
  },
  {
   "property": "C114",
   "status": "proved",
   "theorems": [
    "C114_printed",
    "C114_when",
    "C114_several_refuted"
   ],
   "note": "For single lines. Finding with several lines: C114_several_refuted."
  },
  {
   "property": "C115",
   "status": "proved",
   "theorems": [
    "C115_server",
    "C115_lookup_refuted",
    "C115_nofail_refuted",
    "C115_undated_refuted"
   ],
   "note": "For single lines, filters without sessions (F-MLFID) and F-NOFAIL whose failregex name somebody, and with all failregex checked (the default). Findings: C115_lookup_refuted, C115_nofail_refuted, C115_undated_refuted."
  },
  {
   "property": "C116",
   "status": "proved",
   "theorems": [
    "C116_once",
    "C116_set",
    "C116_refused",
    "C116_when",
    "C116_demo",
    "C116_socket_refuted",
    "C116_options_refuted",
    "C116_syslog"
   ],
   "note": "Without INHERITED; messages the methods log themselves and the formats are not modelled. Findings: C116_socket_refuted, C116_options_refuted."
  },
  {
   "property": "C117",
   "status": "proved",
   "theorems": [
    "C117_rotate",
    "C117_flush",
    "C117_others",
    "C117_again_refuted",
    "C117_closed_refuted",
    "C117_demo"
   ],
   "note": "For a file that can be opened. Findings: C117_again_refuted, C117_closed_refuted."
  },
  {
   "property": "C118",
   "status": "proved",
   "theorems": [
    "C118_level",
    "C118_set",
    "C118_only",
    "C118_demo"
   ],
   "note": ""
  },
  {
   "property": "C119",
   "status": "proved",
   "theorems": [
    "C119_words",
    "C119_command",
    "C119_wrong",
    "C119_demo"
   ],
   "note": "getopt of Python's standard library is modelled from its source."
  },
  {
   "property": "C120",
   "status": "proved",
   "theorems": [
    "C120_meaning",
    "C120_goes_on",
    "C120_help",
    "C120_demo",
    "C120_demo_goes_on"
   ],
   "note": ""
  },
  {
   "property": "C121",
   "status": "proved",
   "theorems": [
    "C121_dump",
    "C121_test",
    "C121_answer",
    "C121_level",
    "C121_demo"
   ],
   "note": "The good configuration is what readConfig answers (an oracle)."
  },
  {
   "property": "C122",
   "status": "proved",
   "theorems": [
    "C122_files",
    "C122_ips",
    "C122_regex",
    "C122_none",
    "C122_bans",
    "C122_break_refuted",
    "C122_demo",
    "C122_status",
    "C122_all",
    "C122_value",
    "C122_demo_status"
   ],
   "note": "For entries without line breaks; finding C122_break_refuted."
  }
 ]
}