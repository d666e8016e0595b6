{
 "claims": [
  {
   "property": "C01",
   "status": "proved",
   "theorems": [
    "C01_meta_recorded",
    "C01_add_records"
   ],
   "note": ""
  },
  {
   "property": "C02",
   "status": "proved",
   "theorems": [
    "C02_case",
    "C02_no_shared_file",
    "C02_preserved"
   ],
   "note": ""
  },
  {
   "property": "C03",
   "status": "proved",
   "theorems": [
    "C03_case",
    "C03_reported_exact",
    "C03_success_no_conflict"
   ],
   "note": ""
  },
  {
   "property": "C04",
   "status": "proved",
   "theorems": [
    "C04_refused_unchanged_partial",
    "C04_pre_script_refuted",
    "C04_bad_rules_refuted",
    "C04_refused"
   ],
   "note": "C04_refused: the statement, for every refusal; C04_refused_unchanged_partial: the case with scripts off needs fewer hypotheses; C04_pre_script_refuted and C04_bad_rules_refuted exhibit the two exceptions (the .PRE script runs before the conflict test; a bad UPGRADE pattern is found after the conflicting files were stripped)."
  },
  {
   "property": "C05",
   "status": "proved",
   "theorems": [
    "C05_untouched",
    "C05_others_kept",
    "C05_database",
    "C05_gone",
    "C05_spelling_refuted"
   ],
   "note": "C05_untouched, C05_others_kept, C05_gone, C05_database: the four parts; C05_spelling_refuted exhibits the exception."
  },
  {
   "property": "C06",
   "status": "proved",
   "theorems": [
    "C06_directory_emptied"
   ],
   "note": ""
  },
  {
   "property": "C07",
   "status": "proved",
   "theorems": [
    "C07_not_installed_refuted",
    "C07_protected_kept",
    "C07_rejected_copy"
   ],
   "note": "C07_protected_kept, C07_rejected_copy; C07_not_installed_refuted exhibits the exception."
  },
  {
   "property": "C08",
   "status": "proved",
   "theorems": [
    "C08_dropped_gone"
   ],
   "note": ""
  },
  {
   "property": "C09",
   "status": "proved",
   "theorems": [
    "C09_install_rules",
    "C09_keep_list",
    "C09_verdict_unique",
    "C09_total",
    "C09_partition"
   ],
   "note": ""
  },
  {
   "property": "C10",
   "status": "proved",
   "theorems": [
    "C10_rules_file",
    "C10_unique",
    "C10_lines",
    "C10_no_file"
   ],
   "note": ""
  },
  {
   "property": "C11",
   "status": "proved",
   "theorems": [
    "C11_files_round_trip",
    "C11_others_unchanged",
    "C11_newline_refuted"
   ],
   "note": "Round trip proved for all sorted lists of non-empty names without newline (the property's own condition); C11_newline_refuted shows the condition is needed."
  },
  {
   "property": "C12",
   "status": "proved",
   "theorems": [
    "C12_old_or_new",
    "C12_rest_untouched",
    "C12_names_read",
    "C12_database",
    "C12_durable"
   ],
   "note": ""
  },
  {
   "property": "C13",
   "status": "proved",
   "theorems": [
    "C13_remove_exact",
    "C13_install_exact",
    "C13_upgrade_exact",
    "C13_what_is_left",
    "C13_install_window_refuted",
    "C13_remove_window_refuted",
    "C13_remove_before_list_partial",
    "C13_install_complete_partial",
    "C13_meta_not_synced_refuted"
   ],
   "note": "C13_remove_exact, C13_install_exact, C13_upgrade_exact (if and only if), C13_what_is_left (what the database then is), C13_install_window_refuted and C13_remove_window_refuted (inside the window, power loss included), C13_meta_not_synced_refuted (power loss after a complete install)."
  },
  {
   "property": "C14",
   "status": "proved",
   "theorems": [
    "C14_exclusive",
    "C14_released",
    "C14_all_ended",
    "C14_refused_fails",
    "C14_block_alone"
   ],
   "note": ""
  },
  {
   "property": "C15",
   "status": "proved",
   "theorems": [
    "C15_recorded",
    "C15_on_disk",
    "C15_one_after_the_other",
    "C15_alone_is_session",
    "C15_stale_database_partial",
    "C15_both_own_refuted"
   ],
   "note": "C15_recorded, C15_on_disk, C15_one_after_the_other; C15_shared meets the hypotheses. C15_both_own_refuted is the exception: serialisation does not hold. C15_alone_is_session ties the process model to the sequential engine."
  },
  {
   "property": "C16",
   "status": "proved",
   "theorems": [
    "C16_case",
    "C16_already_installed",
    "C16_not_installed",
    "C16_reason",
    "C16_remove_unknown"
   ],
   "note": ""
  },
  {
   "property": "C17",
   "status": "proved",
   "theorems": [
    "C17_numbers",
    "C17_dates",
    "C17_octal_refuted",
    "C17_dependencies",
    "C17_fields",
    "C17_build_dates",
    "C17_short_line_refused",
    "C17_nine_characters_refuted",
    "C17_release_refuted"
   ],
   "note": "C17_fields, C17_numbers, C17_dates, C17_dependencies (lines of nine characters included), C17_build_dates, C17_short_line_refused; C17_octal_refuted, C17_nine_characters_refuted and C17_release_refuted exhibit the surprises."
  },
  {
   "property": "C18",
   "status": "proved",
   "theorems": [
    "C18_dependency_recorded",
    "C18_upgrade_keeps_automatic",
    "C18_loaded",
    "C18_manual_stays_manual_partial",
    "C18_uninitialised_flag_refuted",
    "C18_manual_becomes_automatic_refuted",
    "C18_exact"
   ],
   "note": "C18_exact is the equivalence; C18_dependency_recorded, C18_upgrade_keeps_automatic, C18_loaded need fewer hypotheses; C18_uninitialised_flag_refuted and C18_manual_becomes_automatic_refuted exhibit the two surprises."
  },
  {
   "property": "C19",
   "status": "proved",
   "theorems": [
    "C19_group_refuted",
    "C19_alias_refuted",
    "C19_needed_kept_partial",
    "C19_obsolete_gone",
    "C19_exact"
   ],
   "note": "C19_exact: both inclusions and all outcomes. The wish that a package needed by its alias, or a manually installed group package, is spared is refuted: C19_alias_refuted, C19_group_refuted."
  },
  {
   "property": "C20",
   "status": "proved",
   "theorems": [
    "C20_alias_refuted",
    "C20_collection_refuted",
    "C20_empty_argument_refuted",
    "C20_in_use_refused_partial",
    "C20_base_refused",
    "C20_exact"
   ],
   "note": "C20_exact (iff). The wish that every way of naming a package in use is refused is refuted: C20_alias_refuted, C20_collection_refuted, C20_empty_argument_refuted. Hypothesis: the database can be loaded."
  },
  {
   "property": "C21",
   "status": "proved",
   "theorems": [
    "C21_alias_refuted",
    "C21_automatic_refuted",
    "C21_group_refuted",
    "C21_base_kept_partial",
    "C21_exact"
   ],
   "note": "C21_exact; C21_base_kept_partial: also for calls that fail. The wish that it is never removed is refuted in each of the ways listed: C21_alias_refuted, C21_automatic_refuted, C21_group_refuted."
  },
  {
   "property": "C22",
   "status": "proved",
   "theorems": [
    "C22_order",
    "C22_short_names_refuted",
    "C22_reads"
   ],
   "note": "C22_order under `consistent`; C22_short_names_refuted: the regular tools break that agreement for short names. C22_reads (ReadExact.v): exactly which archives the resolver can read and what it takes from them."
  },
  {
   "property": "C23",
   "status": "proved",
   "theorems": [
    "C23_terminates",
    "C23_cycle_refuted",
    "C23_ends_iff",
    "C23_mutual_refuted",
    "C23_case"
   ],
   "note": "C23_ends_iff is the equivalence; C23_terminates and C23_cycle_refuted are its halves; C23_mutual_refuted an instance."
  },
  {
   "property": "C24",
   "status": "proved",
   "theorems": [
    "C24_exact",
    "C24_unavailable",
    "C24_case",
    "C24_unavailable_case"
   ],
   "note": ""
  },
  {
   "property": "C25",
   "status": "proved",
   "theorems": [
    "C25_terminates",
    "C25_levels_partial",
    "C25_cycle_refuted"
   ],
   "note": "C25_terminates, C25_levels_partial (ports reaching no cycle) and C25_cycle_refuted (all the others) cover every port; C25_dotted_refuted shows the effect of the dot."
  },
  {
   "property": "C26",
   "status": "proved",
   "theorems": [
    "C26_listing",
    "C26_reachability_partial",
    "C26_cycle_refuted"
   ],
   "note": "C26_listing (exact for every tree), C26_reachability_partial (acyclic), C26_cycle_refuted (cyclic), C26_suffix_refuted (names with a dot); the end is C25_terminates."
  },
  {
   "property": "C27",
   "status": "proved",
   "theorems": [
    "C27_exact",
    "C27_round_trip_partial",
    "C27_size_partial",
    "C27_stale_refuted",
    "C27_short_refuted",
    "C27_size_refuted",
    "C27_blank_refuted",
    "C27_cut_refuted"
   ],
   "note": "C27_exact is the statement; C27_round_trip_partial the case of one collection with distinct names; C27_stale_refuted, C27_short_refuted, C27_cut_refuted exhibit what happens to stale fields, to dependency lines of short names and to a file without its last empty line (records that are not regular)."
  },
  {
   "property": "C28",
   "status": "proved",
   "theorems": [
    "C28_no_url_refuted",
    "C28_other_name_refuted",
    "C28_hash_refuted",
    "C28_traffic",
    "C28_verified_partial"
   ],
   "note": "C28_verified_partial is the statement; C28_stops: a bad download ends the run; C28_no_url_refuted: without url an unverified archive is taken. C28_traffic: what is downloaded."
  },
  {
   "property": "C29",
   "status": "proved",
   "theorems": [
    "C29_round_trip",
    "C29_decode",
    "C29_rejected",
    "C29_odd_refuted",
    "C29_lenient_refuted",
    "C29_exact"
   ],
   "note": "C29_round_trip, C29_exact; C29_decode, C29_rejected, C29_odd_refuted, C29_lenient_refuted are readable consequences."
  },
  {
   "property": "C30",
   "status": "proved",
   "theorems": [
    "C30_reads_total",
    "C30_configuration",
    "C30_comment"
   ],
   "note": ""
  },
  {
   "property": "C31",
   "status": "proved",
   "theorems": [
    "C31_strip_white_space",
    "C31_strip_unique",
    "C31_strip_idempotent",
    "C31_strip_blank"
   ],
   "note": ""
  },
  {
   "property": "C32",
   "status": "proved",
   "theorems": [
    "C32_value_of_key",
    "C32_no_delimiter",
    "C32_split_tokens",
    "C32_tokens_unique",
    "C32_tokens_wellformed",
    "C32_tokens_lose_nothing",
    "C32_split_join_roundtrip",
    "C32_strtok_tokens",
    "C32_splitters_agree",
    "C32_set_splitter",
    "C32_value_after_first",
    "C32_value_after_none",
    "C32_value_before_first",
    "C32_value_before_last",
    "C32_key_value",
    "C32_last_definition_wins"
   ],
   "note": "C32_split_*, C32_tokens_*, C32_value_of_key, C32_no_delimiter and the value helpers: exact."
  },
  {
   "property": "C33",
   "status": "proved",
   "theorems": [
    "C33_replace_all_complete",
    "C33_replace_all_char",
    "C33_replace_all_shrinking",
    "C33_replace_all_endless",
    "C33_replace_all_terminates_refuted"
   ],
   "note": "C33_replace_all_complete, C33_replace_all_char, C33_replace_all_shrinking, C33_replace_all_endless, C33_replace_all_terminates_refuted. Exactly which other triples end is the halting problem of one-rule rewriting and is left open."
  },
  {
   "property": "C34",
   "status": "proved",
   "theorems": [
    "C34_itos",
    "C34_decimal_text",
    "C34_ultos_partial",
    "C34_ultos_refuted"
   ],
   "note": "C34_itos, C34_ultos_partial (the dichotomy for every 64-bit value), C34_decimal_text, C34_ultos_refuted."
  },
  {
   "property": "C35",
   "status": "proved",
   "theorems": [
    "C35_letters",
    "C35_exact",
    "C35_mode_permissions",
    "C35_mode_type",
    "C35_mode_length",
    "C35_lower_case_idempotent",
    "C35_starts_with_nocase"
   ],
   "note": "C35_exact (bit by bit), C35_mode_permissions, C35_mode_type, C35_letters, C35_starts_with_nocase."
  },
  {
   "property": "C36",
   "status": "proved",
   "theorems": [
    "C36_trim_is_squeeze",
    "C36_no_double_slash",
    "C36_only_slashes_removed",
    "C36_same_components",
    "C36_idempotent",
    "C36_terminates"
   ],
   "note": ""
  },
  {
   "property": "C37",
   "status": "proved",
   "theorems": [
    "C37_lines_partial",
    "C37_long_line_refuted",
    "C37_unterminated_refuted",
    "C37_exact",
    "C37_set"
   ],
   "note": "C37_exact (every file), C37_set (reading into a set), C37_lines_partial (regular files); C37_long_line_refuted, C37_unterminated_refuted exhibit the cut lines and the lost last character."
  },
  {
   "property": "C38",
   "status": "proved",
   "theorems": [
    "C38_regular",
    "C38_links",
    "C38_permissions",
    "C38_different_kinds",
    "C38_devices_refuted",
    "C38_devices",
    "C38_never"
   ],
   "note": "Exact: C38_regular, C38_links, C38_devices, C38_never, C38_different_kinds, C38_permissions; C38_devices_refuted exhibits two different devices taken for equal."
  },
  {
   "property": "C39",
   "status": "proved",
   "theorems": [
    "C39_prune",
    "C39_any_arguments",
    "C39_trailing_slash_refuted"
   ],
   "note": "C39_any_arguments, C39_prune, C39_trailing_slash_refuted."
  },
  {
   "property": "C40",
   "status": "proved",
   "theorems": [
    "C40_exact",
    "C40_sequence_partial",
    "C40_zero_refuted",
    "C40_wrap_refuted",
    "C40_empty_refuted"
   ],
   "note": "C40_exact; C40_sequence_partial (with value(), from a capacity of at least 1, up to 2^31 elements); C40_zero_refuted, C40_wrap_refuted, C40_empty_refuted exhibit the failures, value() of an empty array included."
  },
  {
   "property": "C41",
   "status": "proved",
   "theorems": [
    "C41_exact",
    "C41_safe",
    "C41_assign_partial",
    "C41_reserve_partial",
    "C41_empty_refuted",
    "C41_shrink_refuted",
    "C41_new_refuted"
   ],
   "note": "C41_exact, C41_safe; C41_assign_partial, C41_reserve_partial, C41_empty_refuted, C41_shrink_refuted, C41_new_refuted are readable consequences."
  },
  {
   "property": "C42",
   "status": "proved",
   "theorems": [
    "C42_complete",
    "C42_refused",
    "C42_sound",
    "C42_cards",
    "C42_count"
   ],
   "note": ""
  },
  {
   "property": "C43",
   "status": "proved",
   "theorems": [
    "C43_exited_partial",
    "C43_other_ends_refuted",
    "C43_success_iff"
   ],
   "note": "C43_success_iff; C43_exited_partial, C43_other_ends_refuted are its parts."
  },
  {
   "property": "C44",
   "status": "proved",
   "theorems": [
    "C44_partition",
    "C44_counters",
    "C44_upgrade_lists"
   ],
   "note": ""
  },
  {
   "property": "C45",
   "status": "proved",
   "theorems": [
    "C45_exact",
    "C45_inside_iff",
    "C45_listed_partial",
    "C45_generated",
    "C45_unterminated_refuted",
    "C45_empty_refuted",
    "C45_stale_refuted",
    "C45_sets"
   ],
   "note": "C45_inside_iff, C45_exact, C45_listed_partial, C45_generated, C45_sets; C45_unterminated_refuted, C45_empty_refuted, C45_stale_refuted exhibit the surprises."
  },
  {
   "property": "C46",
   "status": "proved",
   "theorems": [
    "C46_bits",
    "C46_history",
    "C46_others_kept"
   ],
   "note": ""
  },
  {
   "property": "C47",
   "status": "proved",
   "theorems": [
    "C47_accepted",
    "C47_missing_refused",
    "C47_empty_member_refuted",
    "C47_member_read_partial",
    "C47_exact"
   ],
   "note": "C47_exact; C47_accepted (what the accepted record then holds), C47_missing_refused, C47_member_read_partial, C47_empty_member_refuted."
  },
  {
   "property": "C48",
   "status": "proved",
   "theorems": [
    "C48_outside_partial",
    "C48_host_file_refuted"
   ],
   "note": "C48_outside_partial; C48_host_file_refuted: /.MTREE of the host goes; C48_mtree_left: that of the root stays."
  },
  {
   "property": "C49",
   "status": "proved",
   "theorems": [
    "C49_deletes_only",
    "C49_deletes_all",
    "C49_local"
   ],
   "note": "C49_deletes_only and C49_deletes_all are exact; C49_local follows."
  },
  {
   "property": "C50",
   "status": "proved",
   "theorems": [
    "C50_spurious_trigger_refuted",
    "C50_missed_trigger_refuted",
    "C50_uninstalled_file_refuted",
    "C50_triggers_partial"
   ],
   "note": "C50_triggers_partial is the statement (if and only if), C50_case a list with its triggers; C50_spurious_trigger_refuted, C50_missed_trigger_refuted, C50_uninstalled_file_refuted exhibit how it departs from 'exactly the events whose YES rules match an installed file'."
  },
  {
   "property": "C51",
   "status": "proved",
   "theorems": [
    "C51_directory_refuted",
    "C51_other_file_kept_partial"
   ],
   "note": "C51_other_file_kept_partial; C51_directory_refuted exhibits the exception."
  },
  {
   "property": "C52",
   "status": "proved",
   "theorems": [
    "C52_recorded_missing_refuted",
    "C52_content_installed"
   ],
   "note": "C52_content_installed; C52_recorded_missing_refuted exhibits the exception."
  },
  {
   "property": "C53",
   "status": "proved",
   "theorems": [
    "C53_create_unlocked_refuted",
    "C53_written_under_lock"
   ],
   "note": "C53_written_under_lock: pkgadd, pkgrm, pkginfo and upgrade under every schedule; C53_create_unlocked_refuted: 'cards create' drops the lock at once. The statement is about adds, upgrades, removals and queries, for which it is proved; the refutation is about a fifth command."
  },
  {
   "property": "C54",
   "status": "proved",
   "theorems": [
    "C54_exact",
    "C54_search_partial",
    "C54_names_partial",
    "C54_case_refuted",
    "C54_stale_refuted"
   ],
   "note": "C54_exact; C54_search_partial and C54_names_partial in terms of the records; C54_case_refuted, C54_stale_refuted exhibit the surprises."
  },
  {
   "property": "C55",
   "status": "proved",
   "theorems": [
    "C55_number_refuted",
    "C55_start_refuted",
    "C55_locked_queries_partial"
   ],
   "note": "C55_locked_queries_partial; C55_number_refuted (pkginfo -n takes no lock) and C55_start_refuted (the database is opened, and the stray metadata removed, before the lock is asked for)."
  },
  {
   "property": "C56",
   "status": "proved",
   "theorems": [
    "C56_owner",
    "C56_bad_pattern",
    "C56_table",
    "C56_no_owner"
   ],
   "note": ""
  },
  {
   "property": "C57",
   "status": "proved",
   "theorems": [
    "C57_list",
    "C57_list_refused",
    "C57_details_partial",
    "C57_build_partial",
    "C57_hidden_refuted",
    "C57_alias_refuted"
   ],
   "note": "C57_list, C57_list_refused, C57_details_partial, C57_build_partial; the exceptions are C57_hidden_refuted and C57_alias_refuted."
  },
  {
   "property": "C58",
   "status": "proved",
   "theorems": [
    "C58_number",
    "C58_installed"
   ],
   "note": ""
  },
  {
   "property": "C59",
   "status": "proved",
   "theorems": [
    "C59_case",
    "C59_read_only",
    "C59_same_answer"
   ],
   "note": ""
  },
  {
   "property": "C60",
   "status": "proved",
   "theorems": [
    "C60_libraries",
    "C60_runtime",
    "C60_exact_partial",
    "C60_prefix_refuted"
   ],
   "note": "C60_runtime is the exact characterisation; C60_exact_partial: equal to the ideal when library names occur only as last components; C60_prefix_refuted: the exception."
  },
  {
   "property": "C61",
   "status": "proved",
   "theorems": [
    "C61_late_refuted",
    "C61_overrun_refuted",
    "C61_first_table_refuted",
    "C61_class32_refuted",
    "C61_exact_partial",
    "C61_second_half",
    "C61_cut_refuted",
    "C61_not_elf"
   ],
   "note": "C61_exact_partial, C61_second_half, C61_not_elf; the exceptions are C61_late_refuted, C61_first_table_refuted, C61_overrun_refuted, C61_class32_refuted, C61_cut_refuted."
  },
  {
   "property": "C62",
   "status": "proved",
   "theorems": [
    "C62_failed",
    "C62_frame",
    "C62_complete",
    "C62_died",
    "C62_died_frame",
    "C62_cut_refuted",
    "C62_silent_refuted",
    "C62_key_refuted",
    "C62_torn_refuted"
   ],
   "note": "C62_complete, C62_failed, C62_frame, C62_died, C62_died_frame hold for every server and crash point; the exceptions are C62_cut_refuted, C62_silent_refuted, C62_key_refuted and C62_torn_refuted. Server and decompressor are oracles. What a body is when the device is full: C113_sync."
  },
  {
   "property": "C63",
   "status": "proved",
   "theorems": [
    "C63_files_partial",
    "C63_none_partial",
    "C63_one_owner",
    "C63_recorded_partial",
    "C63_unreadable",
    "C63_missing_refuted",
    "C63_versions_refuted"
   ],
   "note": "C63_files_partial, C63_none_partial, C63_recorded_partial, C63_one_owner; C63_missing_refuted, C63_versions_refuted. C63_unreadable: collections without an index are passed over."
  },
  {
   "property": "C64",
   "status": "proved",
   "theorems": [
    "C64_query_partial",
    "C64_blank_refuted",
    "C64_at_refuted",
    "C64_missing_refuted",
    "C64_case"
   ],
   "note": "C64_query_partial; C64_blank_refuted, C64_at_refuted, C64_missing_refuted exhibit the exceptions."
  },
  {
   "property": "C65",
   "status": "proved",
   "theorems": [
    "C65_exact",
    "C65_ports_partial",
    "C65_stale_refuted",
    "C65_comment_refuted",
    "C65_inner_comment_refuted",
    "C65_open_refuted",
    "C65_tab_refuted",
    "C65_unreadable_refuted"
   ],
   "note": "C65_exact, C65_ports_partial (distinct readable recipes); C65_stale_refuted, C65_unreadable_refuted show what is carried over; C65_comment_refuted, C65_inner_comment_refuted, C65_open_refuted, C65_tab_refuted what recipes that are not well-formed give."
  },
  {
   "property": "C66",
   "status": "proved",
   "theorems": [
    "C66_case",
    "C66_no_shared_file"
   ],
   "note": "C66_no_shared_file: by the invariant of C02, kept by every step of 'cards create'. The archives' names contain no '.' at the start (as in C02)."
  },
  {
   "property": "C67",
   "status": "proved",
   "theorems": [
    "C67_records",
    "C67_untouched",
    "C67_spared",
    "C67_gone",
    "C67_emptied",
    "C67_left_refuted"
   ],
   "note": "C67_records, C67_untouched, C67_spared, C67_gone hold for every tree; C67_emptied (directories too) when the cleared packages list the directories of their files. C67_left_refuted and Example C67_no_meta_stale are the exceptions."
  },
  {
   "property": "C68",
   "status": "proved",
   "theorems": [
    "C68_records",
    "C68_no_meta_partial",
    "C68_record_lost_refuted"
   ],
   "note": "C68_records, C68_no_meta_partial; the exception is C68_record_lost_refuted."
  },
  {
   "property": "C69",
   "status": "proved",
   "theorems": [
    "C69_made",
    "C69_dependency",
    "C69_same_command_refuted"
   ],
   "note": "C69_made (any list of archives made), C69_dependency; the exception is C69_same_command_refuted (the table of aliases is not updated)."
  },
  {
   "property": "C70",
   "status": "proved",
   "theorems": [
    "C70_order_partial",
    "C70_archives_partial",
    "C70_cycle_refuted",
    "C70_suffix_refuted",
    "C70_language_never"
   ],
   "note": "C70_order_partial, C70_archives_partial, C70_language_never; C70_cycle_refuted, C70_suffix_refuted (for b.lib, what b needs is left out) are the exceptions."
  },
  {
   "property": "C71",
   "status": "proved",
   "theorems": [
    "C71_levels",
    "C71_warnings",
    "C71_collection"
   ],
   "note": "C71_levels, C71_warnings, C71_collection hold for every tree (the order for ports that reach no cycle; direct and indirect dependencies)."
  },
  {
   "property": "C72",
   "status": "proved",
   "theorems": [
    "C72_depths",
    "C72_tree_partial",
    "C72_self_refuted"
   ],
   "note": "C72_depths, C72_tree_partial, C72_self_refuted; the end is C25_terminates (every function of the model is total)."
  },
  {
   "property": "C73",
   "status": "proved",
   "theorems": [
    "C73_case",
    "C73_dependents",
    "C73_suffix_refuted",
    "C73_plain_partial"
   ],
   "note": "C73_dependents, C73_plain_partial; C73_suffix_refuted: a dependency on b.lib is not shown for b."
  },
  {
   "property": "C74",
   "status": "proved",
   "theorems": [
    "C74_built_iff",
    "C74_libraries",
    "C74_dot_lib_partial",
    "C74_unnoticed_refuted",
    "C74_blank_refuted",
    "C74_collection",
    "C74_dry"
   ],
   "note": "C74_built_iff, C74_collection, C74_dry, C74_libraries; C74_dot_lib_partial says exactly what is checked for n.lib. C74_unnoticed_refuted and C74_blank_refuted are the exceptions."
  },
  {
   "property": "C75",
   "status": "proved",
   "theorems": [
    "C75_deletes",
    "C75_dry",
    "C75_groups_refuted"
   ],
   "note": "C75_deletes, C75_dry; the exception is C75_groups_refuted."
  },
  {
   "property": "C76",
   "status": "proved",
   "theorems": [
    "C76_closed",
    "C76_requested_automatic_refuted",
    "C76_current_unexamined_refuted",
    "C76_installed",
    "C76_kept",
    "C76_files",
    "C76_partway",
    "C76_meta"
   ],
   "note": "C76_installed, C76_kept, C76_files, C76_partway, C76_meta, C76_closed. Public keys are assumed genuine (a signature that verifies certifies the archive of that name) and a download url configured; without them see C28. C76_requested_automatic_refuted, C76_current_unexamined_refuted exhibit the last two points."
  },
  {
   "property": "C77",
   "status": "proved",
   "theorems": [
    "C77_new_dependency_refuted",
    "C77_needed_removed_refuted",
    "C77_group_later_refuted",
    "C77_obsolete_files",
    "C77_partway",
    "C77_closed",
    "C77_settled",
    "C77_upgraded",
    "C77_kept",
    "C77_meta"
   ],
   "note": "C77_upgraded, C77_kept, C77_partway for every database; C77_meta, C77_closed, C77_settled with root \"/\", without scripts, for archives whose META is well formed (C77_settled: and whose build date is that of the index). Assumptions on keys as in C76. C77_new_dependency_refuted (a dependency the upgrade brings in is recorded as if asked for), C77_needed_removed_refuted (an automatic package the repository lacks is removed although a package installed by hand needs it) and C77_group_later_refuted (with groups one upgrade is not enough) exhibit the limits stated. C77_obsolete_files (root '/', no scripts): the files of the obsolete packages are gone from the disk."
  },
  {
   "property": "C78",
   "status": "proved",
   "theorems": [
    "C78_asks",
    "C78_percentage",
    "C78_one_more_refuted",
    "C78_empty_refuted",
    "C78_upgrade"
   ],
   "note": "C78_asks, C78_upgrade: the decision is exact; C78_percentage: the number printed, exceptions included; C78_one_more_refuted, C78_empty_refuted. These theorems use the axioms of the standard library's real numbers (through Flocq)."
  },
  {
   "property": "C79",
   "status": "proved",
   "theorems": [
    "C79_download",
    "C79_added",
    "C79_freed_partial",
    "C79_obsolete_refuted"
   ],
   "note": "C79_download, C79_added, C79_freed_partial; C79_obsolete_refuted: a package that will be removed is not counted."
  },
  {
   "property": "C80",
   "status": "proved",
   "theorems": [
    "C80_order",
    "C80_buffer",
    "C80_seen_running",
    "C80_all_or_nothing",
    "C80_large",
    "C80_echo",
    "C80_goes_on",
    "C80_lost_refuted",
    "C80_background_refuted"
   ],
   "note": "C80_order, C80_seen_running, C80_all_or_nothing, C80_large, C80_echo, C80_goes_on, C80_buffer; C80_lost_refuted (a build that ends before the first waitpid leaves an empty log), C80_background_refuted (a background process keeps cards waiting)."
  },
  {
   "property": "C81",
   "status": "proved",
   "theorems": [
    "C81_add",
    "C81_many",
    "C81_in_root",
    "C81_ldconfig_once",
    "C81_remove",
    "C81_refused_refuted",
    "C81_blank_refuted"
   ],
   "note": "C81_add, C81_many, C81_in_root, C81_ldconfig_once, C81_remove; C81_refused_refuted, C81_blank_refuted exhibit the last points. What the programs do to the machine is not modelled."
  },
  {
   "property": "C82",
   "status": "proved",
   "theorems": [
    "C82_lines",
    "C82_exact",
    "C82_fails",
    "C82_cut_refuted",
    "C82_hard_outside_refuted",
    "C82_names_refuted"
   ],
   "note": "C82_lines, C82_exact (an equivalence), C82_fails; the exceptions are C82_names_refuted, C82_cut_refuted and C82_hard_outside_refuted."
  },
  {
   "property": "C83",
   "status": "proved",
   "theorems": [
    "C83_bytes",
    "C83_rounded",
    "C83_monotone",
    "C83_unit_refuted",
    "C83_progress_refuted"
   ],
   "note": "C83_bytes, C83_rounded, C83_monotone; the exceptions are C83_unit_refuted and C83_progress_refuted."
  },
  {
   "property": "C84",
   "status": "proved",
   "theorems": [
    "C84_unambiguous",
    "C84_pkginfo_accepts",
    "C84_pkginfo_refuses",
    "C84_pkginfo_root",
    "C84_one_query",
    "C84_answers",
    "C84_several_refuted",
    "C84_start_refuted",
    "C84_pkgadd",
    "C84_pkgrm",
    "C84_common",
    "C84_only_root",
    "C84_runs"
   ],
   "note": "C84_pkginfo_accepts / C84_pkginfo_refuses are exact (with the two unset modes as 0); C84_one_query: the query asked is the one run, with its argument and root; C84_answers bounds what several queries give; C84_several_refuted and C84_start_refuted are the exceptions stated. C84_pkgadd, C84_pkgrm: exact acceptance and settings. C84_common, C84_runs, C84_only_root: the program."
  },
  {
   "property": "C85",
   "status": "proved",
   "theorems": [
    "C85_completes",
    "C85_published",
    "C85_unwritable",
    "C85_frame",
    "C85_one",
    "C85_unknown",
    "C85_all",
    "C85_client_partial",
    "C85_check",
    "C85_run",
    "C85_died",
    "C85_stray_refuted",
    "C85_subdir_refuted",
    "C85_all_checked_refuted",
    "C85_unopened_refuted",
    "C85_stale_refuted",
    "C85_count_refuted",
    "C85_cut_refuted"
   ],
   "note": "C85_completes (exact condition), C85_published, C85_frame, C85_one, C85_unknown, C85_all, C85_run, C85_client_partial (for a signature scheme that verifies its own signatures), C85_check, C85_died, C85_unwritable (a file that cannot be written keeps its content); the exceptions are C85_count_refuted, C85_cut_refuted and the other _refuted theorems."
  },
  {
   "property": "C86",
   "status": "proved",
   "theorems": [
    "C86_seen",
    "C86_done",
    "C86_private_partial",
    "C86_exposed_refuted",
    "C86_lost_refuted"
   ],
   "note": "C86_done, C86_seen, C86_private_partial; the exceptions are C86_exposed_refuted and C86_lost_refuted."
  },
  {
   "property": "C87",
   "status": "proved",
   "theorems": [
    "C87_root",
    "C87_upgrade_root_partial",
    "C87_upgrade_root_refuted",
    "C87_others",
    "C87_config",
    "C87_who",
    "C87_install_root_refuted",
    "C87_acts"
   ],
   "note": "C87_root (install, remove), C87_others, C87_config, C87_who; C87_upgrade_root_partial: upgrade only if the value ends in a slash; C87_upgrade_root_refuted: for every other value it reads no system's database; C87_install_root_refuted: a dependency present on the running system is not installed below --root. The general theorem for an install below --root is C76_installed with host different from the database worked on. C87_acts: which upgrades act, who synchronises first."
  },
  {
   "property": "C88",
   "status": "proved",
   "theorems": [
    "C88_plain",
    "C88_contents",
    "C88_closed_iff",
    "C88_dropped_refuted",
    "C88_cut_refuted",
    "C88_open_refuted",
    "C88_case"
   ],
   "note": "C88_plain, C88_contents (for articles whose headings open and close on their line), C88_closed_iff; the exceptions stated are C88_dropped_refuted, C88_cut_refuted, C88_open_refuted."
  },
  {
   "property": "C89",
   "status": "proved",
   "theorems": [
    "C89_arguments",
    "C89_inside_refuted",
    "C89_twice_refuted"
   ],
   "note": "C89_arguments; the exceptions are C89_inside_refuted (an argument's name inside a value is taken as the argument) and C89_twice_refuted (of two values of an argument the one that survives is not the later written one)."
  },
  {
   "property": "C90",
   "status": "proved",
   "theorems": [
    "C90_found",
    "C90_capital_refuted",
    "C90_alias_refuted",
    "C90_words_refuted",
    "C90_missing_refuted",
    "C90_twice_refuted",
    "C90_outside_refuted"
   ],
   "note": "C90_found; the exceptions stated are C90_capital_refuted, C90_alias_refuted, C90_words_refuted, C90_missing_refuted, C90_twice_refuted, C90_outside_refuted."
  },
  {
   "property": "C91",
   "status": "proved",
   "theorems": [
    "C91_page",
    "C91_no_page",
    "C91_articles",
    "C91_inside",
    "C91_search",
    "C91_markup_refuted"
   ],
   "note": "C91_page, C91_no_page, C91_articles, C91_inside, C91_search; the exception stated is C91_markup_refuted."
  },
  {
   "property": "C92",
   "status": "proved",
   "theorems": [
    "C92_groups_refuted",
    "C92_added_refuted",
    "C92_current",
    "C92_out_of_date",
    "C92_lists",
    "C92_totals"
   ],
   "note": "C92_current, C92_out_of_date, C92_lists, C92_totals (names and versions without blanks, fewer than 2^32 packages); the exceptions stated are C92_groups_refuted and C92_added_refuted."
  },
  {
   "property": "C93",
   "status": "proved",
   "theorems": [
    "C93_binary_last",
    "C93_port_last",
    "C93_first_refuted"
   ],
   "note": "C93_binary_last, C93_port_last for every list of collections; C93_first_refuted: the documented order is false."
  },
  {
   "property": "C94",
   "status": "proved",
   "theorems": [
    "C94_exact",
    "C94_no_other",
    "C94_refused",
    "C94_autoremove_succeeds",
    "C94_false_failure"
   ],
   "note": "C94_exact (both directions: everything listed is gone, everything else is untouched), C94_no_other (failures at any point), C94_refused (iff, nothing changed), C94_autoremove_succeeds (iff), for both values of the uninitialised flag of the record re-created at pkgdbh.cxx:912; C94_false_failure exhibits the false error report the flag can cause. Modelled: one process, no I/O failure of the removals in the database directory."
  },
  {
   "property": "C95",
   "status": "proved",
   "theorems": [
    "C95_install_content",
    "C95_install_untouched",
    "C95_upgrade_content",
    "C95_upgrade_untouched",
    "C95_install_no_orphan",
    "C95_upgrade_no_orphan"
   ],
   "note": "Content, untouched and no-orphan theorems for both commands, over the whole sequence of additions and removals. Hypotheses: trusted repository and tidy system as in C76/C77, archives with distinct paths and nothing in the area of rejected files, one name per path; for the content of a file, no other archive of the command ships something at that path. With scripts anything can happen to the files (C48)."
  },
  {
   "property": "C96",
   "status": "proved",
   "theorems": [
    "C96_environment",
    "C96_records",
    "C96_created",
    "C96_failed",
    "C96_alias_refuted",
    "C96_needed_cleared_refuted"
   ],
   "note": "C96_environment (the installed packages, exactly), C96_records (their records), C96_created (after success), C96_failed. C96_alias_refuted, C96_needed_cleared_refuted: what the environment lacks although one would expect it, as the statement says. The list core() starts with is a parameter (C22-C24 for generateDependencies)."
  },
  {
   "property": "C97",
   "status": "proved",
   "theorems": [
    "C97_environment",
    "C97_calls",
    "C97_dependencies",
    "C97_alias_refuted"
   ],
   "note": "C97_calls (which runs, in which order and repository), C97_environment (what is installed at each run, by induction over the sequence), C97_dependencies (all that is needed is there, from the order of C71). C97_alias_refuted: the exception of the statement. Which ports are due is a parameter (C74), as is the list core() starts with (C22-C24). good_pkgmk: the archives pkgmk leaves have names without a dot at the start."
  },
  {
   "property": "C98",
   "status": "proved",
   "theorems": [
    "C98_ignored",
    "C98_failed",
    "C98_rejected",
    "C98_rejects_only",
    "C98_order",
    "C98_refused",
    "C98_listed_refuted"
   ],
   "note": "C98_ignored, C98_failed (an equivalence, with no condition on what lies on the way), C98_rejected, C98_rejects_only, C98_order, C98_refused. C98_listed_refuted: the last sentence of the statement. libarchive's extraction is the model of FsModel (see C36-C39)."
  },
  {
   "property": "C99",
   "status": "proved",
   "theorems": [
    "C99_announced",
    "C99_left",
    "C99_left_directories",
    "C99_upgrade_silent",
    "C99_percent"
   ],
   "note": "C99_announced, C99_left (an equivalence), C99_left_directories, C99_upgrade_silent, C99_percent. The reason appended to the line is not modelled. In 'cards upgrade' and 'cards create' the record is deleted before the line is printed, so it shows an empty version there; not modelled."
  },
  {
   "property": "C100",
   "status": "proved",
   "theorems": [
    "C100_report",
    "C100_all",
    "C100_unknown",
    "C100_stale_refuted",
    "C100_large_refuted",
    "C100_size"
   ],
   "note": "C100_report (the printed text is exactly the report of the specification, for every offered name), C100_all (every offered name has the package and place that C100_report speaks of), C100_unknown (nothing printed otherwise), C100_size (sizes below 2 GiB are right). Exceptions of the statement: C100_stale_refuted (foreign URL shown), C100_large_refuted. Headings untranslated; the date is a parameter."
  },
  {
   "property": "C101",
   "status": "proved",
   "theorems": [
    "C101_info",
    "C101_request",
    "C101_refused",
    "C101_installed",
    "C101_shadowed_refuted"
   ],
   "note": "C101_info, C101_request (members exactly as specified), C101_refused (both directions), C101_installed (with C76). Exception: C101_shadowed_refuted. Arguments that are existing files are the Add sessions of C01-C04."
  },
  {
   "property": "C102",
   "status": "proved",
   "theorems": [
    "C102_sync_refuted",
    "C102_table",
    "C102_menu",
    "C102_button",
    "C102_go",
    "C102_user",
    "C102_safe",
    "C102_info"
   ],
   "note": "C102_table, C102_menu, C102_button, C102_go, C102_user, C102_info; C102_safe: the only event with undefined behaviour is Go after a Sync that dropped choices; C102_sync_refuted exhibits it. Hypotheses: the index has one record per name (a std::map), sorting permutes rows. What the removals and installations do to the system is a parameter here."
  },
  {
   "property": "C103",
   "status": "proved",
   "theorems": [
    "C103_versions_refuted",
    "C103_lost_refuted",
    "C103_order",
    "C103_number",
    "C103_weak_order",
    "C103_click",
    "C103_reset"
   ],
   "note": "C103_order, C103_number (the integer is the value of the leading digits below 2^31), C103_weak_order, C103_click, C103_reset; C103_versions_refuted, C103_lost_refuted exhibit the exceptions. std::sort is assumed to permute and to sort for a strict weak order; GuiExamples has such a function."
  },
  {
   "property": "C104",
   "status": "proved",
   "theorems": [
    "C104_told",
    "C104_complete",
    "C104_lost_refuted",
    "C104_overtake_refuted",
    "C104_unshown_refuted",
    "C104_no_loop_refuted",
    "C104_text"
   ],
   "note": "Each call is one step of a schedule: log from other threads and loopCallback work under the mutex, the rest happens in the creating thread (loopCallback is called by it). C104_told gives, for every schedule, what each further step tells each subscriber; C104_complete draws the consequence for a whole schedule; the _refuted theorems are the exceptions named in the statement (C104_unshown_refuted: with the two lines commented out in main and in the window, nothing is ever told; C104_no_loop_refuted: with a subscription but no loop, only the messages of the creating thread are). C104_text: what the line is."
  },
  {
   "property": "C105",
   "status": "proved",
   "theorems": [
    "C105_hang_refuted",
    "C105_hang_info_refuted",
    "C105_deleted_refuted",
    "C105_race_refuted",
    "C105_stale_refuted",
    "C105_patient",
    "C105_watchful",
    "C105_exclusive",
    "C105_box",
    "C105_press",
    "C105_forever",
    "C105_free",
    "C105_ends"
   ],
   "note": "A schedule is a list of moves: a user action (one step, the main thread holds FLTK's lock) or the next instruction of a thread. C105_exclusive, C105_box, C105_press, C105_forever, C105_free and C105_ends hold of every schedule; C105_patient of the schedules of a patient and careful user (case: C105_case); C105_watchful: going by the box, the running flag and the threads having begun is enough. The _refuted theorems are the exceptions named in the statement. It also justifies the assumption of C102 that every thread is run to its end before the next event."
  },
  {
   "property": "C106",
   "status": "proved",
   "theorems": [
    "C106_button",
    "C106_in_use_refuted",
    "C106_back_refuted",
    "C106_remove",
    "C106_files",
    "C106_install",
    "C106_go",
    "C106_stops"
   ],
   "note": "C106_remove (database; where it stops and why), C106_files, C106_install, C106_go, C106_stops, C106_button (with C102: for every session of the window). C106_in_use_refuted and C106_back_refuted exhibit the two exceptions. Hypotheses: the database can be loaded; for the installation the keys are genuine (see C76). What is new after a broken installation was needed (C106_install)."
  },
  {
   "property": "C107",
   "status": "proved",
   "theorems": [
    "C107_open",
    "C107_put",
    "C107_never_fatal",
    "C107_drop",
    "C107_window_dies",
    "C107_window_lives",
    "C107_terminal_over_refuted",
    "C107_window_over_refuted",
    "C107_window_drop",
    "C107_too_many"
   ],
   "note": "C107_open, C107_drop, C107_put (an equivalence), C107_never_fatal; C107_window_dies, C107_window_lives. C107_terminal_over_refuted, C107_window_over_refuted exhibit the numbers above 100. m_filesNumber is never set when flcards removes (no archive was opened): the theorems hold for every value. C107_window_drop: the numbers the window shows during a removal, whatever was shown before; C107_too_many: where the terminal's product overflows."
  },
  {
   "property": "C108",
   "status": "proved",
   "theorems": [
    "C108_stale_refuted",
    "C108_stale_load_refuted",
    "C108_half_refuted",
    "C108_two_refuted",
    "C108_asked_refuted",
    "C108_item",
    "C108_items",
    "C108_space",
    "C108_names",
    "C108_names_now",
    "C108_files",
    "C108_without_files",
    "C108_known",
    "C108_unloaded",
    "C108_list",
    "C108_list_found",
    "C108_agree",
    "C108_load",
    "C108_half",
    "C108_half_known",
    "C108_half_list"
   ],
   "note": "C108_item/items/space: what is read afresh. C108_names/names_now: the names and their number, from the first look. C108_files, C108_known, C108_unloaded, C108_list, C108_list_found: after the load. C108_load, C108_agree: against the load of DbModel. C108_half, C108_half_known, C108_half_list, C108_without_files: the failed load and the load without lists. Exceptions in the statement: C108_stale_refuted, C108_stale_load_refuted, C108_half_refuted, C108_two_refuted, C108_asked_refuted."
  },
  {
   "property": "C109",
   "status": "proved",
   "theorems": [
    "C109_exact",
    "C109_made",
    "C109_answer",
    "C109_overflow",
    "C109_tree",
    "C109_died",
    "C109_twice",
    "C109_log",
    "C109_no_log",
    "C109_case",
    "C109_answer_refuted",
    "C109_short_refuted",
    "C109_log_case"
   ],
   "note": "C109_exact, C109_made, C109_tree, C109_twice, C109_died, C109_log hold for every file system that is a tree; C109_answer, C109_overflow say what the answer means and when the buffer overflows; the exceptions are C109_answer_refuted and C109_short_refuted. Links are not followed as directories (FsModel)."
  },
  {
   "property": "C110",
   "status": "proved",
   "theorems": [
    "C110_made",
    "C110_answers",
    "C110_dated",
    "C110_printed",
    "C110_steady",
    "C110_date_refuted",
    "C110_case",
    "C110_printed_refuted",
    "C110_year_refuted",
    "C110_short_case"
   ],
   "note": "C110_made, C110_answers, C110_dated, C110_steady, C110_printed hold for every archive and every sequence of questions; the exceptions are C110_printed_refuted, C110_date_refuted and C110_year_refuted. ctime is a parameter."
  },
  {
   "property": "C111",
   "status": "proved",
   "theorems": [
    "C111_waiting",
    "C111_poison",
    "C111_refresh",
    "C111_ghost_refuted",
    "C111_poison_refuted",
    "C111_half_refuted",
    "C111_listing_refuted",
    "C111_info_refuted",
    "C111_group",
    "C111_group_none",
    "C111_info_none",
    "C111_paths",
    "C111_listing",
    "C111_exists",
    "C111_all",
    "C111_text",
    "C111_num",
    "C111_lists",
    "C111_ghost",
    "C111_sets",
    "C111_colls",
    "C111_info",
    "C111_info_last"
   ],
   "note": "C111_exists, C111_all, C111_text, C111_num, C111_lists, C111_ghost, C111_sets, C111_colls, C111_info, C111_info_last, C111_info_none, C111_paths, C111_listing, C111_group, C111_group_none, C111_waiting, C111_poison and C111_refresh hold for every configuration, every worlds and every sequence of questions; a stocked world is one whose indexes are those of genrepo for some packages, or those and then a broken record. The exceptions are C111_ghost_refuted, C111_poison_refuted, C111_half_refuted, C111_listing_refuted and C111_info_refuted. Questions that change a record (hash, sign) or need the network are not modelled."
  },
  {
   "property": "C112",
   "status": "proved",
   "theorems": [
    "C112_recipes",
    "C112_shadow",
    "C112_twice_refuted",
    "C112_named_refuted",
    "C112_stuck_refuted",
    "C112_place_refuted",
    "C112_known",
    "C112_unknown",
    "C112_levels",
    "C112_ports",
    "C112_warnings",
    "C112_order",
    "C112_first",
    "C112_stuck",
    "C112_dir"
   ],
   "note": "C112_known, C112_unknown, C112_levels, C112_ports, C112_warnings, C112_order: the answers after any history that has found the ports m, for names that were ports then and names that were not; C112_recipes: the same from the text of the recipes (C65), with C25, C71 for levels and order; C112_first: the first question that finds ports; C112_stuck: asked by name too early; C112_dir. The exceptions are C112_named_refuted, C112_stuck_refuted, C112_twice_refuted, C112_place_refuted."
  },
  {
   "property": "C113",
   "status": "proved",
   "theorems": [
    "C113_over",
    "C113_sync",
    "C113_sync_plan",
    "C113_fetch",
    "C113_returned",
    "C113_complete",
    "C113_failed",
    "C113_killed",
    "C113_list",
    "C113_names",
    "C113_full_refuted",
    "C113_empty_refuted",
    "C113_broken_refuted"
   ],
   "note": "C113_returned and C113_complete: a download that returns; C113_failed and C113_killed: one that throws, and every moment of one; C113_list: several; C113_names. The exceptions are C113_full_refuted, C113_empty_refuted, C113_broken_refuted. C28 and C62 then say what install and sync do with a file that is cut. C113_over, C113_sync, C113_sync_plan, C113_fetch (DwlLink): the one-step downloads of C62 and C28 are these."
  },
  {
   "property": "C114",
   "status": "proved",
   "theorems": [
    "C114_recorded",
    "C114_alone",
    "C114_one_by_one",
    "C114_kept",
    "C114_no_file",
    "C114_whole",
    "C114_lost_refuted",
    "C114_torn_refuted",
    "C114_date_refuted",
    "C114_page_refuted"
   ],
   "note": "C114_alone, C114_one_by_one, C114_recorded (with C89), C114_kept, C114_whole, C114_no_file hold for every schedule, number of requests and buffer size; the exceptions are C114_lost_refuted, C114_torn_refuted, C114_date_refuted, C114_page_refuted."
  },
  {
   "property": "C115",
   "status": "proved",
   "theorems": [
    "C115_reached",
    "C115_force",
    "C115_refused",
    "C115_again",
    "C115_case",
    "C115_upgrade_refuted"
   ],
   "note": "C115_reached: every moment of the kill leaves an unfinished state; C115_refused, C115_again, C115_force hold for every unfinished state. C115_upgrade_refuted is the exception. A kill after the unpacking, while the database is written, is C13. The archive must ship what it lists, and its META and removal scripts must not be directories."
  },
  {
   "property": "C116",
   "status": "proved",
   "theorems": [
    "C116_reached",
    "C116_still_there",
    "C116_again",
    "C116_often",
    "C116_window_refuted",
    "C116_case"
   ],
   "note": "C116_reached: what a killed removal has done at every point before the list of files of the record is deleted; C116_still_there: what a user then sees; C116_again and C116_often: repeating it, after one kill and after any number; C116_window_refuted: after the list is deleted every command fails (with C13). Kills inside the cleaning of the stray meta files are not separate points; scripts are excluded."
  },
  {
   "property": "C117",
   "status": "proved",
   "theorems": [
    "C117_reached",
    "C117_safe",
    "C117_again",
    "C117_case",
    "C117_mark_refuted"
   ],
   "note": "C117_reached: what a killed upgrade has deleted at every point; C117_safe: what it cannot have deleted; C117_again: repeating it; C117_mark_refuted: killed when META is gone, the automatic mark is lost by the repetition. FsExt.v shows that every step of the engine gives pointwise equal file systems from pointwise equal ones. After the record is deleted see C115_upgrade_refuted."
  },
  {
   "property": "C118",
   "status": "proved",
   "theorems": [
    "C118_case",
    "C118_alias_refuted",
    "C118_twice_refuted",
    "C118_same"
   ],
   "note": "C118_same: the equality of the two runs; C118_case: a case meeting every hypothesis; C118_twice_refuted: the same automatic package twice in one command loses its mark, in two commands it keeps it; C118_alias_refuted: when a package of the first command also answers to the name of one of the second, one command installs both and the second of two commands fails. The proof keeps the two memories related (same files, same automatic mark for the names still to come, same answers to 'is it installed') through every step of the engine; what META says of other packages may differ, since the engine does not look at it."
  },
  {
   "property": "C119",
   "status": "proved",
   "theorems": [
    "C119_gone",
    "C119_order",
    "C119_case",
    "C119_parents_refuted"
   ],
   "note": "C119_order: the other order succeeds and leaves the same; C119_gone: what the two leave, exactly; C119_case: foo and bar, which share directories; C119_parents_refuted: the exception."
  },
  {
   "property": "C120",
   "status": "proved",
   "theorems": [
    "C120_records",
    "C120_files",
    "C120_case",
    "C120_moved_refuted"
   ],
   "note": "C120_records: META and the listed files; C120_files: the files; C120_case: foo and bar in both orders; C120_moved_refuted: a file that changes owner."
  }
 ]
}