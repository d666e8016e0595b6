{
 "C04": {
  "note": "C04_refused: the statement, for every refusal; C04_refused_unchanged_partial: the case with scripts off needs fewer hypotheses; C04_pre_script_refuted and C04_bad_rules_refuted exhibit the two exceptions (the .PRE script runs before the conflict test; a bad UPGRADE pattern is found after the conflicting files were stripped).",
  "status": "proved"
 },
 "C05": {
  "note": "C05_untouched, C05_others_kept, C05_gone, C05_database: the four parts; C05_spelling_refuted exhibits the exception.",
  "status": "proved"
 },
 "C07": {
  "note": "C07_protected_kept, C07_rejected_copy; C07_not_installed_refuted exhibits the exception.",
  "status": "proved"
 },
 "C11": {
  "note": "Round trip proved for all sorted lists of non-empty names without newline (the property's own condition); C11_newline_refuted shows the condition is needed.",
  "status": "proved"
 },
 "C13": {
  "note": "C13_remove_exact, C13_install_exact, C13_upgrade_exact (if and only if), C13_what_is_left (what the database then is), C13_install_window_refuted and C13_remove_window_refuted (inside the window, power loss included), C13_meta_not_synced_refuted (power loss after a complete install).",
  "status": "proved"
 },
 "C15": {
  "note": "C15_recorded, C15_on_disk, C15_one_after_the_other; C15_shared meets the hypotheses. C15_both_own_refuted is the exception: serialisation does not hold. C15_alone_is_session ties the process model to the sequential engine.",
  "status": "proved"
 },
 "C17": {
  "note": "C17_fields, C17_numbers, C17_dates, C17_dependencies (lines of nine characters included), C17_build_dates, C17_short_line_refused; C17_octal_refuted, C17_nine_characters_refuted and C17_release_refuted exhibit the surprises.",
  "status": "proved"
 },
 "C18": {
  "note": "C18_exact is the equivalence; C18_dependency_recorded, C18_upgrade_keeps_automatic, C18_loaded need fewer hypotheses; C18_uninitialised_flag_refuted and C18_manual_becomes_automatic_refuted exhibit the two surprises.",
  "status": "proved"
 },
 "C19": {
  "note": "C19_exact: both inclusions and all outcomes. The wish that a package needed by its alias, or a manually installed group package, is spared is refuted: C19_alias_refuted, C19_group_refuted.",
  "status": "proved"
 },
 "C20": {
  "note": "C20_exact (iff). The wish that every way of naming a package in use is refused is refuted: C20_alias_refuted, C20_collection_refuted, C20_empty_argument_refuted. Hypothesis: the database can be loaded.",
  "status": "proved"
 },
 "C21": {
  "note": "C21_exact; C21_base_kept_partial: also for calls that fail. The wish that it is never removed is refuted in each of the ways listed: C21_alias_refuted, C21_automatic_refuted, C21_group_refuted.",
  "status": "proved"
 },
 "C22": {
  "note": "C22_order under `consistent`; C22_short_names_refuted: the regular tools break that agreement for short names. C22_reads (ReadExact.v): exactly which archives the resolver can read and what it takes from them.",
  "status": "proved"
 },
 "C23": {
  "note": "C23_ends_iff is the equivalence; C23_terminates and C23_cycle_refuted are its halves; C23_mutual_refuted an instance.",
  "status": "proved"
 },
 "C25": {
  "note": "C25_terminates, C25_levels_partial (ports reaching no cycle) and C25_cycle_refuted (all the others) cover every port; C25_dotted_refuted shows the effect of the dot.",
  "status": "proved"
 },
 "C26": {
  "note": "C26_listing (exact for every tree), C26_reachability_partial (acyclic), C26_cycle_refuted (cyclic), C26_suffix_refuted (names with a dot); the end is C25_terminates.",
  "status": "proved"
 },
 "C27": {
  "note": "C27_exact is the statement; C27_round_trip_partial the case of one collection with distinct names; C27_stale_refuted, C27_short_refuted, C27_cut_refuted exhibit what happens to stale fields, to dependency lines of short names and to a file without its last empty line (records that are not regular).",
  "status": "proved"
 },
 "C28": {
  "note": "C28_verified_partial is the statement; C28_stops: a bad download ends the run; C28_no_url_refuted: without url an unverified archive is taken. C28_traffic: what is downloaded.",
  "status": "proved"
 },
 "C29": {
  "note": "C29_round_trip, C29_exact; C29_decode, C29_rejected, C29_odd_refuted, C29_lenient_refuted are readable consequences.",
  "status": "proved"
 },
 "C33": {
  "note": "C33_replace_all_complete, C33_replace_all_char, C33_replace_all_shrinking, C33_replace_all_endless, C33_replace_all_terminates_refuted. Exactly which other triples end is the halting problem of one-rule rewriting and is left open.",
  "status": "proved"
 },
 "C34": {
  "note": "C34_itos, C34_ultos_partial (the dichotomy for every 64-bit value), C34_decimal_text, C34_ultos_refuted.",
  "status": "proved"
 },
 "C37": {
  "note": "C37_exact (every file), C37_set (reading into a set), C37_lines_partial (regular files); C37_long_line_refuted, C37_unterminated_refuted exhibit the cut lines and the lost last character.",
  "status": "proved"
 },
 "C38": {
  "note": "Exact: C38_regular, C38_links, C38_devices, C38_never, C38_different_kinds, C38_permissions; C38_devices_refuted exhibits two different devices taken for equal.",
  "status": "proved"
 },
 "C39": {
  "note": "C39_any_arguments, C39_prune, C39_trailing_slash_refuted.",
  "status": "proved"
 },
 "C40": {
  "note": "C40_exact; C40_sequence_partial (with value(), from a capacity of at least 1, up to 2^31 elements); C40_zero_refuted, C40_wrap_refuted, C40_empty_refuted exhibit the failures, value() of an empty array included.",
  "status": "proved"
 },
 "C41": {
  "note": "C41_exact, C41_safe; C41_assign_partial, C41_reserve_partial, C41_empty_refuted, C41_shrink_refuted, C41_new_refuted are readable consequences.",
  "status": "proved"
 },
 "C43": {
  "note": "C43_success_iff; C43_exited_partial, C43_other_ends_refuted are its parts.",
  "status": "proved"
 },
 "C45": {
  "note": "C45_inside_iff, C45_exact, C45_listed_partial, C45_generated, C45_sets; C45_unterminated_refuted, C45_empty_refuted, C45_stale_refuted exhibit the surprises.",
  "status": "proved"
 },
 "C47": {
  "note": "C47_exact; C47_accepted (what the accepted record then holds), C47_missing_refused, C47_member_read_partial, C47_empty_member_refuted.",
  "status": "proved"
 },
 "C48": {
  "note": "C48_outside_partial; C48_host_file_refuted: /.MTREE of the host goes; C48_mtree_left: that of the root stays.",
  "status": "proved"
 },
 "C49": {
  "note": "C49_deletes_only and C49_deletes_all are exact; C49_local follows."
 },
 "C50": {
  "note": "C50_triggers_partial is the statement (if and only if), C50_case a list with its triggers; C50_spurious_trigger_refuted, C50_missed_trigger_refuted, C50_uninstalled_file_refuted exhibit how it departs from 'exactly the events whose YES rules match an installed file'.",
  "status": "proved"
 },
 "C51": {
  "note": "C51_other_file_kept_partial; C51_directory_refuted exhibits the exception.",
  "status": "proved"
 },
 "C52": {
  "note": "C52_content_installed; C52_recorded_missing_refuted exhibits the exception.",
  "status": "proved"
 },
 "C53": {
  "note": "C53_written_under_lock: pkgadd, pkgrm, pkginfo and upgrade under every schedule; C53_create_unlocked_refuted: 'cards create' drops the lock at once. The statement is about adds, upgrades, removals and queries, for which it is proved; the refutation is about a fifth command.",
  "status": "proved"
 },
 "C54": {
  "note": "C54_exact; C54_search_partial and C54_names_partial in terms of the records; C54_case_refuted, C54_stale_refuted exhibit the surprises.",
  "status": "proved"
 },
 "C55": {
  "note": "C55_locked_queries_partial; C55_number_refuted (pkginfo -n takes no lock) and C55_start_refuted (the database is opened, and the stray metadata removed, before the lock is asked for).",
  "status": "proved"
 },
 "C57": {
  "note": "C57_list, C57_list_refused, C57_details_partial, C57_build_partial; the exceptions are C57_hidden_refuted and C57_alias_refuted.",
  "status": "proved"
 },
 "C60": {
  "note": "C60_runtime is the exact characterisation; C60_exact_partial: equal to the ideal when library names occur only as last components; C60_prefix_refuted: the exception.",
  "status": "proved"
 },
 "C61": {
  "note": "C61_exact_partial, C61_second_half, C61_not_elf; the exceptions are C61_late_refuted, C61_first_table_refuted, C61_overrun_refuted, C61_class32_refuted, C61_cut_refuted.",
  "status": "proved"
 },
 "C62": {
  "note": "C62_complete, C62_failed, C62_frame, C62_died, C62_died_frame hold for every server and crash point; the exceptions are C62_cut_refuted, C62_silent_refuted, C62_key_refuted and C62_torn_refuted. Server and decompressor are oracles. What a body is when the device is full: C113_sync.",
  "status": "proved"
 },
 "C63": {
  "note": "C63_files_partial, C63_none_partial, C63_recorded_partial, C63_one_owner; C63_missing_refuted, C63_versions_refuted. C63_unreadable: collections without an index are passed over.",
  "status": "proved"
 },
 "C64": {
  "note": "C64_query_partial; C64_blank_refuted, C64_at_refuted, C64_missing_refuted exhibit the exceptions.",
  "status": "proved"
 },
 "C65": {
  "note": "C65_exact, C65_ports_partial (distinct readable recipes); C65_stale_refuted, C65_unreadable_refuted show what is carried over; C65_comment_refuted, C65_inner_comment_refuted, C65_open_refuted, C65_tab_refuted what recipes that are not well-formed give.",
  "status": "proved"
 },
 "C66": {
  "note": "C66_no_shared_file: by the invariant of C02, kept by every step of 'cards create'. The archives' names contain no '.' at the start (as in C02)."
 },
 "C67": {
  "note": "C67_records, C67_untouched, C67_spared, C67_gone hold for every tree; C67_emptied (directories too) when the cleared packages list the directories of their files. C67_left_refuted and Example C67_no_meta_stale are the exceptions.",
  "status": "proved"
 },
 "C68": {
  "note": "C68_records, C68_no_meta_partial; the exception is C68_record_lost_refuted.",
  "status": "proved"
 },
 "C69": {
  "note": "C69_made (any list of archives made), C69_dependency; the exception is C69_same_command_refuted (the table of aliases is not updated).",
  "status": "proved"
 },
 "C70": {
  "note": "C70_order_partial, C70_archives_partial, C70_language_never; C70_cycle_refuted, C70_suffix_refuted (for b.lib, what b needs is left out) are the exceptions.",
  "status": "proved"
 },
 "C71": {
  "note": "C71_levels, C71_warnings, C71_collection hold for every tree (the order for ports that reach no cycle; direct and indirect dependencies).",
  "status": "proved"
 },
 "C72": {
  "note": "C72_depths, C72_tree_partial, C72_self_refuted; the end is C25_terminates (every function of the model is total).",
  "status": "proved"
 },
 "C73": {
  "note": "C73_dependents, C73_plain_partial; C73_suffix_refuted: a dependency on b.lib is not shown for b.",
  "status": "proved"
 },
 "C74": {
  "note": "C74_built_iff, C74_collection, C74_dry, C74_libraries; C74_dot_lib_partial says exactly what is checked for n.lib. C74_unnoticed_refuted and C74_blank_refuted are the exceptions.",
  "status": "proved"
 },
 "C75": {
  "note": "C75_deletes, C75_dry; the exception is C75_groups_refuted.",
  "status": "proved"
 },
 "C76": {
  "note": "C76_installed, C76_kept, C76_files, C76_partway, C76_meta, C76_closed. Public keys are assumed genuine (a signature that verifies certifies the archive of that name) and a download url configured; without them see C28. C76_requested_automatic_refuted, C76_current_unexamined_refuted exhibit the last two points.",
  "status": "proved"
 },
 "C77": {
  "note": "C77_upgraded, C77_kept, C77_partway for every database; C77_meta, C77_closed, C77_settled with root \"/\", without scripts, for archives whose META is well formed (C77_settled: and whose build date is that of the index). Assumptions on keys as in C76. C77_new_dependency_refuted (a dependency the upgrade brings in is recorded as if asked for), C77_needed_removed_refuted (an automatic package the repository lacks is removed although a package installed by hand needs it) and C77_group_later_refuted (with groups one upgrade is not enough) exhibit the limits stated. C77_obsolete_files (root '/', no scripts): the files of the obsolete packages are gone from the disk.",
  "status": "proved"
 },
 "C78": {
  "note": "C78_asks, C78_upgrade: the decision is exact; C78_percentage: the number printed, exceptions included; C78_one_more_refuted, C78_empty_refuted. These theorems use the axioms of the standard library's real numbers (through Flocq).",
  "status": "proved"
 },
 "C79": {
  "note": "C79_download, C79_added, C79_freed_partial; C79_obsolete_refuted: a package that will be removed is not counted.",
  "status": "proved"
 },
 "C80": {
  "note": "C80_order, C80_seen_running, C80_all_or_nothing, C80_large, C80_echo, C80_goes_on, C80_buffer; C80_lost_refuted (a build that ends before the first waitpid leaves an empty log), C80_background_refuted (a background process keeps cards waiting).",
  "status": "proved"
 },
 "C81": {
  "note": "C81_add, C81_many, C81_in_root, C81_ldconfig_once, C81_remove; C81_refused_refuted, C81_blank_refuted exhibit the last points. What the programs do to the machine is not modelled.",
  "status": "proved"
 },
 "C82": {
  "note": "C82_lines, C82_exact (an equivalence), C82_fails; the exceptions are C82_names_refuted, C82_cut_refuted and C82_hard_outside_refuted.",
  "status": "proved"
 },
 "C83": {
  "note": "C83_bytes, C83_rounded, C83_monotone; the exceptions are C83_unit_refuted and C83_progress_refuted.",
  "status": "proved"
 },
 "C84": {
  "note": "C84_pkginfo_accepts / C84_pkginfo_refuses are exact (with the two unset modes as 0); C84_one_query: the query asked is the one run, with its argument and root; C84_answers bounds what several queries give; C84_several_refuted and C84_start_refuted are the exceptions stated. C84_pkgadd, C84_pkgrm: exact acceptance and settings. C84_common, C84_runs, C84_only_root: the program.",
  "status": "proved"
 },
 "C85": {
  "note": "C85_completes (exact condition), C85_published, C85_frame, C85_one, C85_unknown, C85_all, C85_run, C85_client_partial (for a signature scheme that verifies its own signatures), C85_check, C85_died, C85_unwritable (a file that cannot be written keeps its content); the exceptions are C85_count_refuted, C85_cut_refuted and the other _refuted theorems.",
  "status": "proved"
 },
 "C86": {
  "note": "C86_done, C86_seen, C86_private_partial; the exceptions are C86_exposed_refuted and C86_lost_refuted.",
  "status": "proved"
 },
 "C87": {
  "note": "C87_root (install, remove), C87_others, C87_config, C87_who; C87_upgrade_root_partial: upgrade only if the value ends in a slash; C87_upgrade_root_refuted: for every other value it reads no system's database; C87_install_root_refuted: a dependency present on the running system is not installed below --root. The general theorem for an install below --root is C76_installed with host different from the database worked on. C87_acts: which upgrades act, who synchronises first.",
  "status": "proved"
 },
 "C88": {
  "note": "C88_plain, C88_contents (for articles whose headings open and close on their line), C88_closed_iff; the exceptions stated are C88_dropped_refuted, C88_cut_refuted, C88_open_refuted.",
  "status": "proved"
 },
 "C89": {
  "note": "C89_arguments; the exceptions are C89_inside_refuted (an argument's name inside a value is taken as the argument) and C89_twice_refuted (of two values of an argument the one that survives is not the later written one).",
  "status": "proved"
 },
 "C90": {
  "note": "C90_found; the exceptions stated are C90_capital_refuted, C90_alias_refuted, C90_words_refuted, C90_missing_refuted, C90_twice_refuted, C90_outside_refuted.",
  "status": "proved"
 },
 "C91": {
  "note": "C91_page, C91_no_page, C91_articles, C91_inside, C91_search; the exception stated is C91_markup_refuted.",
  "status": "proved"
 },
 "C92": {
  "note": "C92_current, C92_out_of_date, C92_lists, C92_totals (names and versions without blanks, fewer than 2^32 packages); the exceptions stated are C92_groups_refuted and C92_added_refuted.",
  "status": "proved"
 },
 "C93": {
  "note": "C93_binary_last, C93_port_last for every list of collections; C93_first_refuted: the documented order is false.",
  "status": "proved"
 },
 "C94": {
  "note": "C94_exact (both directions: everything listed is gone, everything else is untouched), C94_no_other (failures at any point), C94_refused (iff, nothing changed), C94_autoremove_succeeds (iff), for both values of the uninitialised flag of the record re-created at pkgdbh.cxx:912; C94_false_failure exhibits the false error report the flag can cause. Modelled: one process, no I/O failure of the removals in the database directory.",
  "status": "proved"
 },
 "C95": {
  "note": "Content, untouched and no-orphan theorems for both commands, over the whole sequence of additions and removals. Hypotheses: trusted repository and tidy system as in C76/C77, archives with distinct paths and nothing in the area of rejected files, one name per path; for the content of a file, no other archive of the command ships something at that path. With scripts anything can happen to the files (C48)."
 },
 "C96": {
  "note": "C96_environment (the installed packages, exactly), C96_records (their records), C96_created (after success), C96_failed. C96_alias_refuted, C96_needed_cleared_refuted: what the environment lacks although one would expect it, as the statement says. The list core() starts with is a parameter (C22-C24 for generateDependencies).",
  "status": "proved"
 },
 "C97": {
  "note": "C97_calls (which runs, in which order and repository), C97_environment (what is installed at each run, by induction over the sequence), C97_dependencies (all that is needed is there, from the order of C71). C97_alias_refuted: the exception of the statement. Which ports are due is a parameter (C74), as is the list core() starts with (C22-C24). good_pkgmk: the archives pkgmk leaves have names without a dot at the start.",
  "status": "proved"
 },
 "C98": {
  "note": "C98_ignored, C98_failed (an equivalence, with no condition on what lies on the way), C98_rejected, C98_rejects_only, C98_order, C98_refused. C98_listed_refuted: the last sentence of the statement. libarchive's extraction is the model of FsModel (see C36-C39).",
  "status": "proved"
 },
 "C99": {
  "note": "C99_announced, C99_left (an equivalence), C99_left_directories, C99_upgrade_silent, C99_percent. The reason appended to the line is not modelled. In 'cards upgrade' and 'cards create' the record is deleted before the line is printed, so it shows an empty version there; not modelled."
 },
 "C32": {
  "note": "C32_split_*, C32_tokens_*, C32_value_of_key, C32_no_delimiter and the value helpers: exact.",
  "status": "proved"
 },
 "C35": {
  "note": "C35_exact (bit by bit), C35_mode_permissions, C35_mode_type, C35_letters, C35_starts_with_nocase.",
  "status": "proved"
 },
 "C100": {
  "note": "C100_report (the printed text is exactly the report of the specification, for every offered name), C100_all (every offered name has the package and place that C100_report speaks of), C100_unknown (nothing printed otherwise), C100_size (sizes below 2 GiB are right). Exceptions of the statement: C100_stale_refuted (foreign URL shown), C100_large_refuted. Headings untranslated; the date is a parameter.",
  "status": "proved"
 },
 "C101": {
  "note": "C101_info, C101_request (members exactly as specified), C101_refused (both directions), C101_installed (with C76). Exception: C101_shadowed_refuted. Arguments that are existing files are the Add sessions of C01-C04.",
  "status": "proved"
 },
 "C102": {
  "note": "C102_table, C102_menu, C102_button, C102_go, C102_user, C102_info; C102_safe: the only event with undefined behaviour is Go after a Sync that dropped choices; C102_sync_refuted exhibits it. Hypotheses: the index has one record per name (a std::map), sorting permutes rows. What the removals and installations do to the system is a parameter here.",
  "status": "proved"
 },
 "C103": {
  "note": "C103_order, C103_number (the integer is the value of the leading digits below 2^31), C103_weak_order, C103_click, C103_reset; C103_versions_refuted, C103_lost_refuted exhibit the exceptions. std::sort is assumed to permute and to sort for a strict weak order; GuiExamples has such a function.",
  "status": "proved"
 },
 "C104": {
  "note": "Each call is one step of a schedule: log from other threads and loopCallback work under the mutex, the rest happens in the creating thread (loopCallback is called by it). C104_told gives, for every schedule, what each further step tells each subscriber; C104_complete draws the consequence for a whole schedule; the _refuted theorems are the exceptions named in the statement (C104_unshown_refuted: with the two lines commented out in main and in the window, nothing is ever told; C104_no_loop_refuted: with a subscription but no loop, only the messages of the creating thread are). C104_text: what the line is.",
  "status": "proved"
 },
 "C105": {
  "note": "A schedule is a list of moves: a user action (one step, the main thread holds FLTK's lock) or the next instruction of a thread. C105_exclusive, C105_box, C105_press, C105_forever, C105_free and C105_ends hold of every schedule; C105_patient of the schedules of a patient and careful user (case: C105_case); C105_watchful: going by the box, the running flag and the threads having begun is enough. The _refuted theorems are the exceptions named in the statement. It also justifies the assumption of C102 that every thread is run to its end before the next event.",
  "status": "proved"
 },
 "C106": {
  "note": "C106_remove (database; where it stops and why), C106_files, C106_install, C106_go, C106_stops, C106_button (with C102: for every session of the window). C106_in_use_refuted and C106_back_refuted exhibit the two exceptions. Hypotheses: the database can be loaded; for the installation the keys are genuine (see C76). What is new after a broken installation was needed (C106_install).",
  "status": "proved"
 },
 "C107": {
  "note": "C107_open, C107_drop, C107_put (an equivalence), C107_never_fatal; C107_window_dies, C107_window_lives. C107_terminal_over_refuted, C107_window_over_refuted exhibit the numbers above 100. m_filesNumber is never set when flcards removes (no archive was opened): the theorems hold for every value. C107_window_drop: the numbers the window shows during a removal, whatever was shown before; C107_too_many: where the terminal's product overflows.",
  "status": "proved"
 },
 "C108": {
  "note": "C108_item/items/space: what is read afresh. C108_names/names_now: the names and their number, from the first look. C108_files, C108_known, C108_unloaded, C108_list, C108_list_found: after the load. C108_load, C108_agree: against the load of DbModel. C108_half, C108_half_known, C108_half_list, C108_without_files: the failed load and the load without lists. Exceptions in the statement: C108_stale_refuted, C108_stale_load_refuted, C108_half_refuted, C108_two_refuted, C108_asked_refuted.",
  "status": "proved"
 },
 "C109": {
  "note": "C109_exact, C109_made, C109_tree, C109_twice, C109_died, C109_log hold for every file system that is a tree; C109_answer, C109_overflow say what the answer means and when the buffer overflows; the exceptions are C109_answer_refuted and C109_short_refuted. Links are not followed as directories (FsModel).",
  "status": "proved"
 },
 "C110": {
  "note": "C110_made, C110_answers, C110_dated, C110_steady, C110_printed hold for every archive and every sequence of questions; the exceptions are C110_printed_refuted, C110_date_refuted and C110_year_refuted. ctime is a parameter.",
  "status": "proved"
 },
 "C111": {
  "note": "C111_exists, C111_all, C111_text, C111_num, C111_lists, C111_ghost, C111_sets, C111_colls, C111_info, C111_info_last, C111_info_none, C111_paths, C111_listing, C111_group, C111_group_none, C111_waiting, C111_poison and C111_refresh hold for every configuration, every worlds and every sequence of questions; a stocked world is one whose indexes are those of genrepo for some packages, or those and then a broken record. The exceptions are C111_ghost_refuted, C111_poison_refuted, C111_half_refuted, C111_listing_refuted and C111_info_refuted. Questions that change a record (hash, sign) or need the network are not modelled.",
  "status": "proved"
 },
 "C112": {
  "note": "C112_known, C112_unknown, C112_levels, C112_ports, C112_warnings, C112_order: the answers after any history that has found the ports m, for names that were ports then and names that were not; C112_recipes: the same from the text of the recipes (C65), with C25, C71 for levels and order; C112_first: the first question that finds ports; C112_stuck: asked by name too early; C112_dir. The exceptions are C112_named_refuted, C112_stuck_refuted, C112_twice_refuted, C112_place_refuted.",
  "status": "proved"
 },
 "C113": {
  "note": "C113_returned and C113_complete: a download that returns; C113_failed and C113_killed: one that throws, and every moment of one; C113_list: several; C113_names. The exceptions are C113_full_refuted, C113_empty_refuted, C113_broken_refuted. C28 and C62 then say what install and sync do with a file that is cut. C113_over, C113_sync, C113_sync_plan, C113_fetch (DwlLink): the one-step downloads of C62 and C28 are these.",
  "status": "proved"
 },
 "C114": {
  "note": "C114_alone, C114_one_by_one, C114_recorded (with C89), C114_kept, C114_whole, C114_no_file hold for every schedule, number of requests and buffer size; the exceptions are C114_lost_refuted, C114_torn_refuted, C114_date_refuted, C114_page_refuted.",
  "status": "proved"
 },
 "C115": {
  "note": "C115_reached: every moment of the kill leaves an unfinished state; C115_refused, C115_again, C115_force hold for every unfinished state. C115_upgrade_refuted is the exception. A kill after the unpacking, while the database is written, is C13. The archive must ship what it lists, and its META and removal scripts must not be directories.",
  "status": "proved"
 },
 "C116": {
  "note": "C116_reached: what a killed removal has done at every point before the list of files of the record is deleted; C116_still_there: what a user then sees; C116_again and C116_often: repeating it, after one kill and after any number; C116_window_refuted: after the list is deleted every command fails (with C13). Kills inside the cleaning of the stray meta files are not separate points; scripts are excluded.",
  "status": "proved"
 },
 "C117": {
  "note": "C117_reached: what a killed upgrade has deleted at every point; C117_safe: what it cannot have deleted; C117_again: repeating it; C117_mark_refuted: killed when META is gone, the automatic mark is lost by the repetition. FsExt.v shows that every step of the engine gives pointwise equal file systems from pointwise equal ones. After the record is deleted see C115_upgrade_refuted.",
  "status": "proved"
 },
 "C118": {
  "note": "C118_same: the equality of the two runs; C118_case: a case meeting every hypothesis; C118_twice_refuted: the same automatic package twice in one command loses its mark, in two commands it keeps it; C118_alias_refuted: when a package of the first command also answers to the name of one of the second, one command installs both and the second of two commands fails. The proof keeps the two memories related (same files, same automatic mark for the names still to come, same answers to 'is it installed') through every step of the engine; what META says of other packages may differ, since the engine does not look at it.",
  "status": "proved"
 },
 "C119": {
  "note": "C119_order: the other order succeeds and leaves the same; C119_gone: what the two leave, exactly; C119_case: foo and bar, which share directories; C119_parents_refuted: the exception.",
  "status": "proved"
 },
 "C120": {
  "note": "C120_records: META and the listed files; C120_files: the files; C120_case: foo and bar in both orders; C120_moved_refuted: a file that changes owner.",
  "status": "proved"
 }
}