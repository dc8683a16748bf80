{
 "claims": [
  {
   "property": "C01",
   "status": "proved",
   "theorems": [
    "C01_plugins_in_dependency_order",
    "C01_current_in_dependency_order"
   ],
   "note": "Both modes, every history. Dependencies are those of Deps, resolved case-insensitively in the same manager; C01 plus C10 tie Deps to the Import() fields."
  },
  {
   "property": "C02",
   "status": "proved",
   "theorems": [
    "C02_successful_load_calls",
    "C02_any_load_calls"
   ],
   "note": "In static mode registrations whose names differ in case only fall together in the manager; the theorems cover this: all of them are opened, one of them is in the manager and goes through the later phases. With distinct_registrations (always so in dynamic mode) the opened plugins are exactly the new ones."
  },
  {
   "property": "C03",
   "status": "proved",
   "theorems": [
    "C03_only_created_plugins_are_started",
    "C03_kept_plugins_left_alone",
    "C03_current_plugins_not_restarted"
   ],
   "note": "Both modes, no assumption on the registrations."
  },
  {
   "property": "C04",
   "status": "proved",
   "theorems": [
    "C04_no_cycle_is_published",
    "C04_cyclic_error_is_real",
    "C04_acyclic_is_not_refused",
    "C04_check_decides"
   ],
   "note": "No assumption on the registrations. A cycle is stated as a relation on Import() fields/Deps, not with the code's visiting set; the check is run with fuel that C04/C05 show is never used up."
  },
  {
   "property": "C05",
   "status": "proved",
   "theorems": [
    "C05_ordering_succeeds",
    "C05_recovered_panics"
   ],
   "note": "Both modes, no assumption on the registrations."
  },
  {
   "property": "C06",
   "status": "proved",
   "theorems": [
    "C06_only_extension_panic_escapes",
    "C06_panic_becomes_error",
    "C06_release_never_panics"
   ],
   "note": "The panic of the extension constructor is the exception stated; C67 lifts it to all goroutines and schedules."
  },
  {
   "property": "C07",
   "status": "proved",
   "theorems": [
    "C07_references_given_back",
    "C07_onfree_only_on_released",
    "C07_successful_load_releases_nothing"
   ],
   "note": "In static mode registrations whose names differ in case only fall together in the manager; the theorems cover this: the reference of an overwritten plugin is not given back (it has no other). With distinct_registrations (always so in dynamic mode) all references are."
  },
  {
   "property": "C08",
   "status": "proved",
   "theorems": [
    "C08_failed_call_changes_nothing",
    "C08_failed_call_publishes_nothing"
   ],
   "note": "Stated for one call after any history; C20 gives the same under concurrency."
  },
  {
   "property": "C09",
   "status": "proved",
   "theorems": [
    "C09_no_stale_dependency"
   ],
   "note": ""
  },
  {
   "property": "C10",
   "status": "proved",
   "theorems": [
    "C10_dependency_field_means",
    "C10_nil_means",
    "C10_imports_are_served"
   ],
   "note": ""
  },
  {
   "property": "C11",
   "status": "proved",
   "theorems": [
    "C11_carried_over_with_dependencies",
    "C11_rebuilt_or_removed_dependency"
   ],
   "note": ""
  },
  {
   "property": "C12",
   "status": "proved",
   "theorems": [
    "C12_nonreloadable_closed"
   ],
   "note": ""
  },
  {
   "property": "C13",
   "status": "proved",
   "theorems": [
    "C13_keep_or_replace",
    "C13_no_file_no_plugin"
   ],
   "note": ""
  },
  {
   "property": "C14",
   "status": "proved",
   "theorems": [
    "C14_nonreloadable_is_loaded_once"
   ],
   "note": ""
  },
  {
   "property": "C15",
   "status": "proved",
   "theorems": [
    "C15_live_tables",
    "C15_no_common_name",
    "C15_duplicate_error_is_true"
   ],
   "note": "Both modes, no assumption on the registrations."
  },
  {
   "property": "C16",
   "status": "proved",
   "theorems": [
    "C16_OnFree_at_most_once"
   ],
   "note": "All interleavings of any number of goroutines (Conc.v), no assumption on the registrations."
  },
  {
   "property": "C17",
   "status": "proved",
   "theorems": [
    "C17_plugins_in_use_are_not_freed",
    "C17_delay",
    "C17_unconditional_claim_is_refuted"
   ],
   "note": "The proviso of the English claim is the hypothesis `prompt`; C17_unconditional_claim_is_refuted exhibits a reachable schedule that violates the claim without it."
  },
  {
   "property": "C18",
   "status": "proved",
   "theorems": [
    "C18_superseded_plugins_are_freed"
   ],
   "note": "Hypothesis have_OnFree: the OnFree function value is not nil (it is nil only if the plugin exports a nil function variable of that name)."
  },
  {
   "property": "C19",
   "status": "proved",
   "theorems": [
    "C19_dependents_are_freed_first"
   ],
   "note": ""
  },
  {
   "property": "C20",
   "status": "proved",
   "theorems": [
    "C20_loads_are_serialised",
    "C20_lock_is_released",
    "C20_no_deadlock"
   ],
   "note": ""
  },
  {
   "property": "C21",
   "status": "proved",
   "theorems": [
    "C21_current_is_complete",
    "C21_never_nil_again",
    "C21_current_call"
   ],
   "note": ""
  },
  {
   "property": "C22",
   "status": "proved",
   "theorems": [
    "C22_counter",
    "C22_at_most_one_reloading",
    "C22_counter_call",
    "C22_one_call"
   ],
   "note": "The counter is incremented before the call returns: C22_counter accounts for the one call that may be between the two."
  },
  {
   "property": "C23",
   "status": "proved",
   "theorems": [
    "C23_callbacks",
    "C23_plain_reload"
   ],
   "note": ""
  },
  {
   "property": "C24",
   "status": "proved",
   "theorems": [
    "C24_second_means",
    "C24_release_delay",
    "C24_one_release_per_replacement",
    "C24_release_sleeps_first"
   ],
   "note": ""
  },
  {
   "property": "C25",
   "status": "proved",
   "theorems": [
    "C25_bad_whitelist_is_refused",
    "C25_missing_plugins_error_is_true",
    "C25_loads_exactly_the_whitelist"
   ],
   "note": ""
  },
  {
   "property": "C26",
   "status": "proved",
   "theorems": [
    "C26_success_lists_the_directory",
    "C26_loads_exactly_the_plugin_files",
    "C26_empty_directory"
   ],
   "note": ""
  },
  {
   "property": "C27",
   "status": "proved",
   "theorems": [
    "C27_duplicate_names_are_refused",
    "C27_duplicate_error_is_true"
   ],
   "note": ""
  },
  {
   "property": "C28",
   "status": "proved",
   "theorems": [
    "C28_lower_case_means",
    "C28_loaded_names_are_lower_case",
    "C28_mixed_case_file_is_refused"
   ],
   "note": "A finding: the nil dereference is recovered and reported as error."
  },
  {
   "property": "C29",
   "status": "proved",
   "theorems": [
    "C29_missing_functions_are_listed",
    "C29_mistyped_function_is_named",
    "C29_missing_static_functions_are_listed",
    "C29_symbols_mean",
    "C29_functions_are_own_symbols"
   ],
   "note": ""
  },
  {
   "property": "C30",
   "status": "proved",
   "theorems": [
    "C30_lookup",
    "C30_static_lookup_panics",
    "C30_dynamic_lookup_never_panics"
   ],
   "note": "A finding: Lookup on a statically linked plugin panics."
  },
  {
   "property": "C31",
   "status": "proved",
   "theorems": [
    "C31_static_load",
    "C31_case_variants_are_dropped"
   ],
   "note": "That phases, dependency order, wiring and vault are as in dynamic mode is part of C01-C05, C09, C10, C15, whose theorems cover both modes. A finding: case variants are dropped silently."
  },
  {
   "property": "C32",
   "status": "proved",
   "theorems": [
    "C32_reload_is_refused",
    "C32_static_mode_iff_configured"
   ],
   "note": ""
  },
  {
   "property": "C33",
   "status": "proved",
   "theorems": [
    "C33_unknown_name_is_refused",
    "C33_whitelisted_are_loaded"
   ],
   "note": ""
  },
  {
   "property": "C34",
   "status": "proved",
   "theorems": [
    "C34_InvokeEach",
    "C34_InvokeEachBackward",
    "C34_static_has_invoke",
    "C34_among_other_goroutines"
   ],
   "note": ""
  },
  {
   "property": "C35",
   "status": "proved",
   "theorems": [
    "C35_case_insensitive",
    "C35_finds_the_plugin",
    "C35_not_found",
    "C35_reading_means",
    "C35_same_name_means",
    "C35_same_ascii_name_means",
    "C35_case_insensitive_letters"
   ],
   "note": ""
  },
  {
   "property": "C36",
   "status": "proved",
   "theorems": [
    "C36_details_are_true",
    "C36_one_entry_per_file"
   ],
   "note": "That building Details never dereferences a missing plugin follows from C06 (no panic other than the constructor's escapes) and the equality with the plugins of the manager."
  },
  {
   "property": "C37",
   "status": "proved",
   "theorems": [
    "C37_details_string",
    "C37_deterministic"
   ],
   "note": ""
  },
  {
   "property": "C38",
   "status": "proved",
   "theorems": [
    "C38_only_private_copies",
    "C38_opened_from_copies",
    "C38_copies_of_one_load_differ",
    "C38_copies_of_two_loads_differ",
    "C38_paths_mean"
   ],
   "note": "The private directory's name is modelled digit by digit (Times.v); a time is taken to have two-digit fields, as time.Format prints them, and a process id to be a natural number."
  },
  {
   "property": "C39",
   "status": "proved",
   "theorems": [
    "C39_databag",
    "C39_only_new_plugins_write"
   ],
   "note": ""
  },
  {
   "property": "C40",
   "status": "proved",
   "theorems": [
    "C40_undisturbed_load",
    "C40_concurrent_reset_is_seen"
   ],
   "note": "pluginDir is read twice without lock; its accesses are taken as atomic (the data race itself is outside the model)."
  },
  {
   "property": "C41",
   "status": "proved",
   "theorems": [
    "C41_last_option_counts",
    "C41_order_is_irrelevant"
   ],
   "note": ""
  },
  {
   "property": "C42",
   "status": "proved",
   "theorems": [
    "C42_dependents_in_fixed_order"
   ],
   "note": ""
  },
  {
   "property": "C43",
   "status": "proved",
   "theorems": [
    "C43_count_is_faithful",
    "C43_exponential_visits"
   ],
   "note": "A finding, stated as a lower bound for an explicit family of graphs; check_n is the model's check with a counter, C43_count_is_faithful says that the counter does not change it."
  },
  {
   "property": "C44",
   "status": "proved",
   "theorems": [
    "C44_every_function_in_its_slot"
   ],
   "note": ""
  },
  {
   "property": "C45",
   "status": "proved",
   "theorems": [
    "C45_refuses_exactly_incomplete_packages",
    "C45_dynamic_build",
    "C45_static_build"
   ],
   "note": ""
  },
  {
   "property": "C46",
   "status": "proved",
   "theorems": [
    "C46_prefix_means",
    "C46_errors",
    "C46_registered_twice_panics",
    "C46_tables"
   ],
   "note": "Hypothesis of C46_tables: two packages of the plugin never share a directory."
  },
  {
   "property": "C47",
   "status": "proved",
   "theorems": [
    "C47_files_taken",
    "C47_once_and_in_order",
    "C47_directories",
    "C47_fails_only_on_errors",
    "C47_exclude_spares_go_files",
    "C47_exclude_alone"
   ],
   "note": ""
  },
  {
   "property": "C48",
   "status": "proved",
   "theorems": [
    "C48_every_text",
    "C48_imports",
    "C48_temporary_path",
    "C48_file_in_a_subdirectory",
    "C48_file_in_the_plugin_directory",
    "C48_other_files",
    "C48_space_means"
   ],
   "note": "Texts are cut at their double quotes. Hypothesis ~ overlapping: the path between two quotes that belong to different strings (code between two strings that happens to equal the package path) does not occur; the temporary path is not below the package path (proved: C48_temporary_path)."
  },
  {
   "property": "C49",
   "status": "proved",
   "theorems": [
    "C49_everything_copied",
    "C49_failure_reported",
    "C49_no_false_alarm",
    "C49_never_stuck",
    "C49_ends",
    "C49_crash_needs_two_failures",
    "C49_double_close_possible",
    "C49_interrupt_unnoticed"
   ],
   "note": "Findings: double close, unnoticed interrupt."
  },
  {
   "property": "C50",
   "status": "proved",
   "theorems": [
    "C50_source_never_deleted",
    "C50_kept_when_asked"
   ],
   "note": ""
  },
  {
   "property": "C51",
   "status": "proved",
   "theorems": [
    "C51_package_path",
    "C51_bad_go_mod",
    "C51_never_ends",
    "C51_package_name"
   ],
   "note": "A finding: the search never ends without go.mod."
  },
  {
   "property": "C52",
   "status": "proved",
   "theorems": [
    "C52_output_directory",
    "C52_dynamic_builds_accept_all"
   ],
   "note": "A finding: first component starting with two dots."
  },
  {
   "property": "C53",
   "status": "proved",
   "theorems": [
    "C53_build_result",
    "C53_which_files",
    "C53_only_the_last",
    "C53_sequence",
    "C53_clean"
   ],
   "note": "A finding: registrations of other plugins are deleted."
  },
  {
   "property": "C54",
   "status": "proved",
   "theorems": [
    "C54_success_means_no_failure"
   ],
   "note": ""
  },
  {
   "property": "C55",
   "status": "proved",
   "theorems": [
    "C55_load_succeeds_exactly_when",
    "C55_static_load_succeeds_exactly_when",
    "C55_well_behaved_load_succeeds",
    "C55_well_behaved_static_load_succeeds"
   ],
   "note": "The rules for plugins are an independent specification (Rules.v). Every directory: files with capitals in their names are part of the rules (allowed only if the plugin is kept). In static mode: every table of registrations; of registrations equal up to case the last counts."
  },
  {
   "property": "C56",
   "status": "proved",
   "theorems": [
    "C56_grace_period"
   ],
   "note": "delta bounds the time between scheduling the release and publishing."
  },
  {
   "property": "C57",
   "status": "proved",
   "theorems": [
    "C57_OnFree_waits_for_all_holders"
   ],
   "note": ""
  },
  {
   "property": "C58",
   "status": "proved",
   "theorems": [
    "C58_static_plugins_are_never_freed"
   ],
   "note": "However the plugins are registered (case variants included)."
  },
  {
   "property": "C59",
   "status": "proved",
   "theorems": [
    "C59_dependency_errors_are_true",
    "C59_no_other_errors",
    "C59_not_a_directory",
    "C59_empty_directory_name"
   ],
   "note": "Both modes, no assumption on the registrations."
  },
  {
   "property": "C60",
   "status": "proved",
   "theorems": [
    "C60_reported_identity_is_true",
    "C60_plugin_name_means"
   ],
   "note": ""
  },
  {
   "property": "C61",
   "status": "proved",
   "theorems": [
    "C61_extension_is_from_its_own_load",
    "C61_extension_at_most_once"
   ],
   "note": ""
  },
  {
   "property": "C62",
   "status": "proved",
   "theorems": [
    "C62_removed_at_exit",
    "C62_no_signal",
    "C62_kept",
    "C62_never_hangs",
    "C62_exits_soon",
    "C62_first_signal_does_not_kill",
    "C62_exit_status",
    "C62_interrupted_by_SIGINT",
    "C62_left_behind_after_SIGTERM"
   ],
   "note": "A finding: SIGTERM during a build can leave the temporary directory behind."
  },
  {
   "property": "C63",
   "status": "proved",
   "theorems": [
    "C63_build_keeps_user_files",
    "C63_build_result",
    "C63_clean_result",
    "C63_clean_undoes",
    "C63_rebuild_same",
    "C63_output",
    "C63_refused_early",
    "C63_unfinished"
   ],
   "note": ""
  },
  {
   "property": "C64",
   "status": "proved",
   "theorems": [
    "C64_command_line",
    "C64_checks_come_first",
    "C64_success_means_built",
    "C64_exit_status",
    "C64_early_interrupt_is_not_noticed",
    "C64_printed_only_when_built",
    "C64_static_build",
    "C64_no_go_build",
    "C64_complete_unless_interrupted",
    "C64_interrupted_build_can_succeed",
    "C64_loader_finds_it",
    "C64_mixed_case_plugin_cannot_be_loaded"
   ],
   "note": "Findings: an interrupted build can exit 0 with live functions missing; mixed-case directories are built but can never be loaded."
  },
  {
   "property": "C65",
   "status": "proved",
   "theorems": [
    "C65_loading_within_a_load_hangs",
    "C65_others_go_on",
    "C65_loading_outside_a_load_is_fine"
   ],
   "note": "A finding: sync.Mutex is not reentrant."
  },
  {
   "property": "C66",
   "status": "proved",
   "theorems": [
    "C66_absolute_path",
    "C66_output_check_of_arguments",
    "C66_same_temporary_directory",
    "C66_later_build_removes_it",
    "C66_temporary_package",
    "C66_plugin_at_module_root"
   ],
   "note": "A finding: two builds of the same commit at the same second of the same day of the month share their temporary directory."
  },
  {
   "property": "C67",
   "status": "proved",
   "theorems": [
    "C67_no_panic_escapes"
   ],
   "note": "Release goroutines exist in dynamic mode only, so no assumption on the registrations is needed."
  },
  {
   "property": "C68",
   "status": "proved",
   "theorems": [
    "C68_when_and_note",
    "C68_when_is_the_time_of_creation"
   ],
   "note": ""
  },
  {
   "property": "C69",
   "status": "proved",
   "theorems": [
    "C69_looks_at_the_directory",
    "C69_unusable_directory",
    "C69_static_mode_needs_no_files"
   ],
   "note": ""
  },
  {
   "property": "C70",
   "status": "proved",
   "theorems": [
    "C70_same_plugins_same_verdict",
    "C70_same_plugins_same_manager",
    "C70_static_same_verdict",
    "C70_static_same_manager"
   ],
   "note": "Both modes (C70_same_* dynamic, C70_static_* static), no assumption on the files."
  },
  {
   "property": "C71",
   "status": "proved",
   "theorems": [
    "C71_what_failed_is_reported",
    "C71_what_is_reported_happened"
   ],
   "note": ""
  },
  {
   "property": "C72",
   "status": "proved",
   "theorems": [
    "C72_pointer_program_has_the_same_histories",
    "C72_pointer_call_is_value_call",
    "C72_handed_out_managers_never_change",
    "C72_stores_only_to_new_objects",
    "C72_current_is_what_was_published",
    "C72_release_stores_nothing"
   ],
   "note": "Import() is assumed to return an object of its own for each opened plugin."
  },
  {
   "property": "C73",
   "status": "proved",
   "theorems": [
    "C73_refused_plugin_lacks_a_function",
    "C73_incomplete_plugin_is_never_published",
    "C73_checked_plugin_is_complete",
    "C73_check_can_pass_for_an_unloadable_plugin"
   ],
   "note": "A finding: functions in files that go build leaves out satisfy the check of the builder."
  },
  {
   "property": "C74",
   "status": "proved",
   "theorems": [
    "C74_nothing_else_happens",
    "C74_every_call_returns",
    "C74_no_endless_execution",
    "C74_superseded_plugins_will_be_freed",
    "C74_readers_never_wait"
   ],
   "note": ""
  },
  {
   "property": "C75",
   "status": "proved",
   "theorems": [
    "C75_loads_never_race",
    "C75_managers_are_published_safely",
    "C75_users_are_not_waited_for",
    "C75_given_up_before_freed",
    "C75_published_once",
    "C75_released_once",
    "C75_started_before_freed",
    "C75_ResetPluginDir_is_not_ordered",
    "C75_plugin_directory_races"
   ],
   "note": "Happens-before is defined on the positions of a history, with the edges the Go memory model gives for what the library uses; orderings made by the user's own synchronisation are not counted. Finding: ResetPluginDir concurrent with a load is a data race."
  },
  {
   "property": "C76",
   "status": "proved",
   "theorems": [
    "C76_reload_without_changes"
   ],
   "note": "Dynamic mode; a well-behaved environment (same listing and contents in both loads, every call returns normally); that such a first load succeeds is the subject of C22 and C28."
  },
  {
   "property": "C77",
   "status": "proved",
   "theorems": [
    "C77_failed_load_leaves_no_trace",
    "C77_failed_loads_can_be_left_out"
   ],
   "note": "About the library: the answers of plugins and of the operating system are arbitrary, so what a failed load leaves in a plugin's own memory or in the file system is up to them (the copies it leaves behind are C38)."
  }
 ]
}