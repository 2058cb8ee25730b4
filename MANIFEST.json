{
 "claims": [
  {
   "property": "C01",
   "status": "proved",
   "theorems": [
    "C01_compile_preserves_meaning"
   ],
   "note": ""
  },
  {
   "property": "C02",
   "status": "proved",
   "theorems": [
    "C02_one_instruction_per_token",
    "C02_labels_are_only_names"
   ],
   "note": ""
  },
  {
   "property": "C03",
   "status": "proved",
   "theorems": [
    "C03_errors_are_exactly_undefined_labels"
   ],
   "note": ""
  },
  {
   "property": "C04",
   "status": "partial",
   "theorems": [
    "C04_jump_lands_partial",
    "C04_far_jump_refuted",
    "C04_backward_jump_refuted"
   ],
   "note": "False of the code: C04_far_jump_refuted (8-bit truncation) and C04_backward_jump_refuted (wrap-around in Release) are witnesses. C04_jump_lands_partial says exactly when each jump lands. The exact offsets are C105."
  },
  {
   "property": "C05",
   "status": "partial",
   "theorems": [
    "C05_tokens_keep_their_meaning_partial",
    "C05_alu_accumulator_refuted",
    "C05_unconditional_jump_refuted",
    "C05_what_accumulator_operands_do",
    "C05_what_unconditional_jumps_do",
    "C05_jumps_keep_their_meaning"
   ],
   "note": "False of the code for ALU with the accumulator source and for Jump(JA, ..): witnesses C05_*_refuted. C05_*_partial covers every other token in every VM state, and C05_what_* say exactly what these two kinds do instead."
  },
  {
   "property": "C06",
   "status": "proved",
   "theorems": [
    "C06_run_terminates",
    "C06_at_most_length_steps",
    "C06_counter_increases"
   ],
   "note": ""
  },
  {
   "property": "C07",
   "status": "proved",
   "theorems": [
    "C07_runs_independent_of_history"
   ],
   "note": ""
  },
  {
   "property": "C08",
   "status": "proved",
   "theorems": [
    "C08_new_iff_at_most_65535"
   ],
   "note": ""
  },
  {
   "property": "C09",
   "status": "proved",
   "theorems": [
    "C09_registers_stay_32_bit"
   ],
   "note": ""
  },
  {
   "property": "C10",
   "status": "proved",
   "theorems": [
    "C10_vm_agrees_with_kernel",
    "C10_release_equality"
   ],
   "note": ""
  },
  {
   "property": "C11",
   "status": "partial",
   "theorems": [
    "C11_register_comparison_refuted",
    "C11_agrees_without_register_comparisons_partial",
    "C11_reads_register_comparisons_as_constants"
   ],
   "note": "False of the code: register comparisons, witness C11_register_comparison_refuted. Proved instead: agreement on every accepted filter without them (errors exactly for instructions the VM lacks), and for every accepted filter agreement with the filter whose register comparisons are read as comparisons with the constant."
  },
  {
   "property": "C12",
   "status": "proved",
   "theorems": [
    "C12_offset_loads_the_field",
    "C12_halves_make_the_whole",
    "C12_offsets_distinct"
   ],
   "note": ""
  },
  {
   "property": "C13",
   "status": "partial",
   "theorems": [
    "C13_action_round_trips",
    "C13_round_trips_exactly_small_payloads",
    "C13_code_round_trips",
    "C13_recognised_codes",
    "C13_large_payload_refuted"
   ],
   "note": "The claim for payloads above 0xffff is false: witness C13_large_payload_refuted; C13_round_trips_exactly_small_payloads characterises when it holds."
  },
  {
   "property": "C14",
   "status": "proved",
   "theorems": [
    "C14_filter_always_builds",
    "C14_pledge_fails_only_through_the_system"
   ],
   "note": ""
  },
  {
   "property": "C15",
   "status": "proved",
   "theorems": [
    "C15_allows_exactly_what_is_granted",
    "C15_same_verdict_in_the_vm"
   ],
   "note": ""
  },
  {
   "property": "C16",
   "status": "proved",
   "theorems": [
    "C16_foreign_architecture_kills"
   ],
   "note": ""
  },
  {
   "property": "C17",
   "status": "proved",
   "theorems": [
    "C17_x32_never_granted"
   ],
   "note": ""
  },
  {
   "property": "C18",
   "status": "proved",
   "theorems": [
    "C18_lists_are_sets"
   ],
   "note": ""
  },
  {
   "property": "C19",
   "status": "proved",
   "theorems": [
    "C19_more_promises_allow_more"
   ],
   "note": ""
  },
  {
   "property": "C20",
   "status": "proved",
   "theorems": [
    "C20_irrelevant_parts_ignored"
   ],
   "note": ""
  },
  {
   "property": "C21",
   "status": "proved",
   "theorems": [
    "C21_exit_always_allowed",
    "C21_empty_list_allows_only_exit"
   ],
   "note": ""
  },
  {
   "property": "C22",
   "status": "proved",
   "theorems": [
    "C22_dangerous_calls_never_granted"
   ],
   "note": ""
  },
  {
   "property": "C23",
   "status": "proved",
   "theorems": [
    "C23_no_executable_memory"
   ],
   "note": ""
  },
  {
   "property": "C24",
   "status": "proved",
   "theorems": [
    "C24_exec_needs_promise"
   ],
   "note": ""
  },
  {
   "property": "C25",
   "status": "proved",
   "theorems": [
    "C25_processes_need_proc",
    "C25_allowed_forms"
   ],
   "note": ""
  },
  {
   "property": "C26",
   "status": "proved",
   "theorems": [
    "C26_signals_only_to_self"
   ],
   "note": ""
  },
  {
   "property": "C27",
   "status": "partial",
   "theorems": [
    "C27_read_only_openat_partial",
    "C27_open_refuted"
   ],
   "note": "The open(2) part is false of the code: C27_open_refuted. The partial theorem covers everything else. The exact conditions are C93 and C94."
  },
  {
   "property": "C28",
   "status": "partial",
   "theorems": [
    "C28_wpath_openat_partial",
    "C28_open_refuted"
   ],
   "note": "The open(2) part is false of the code: C28_open_refuted. The partial theorem covers openat. The exact conditions are C93 and C94."
  },
  {
   "property": "C29",
   "status": "partial",
   "theorems": [
    "C29_no_suid_partial",
    "C29_fchmodat_refuted",
    "C29_open_refuted"
   ],
   "note": "False for fchmodat and open: two refuted theorems. The partial theorem covers chmod, fchmod, creat, openat. The exact conditions are C93 and C94."
  },
  {
   "property": "C30",
   "status": "proved",
   "theorems": [
    "C30_sockets_confined"
   ],
   "note": ""
  },
  {
   "property": "C31",
   "status": "partial",
   "theorems": [
    "C31_limits_read_only_partial",
    "C31_prlimit_pointer_refuted"
   ],
   "note": "The pointer part is false (only the low half is checked): C31_prlimit_pointer_refuted. The partial theorem gives the exact condition."
  },
  {
   "property": "C32",
   "status": "partial",
   "theorems": [
    "C32_socket_options_partial",
    "C32_setsockopt_refuted"
   ],
   "note": "False of the code: C32_setsockopt_refuted. The partial theorem gives exactly what is allowed."
  },
  {
   "property": "C33",
   "status": "partial",
   "theorems": [
    "C33_messages_partial",
    "C33_sendfd_refuted"
   ],
   "note": "False of the code: C33_sendfd_refuted. The partial theorem gives exactly what is allowed."
  },
  {
   "property": "C34",
   "status": "partial",
   "theorems": [
    "C34_anonymous_memory_partial",
    "C34_read_write_refuted"
   ],
   "note": "False of the code for PROT_READ|PROT_WRITE: C34_read_write_refuted. The partial theorem covers the other protections. The exact condition is C95."
  },
  {
   "property": "C35",
   "status": "proved",
   "theorems": [
    "C35_fcntl_ioctl_prctl"
   ],
   "note": ""
  },
  {
   "property": "C36",
   "status": "proved",
   "theorems": [
    "C36_kernel_accepts_generated_filters"
   ],
   "note": ""
  },
  {
   "property": "C37",
   "status": "proved",
   "theorems": [
    "C37_no_prefix_accepted",
    "C37_too_long_fails"
   ],
   "note": ""
  },
  {
   "property": "C38",
   "status": "proved",
   "theorems": [
    "C38_all_or_nothing",
    "C38_interruption",
    "C38_filter_acts_like_filter_for",
    "C38_one_answer_gives_filter_for"
   ],
   "note": ""
  },
  {
   "property": "C39",
   "status": "partial",
   "theorems": [
    "C39_success_means_installed_partial",
    "C39_success_without_filter_refuted",
    "C39_errno_0_always_misleads",
    "C39_signal_handler_misleads",
    "C39_success_means_installed_in_histories_partial"
   ],
   "note": "False in general: C39_success_without_filter_refuted, C39_errno_0_always_misleads, C39_signal_handler_misleads (Trap with a resuming SIGSYS handler). The partial theorems prove it without Errno(0), with payloads below 2^16 and without tracer, listener or SIGSYS handler: for one thread that has only pledged, and for arbitrary histories in which also no foreign filter answers error number 0."
  },
  {
   "property": "C40",
   "status": "proved",
   "theorems": [
    "C40_pledges_only_narrow"
   ],
   "note": ""
  },
  {
   "property": "C41",
   "status": "partial",
   "theorems": [
    "C41_other_threads_refuted",
    "C41_single_threaded_process_partial"
   ],
   "note": "False of the code: the witness shows a sibling thread executing an ungranted call after pledge returned Ok. Proved for a process whose only thread is the pledging one: every task that belongs to the process at any later time is confined, as long as the kernel does not reuse the process id."
  },
  {
   "property": "C42",
   "status": "proved",
   "theorems": [
    "C42_cannot_tighten_without_stdio",
    "C42_first_call_gets_the_violation",
    "C42_later_pledge_fails",
    "C42_stdio_pledges_can_be_tightened",
    "C42_no_later_installation_in_histories"
   ],
   "note": ""
  },
  {
   "property": "C43",
   "status": "proved",
   "theorems": [
    "C43_strictest_action_wins",
    "C43_proceeds_iff_all_let_it"
   ],
   "note": ""
  },
  {
   "property": "C44",
   "status": "partial",
   "theorems": [
    "C44_violation_decides_refused_calls",
    "C44_large_payload_refuted"
   ],
   "note": "Proved for payloads below 2^16; the unrestricted claim is false: C44_large_payload_refuted."
  },
  {
   "property": "C45",
   "status": "proved",
   "theorems": [
    "C45_pledge_kills_the_process"
   ],
   "note": ""
  },
  {
   "property": "C46",
   "status": "proved",
   "theorems": [
    "C46_cost_of_generated_filters",
    "C46_accepted_filters_return"
   ],
   "note": ""
  },
  {
   "property": "C47",
   "status": "proved",
   "theorems": [
    "C47_vm_check_predicts_policy",
    "C47_vm_check_predicts_kernel"
   ],
   "note": ""
  },
  {
   "property": "C48",
   "status": "partial",
   "theorems": [
    "C48_slice_too_long_refuted",
    "C48_load_past_record_refuted",
    "C48_accepted_filters_stay_inside_partial",
    "C48_generated_filters_stay_inside"
   ],
   "note": "False of the code: any_to_data builds a slice of as many u32 words as the object has bytes; the two refuted theorems are witnesses. The partial theorem (all filters the kernel accepts) and C48_generated_filters_stay_inside show which programs are unaffected."
  },
  {
   "property": "C49",
   "status": "partial",
   "theorems": [
    "C49_offset_arithmetic",
    "C49_distinct_fields_refuted"
   ],
   "note": "The arithmetic is characterised completely by C49_offset_arithmetic; distinctness for nonexistent arguments is false in Release (C49_distinct_fields_refuted)."
  },
  {
   "property": "C50",
   "status": "proved",
   "theorems": [
    "C50_tokens_mean_what_the_kernel_does",
    "C50_equal_without_division"
   ],
   "note": ""
  },
  {
   "property": "C51",
   "status": "proved",
   "theorems": [
    "C51_compiled_code_fits_the_wire_format",
    "C51_profiles_agree_unless_debug_panics"
   ],
   "note": ""
  },
  {
   "property": "C52",
   "status": "proved",
   "theorems": [
    "C52_concatenation_compiles_piecewise"
   ],
   "note": ""
  },
  {
   "property": "C53",
   "status": "proved",
   "theorems": [
    "C53_capabilities_of_one_promise"
   ],
   "note": ""
  },
  {
   "property": "C54",
   "status": "proved",
   "theorems": [
    "C54_order_of_promises"
   ],
   "note": ""
  },
  {
   "property": "C55",
   "status": "proved",
   "theorems": [
    "C55_paths_need_path_promises"
   ],
   "note": ""
  },
  {
   "property": "C56",
   "status": "proved",
   "theorems": [
    "C56_no_sockets_without_network_promises"
   ],
   "note": ""
  },
  {
   "property": "C57",
   "status": "partial",
   "theorems": [
    "C57_exit_group_refuted",
    "C57_exit_group_needs_stdio_partial"
   ],
   "note": "False of the code for every list without StdIO: exit_group, which ends every libc process, is refused (only the single-thread exit is always granted). The partial theorem gives the exact condition."
  },
  {
   "property": "C58",
   "status": "partial",
   "theorems": [
    "C58_directory_listing_refuted",
    "C58_old_getdents_needs_rpath_partial"
   ],
   "note": "False of the code for every promise list: readdir uses getdents64, and only the obsolete getdents is granted (exactly with RPath: the partial theorem)."
  },
  {
   "property": "C59",
   "status": "partial",
   "theorems": [
    "C59_cpath_opens_for_writing_refuted",
    "C59_writing_needs_wpath_or_cpath_partial"
   ],
   "note": "False: CPath alone opens existing files for writing and truncation (C59_cpath_opens_for_writing_refuted). The partial theorem gives the exact condition."
  },
  {
   "property": "C60",
   "status": "partial",
   "theorems": [
    "C60_dns_reads_files_refuted",
    "C60_reading_needs_rpath_dns_or_cpath_partial"
   ],
   "note": "False: Dns opens and reads any file (C60_dns_reads_files_refuted). The partial theorem gives the exact condition."
  },
  {
   "property": "C61",
   "status": "partial",
   "theorems": [
    "C61_other_thread_signals_itself_refuted",
    "C61_pledging_thread_signals_itself_partial"
   ],
   "note": "False for every thread other than the one that pledged (the filter holds the pledging thread id); the partial theorem covers that one. The exact condition is C96."
  },
  {
   "property": "C62",
   "status": "partial",
   "theorems": [
    "C62_clock_settime_refuted",
    "C62_settimeofday_needs_settime_partial"
   ],
   "note": "False of the code for every promise list: clock_settime, which implements clock_settime(3) and settimeofday(3) in glibc, is never granted. The partial theorem: the old settimeofday call and clock_adjtime are allowed exactly with SetTime."
  },
  {
   "property": "C63",
   "status": "partial",
   "theorems": [
    "C63_mknod_setuid_refuted",
    "C63_mknod_needs_dpath_partial"
   ],
   "note": "False: mknod of a regular file takes any mode under DPath. The partial theorem: without DPath mknod is refused."
  },
  {
   "property": "C64",
   "status": "partial",
   "theorems": [
    "C64_tmppath_makes_no_files_refuted",
    "C64_what_tmppath_adds_partial"
   ],
   "note": "False of the code: TmpPath grants lstat, unlink and unlinkat only (the partial theorem: exactly these are added to any list)."
  },
  {
   "property": "C65",
   "status": "proved",
   "theorems": [
    "C65_order_of_filters_is_irrelevant"
   ],
   "note": ""
  },
  {
   "property": "C66",
   "status": "proved",
   "theorems": [
    "C66_repeated_filter_changes_nothing",
    "C66_repeated_pledge_changes_nothing"
   ],
   "note": ""
  },
  {
   "property": "C67",
   "status": "proved",
   "theorems": [
    "C67_larger_pledge_changes_nothing"
   ],
   "note": ""
  },
  {
   "property": "C68",
   "status": "partial",
   "theorems": [
    "C68_common_promises_survive_partial",
    "C68_intersection_refuted"
   ],
   "note": "One inclusion holds (partial theorem); the other is false, witness C68_intersection_refuted. The exact truth is C97."
  },
  {
   "property": "C69",
   "status": "proved",
   "theorems": [
    "C69_28_pledges_fit"
   ],
   "note": ""
  },
  {
   "property": "C70",
   "status": "proved",
   "theorems": [
    "C70_exact_filter_size",
    "C70_first_pledge_succeeds_iff_it_fits"
   ],
   "note": ""
  },
  {
   "property": "C71",
   "status": "proved",
   "theorems": [
    "C71_build_profile_is_irrelevant",
    "C71_build_profile_same_filter"
   ],
   "note": ""
  },
  {
   "property": "C72",
   "status": "partial",
   "theorems": [
    "C72_hard_violations_hold_under_any_supervisor",
    "C72_tracer_lifts_trace_refuted"
   ],
   "note": "False for Trace: C72_tracer_lifts_trace_refuted. The other theorem covers KillProcess, KillThread, Trap and Errno."
  },
  {
   "property": "C73",
   "status": "proved",
   "theorems": [
    "C73_confinement_only_grows"
   ],
   "note": ""
  },
  {
   "property": "C74",
   "status": "proved",
   "theorems": [
    "C74_success_follows_installation",
    "C74_installation_is_reported"
   ],
   "note": ""
  },
  {
   "property": "C75",
   "status": "proved",
   "theorems": [
    "C75_pledging_changes_no_other_thread"
   ],
   "note": ""
  },
  {
   "property": "C76",
   "status": "proved",
   "theorems": [
    "C76_no_new_processes_without_proc"
   ],
   "note": ""
  },
  {
   "property": "C77",
   "status": "proved",
   "theorems": [
    "C77_exact_cost_of_a_filter",
    "C77_exactly_when_another_pledge_fits"
   ],
   "note": ""
  },
  {
   "property": "C78",
   "status": "partial",
   "theorems": [
    "C78_rules_follow_their_comments_partial",
    "C78_mmap_noexec_too_strict",
    "C78_prlimit_too_lax",
    "C78_rules_allow_too_much_refuted",
    "C78_rules_allow_too_little_refuted",
    "C78_what_the_other_rules_test"
   ],
   "note": "False for seven rules: mmap_noexec refuses PROT_READ|PROT_WRITE, prlimit64 tests half of the pointer, open_readonly/writeonly/createonly and fchmodat_nobits test the wrong argument, setsockopt_restrict tests getsockopt. The partial theorem is the equivalence of rule and comment for all other rules; C78_mmap_*, C78_prlimit_* and C78_what_the_other_rules_test say exactly what the seven do."
  },
  {
   "property": "C79",
   "status": "proved",
   "theorems": [
    "C79_outcome_of_an_instruction",
    "C79_no_instruction_panics",
    "C79_outcome_of_a_run",
    "C79_errors_are_in_the_program"
   ],
   "note": ""
  },
  {
   "property": "C80",
   "status": "proved",
   "theorems": [
    "C80_run_is_repeated_execute"
   ],
   "note": ""
  },
  {
   "property": "C81",
   "status": "proved",
   "theorems": [
    "C81_more_data_changes_nothing"
   ],
   "note": ""
  },
  {
   "property": "C82",
   "status": "proved",
   "theorems": [
    "C82_release_agrees_with_debug",
    "C82_release_follows_debug"
   ],
   "note": ""
  },
  {
   "property": "C83",
   "status": "proved",
   "theorems": [
    "C83_effect_of_an_instruction"
   ],
   "note": ""
  },
  {
   "property": "C84",
   "status": "proved",
   "theorems": [
    "C84_messages_identify_bpf_errors",
    "C84_messages_identify_pledge_errors",
    "C84_numbers_are_decimal",
    "C84_labels_are_quoted",
    "C84_labels_appear_verbatim"
   ],
   "note": ""
  },
  {
   "property": "C85",
   "status": "proved",
   "theorems": [
    "C85_kill_hits_exactly_its_target",
    "C85_nobody_else_dies",
    "C85_the_dead_do_nothing",
    "C85_killing_violations_kill"
   ],
   "note": ""
  },
  {
   "property": "C86",
   "status": "proved",
   "theorems": [
    "C86_pledge_ends",
    "C86_pledge_takes_all_its_steps"
   ],
   "note": ""
  },
  {
   "property": "C87",
   "status": "proved",
   "theorems": [
    "C87_calls_of_a_pledge"
   ],
   "note": ""
  },
  {
   "property": "C88",
   "status": "partial",
   "theorems": [
    "C88_failed_pledge_leaves_no_trace_refuted",
    "C88_what_a_failed_pledge_leaves_partial"
   ],
   "note": "False of the code: no_new_privs is set before the filter is handed to the kernel and cannot be unset, so a pledge that the kernel refuses has still changed the thread. Proved: the flag is all that a failed pledge can leave behind, and on a thread without filters it always does."
  },
  {
   "property": "C89",
   "status": "proved",
   "theorems": [
    "C89_stale_registers_do_not_matter"
   ],
   "note": ""
  },
  {
   "property": "C90",
   "status": "proved",
   "theorems": [
    "C90_refusals_are_justified",
    "C90_unsupervised_refusals_are_justified"
   ],
   "note": ""
  },
  {
   "property": "C91",
   "status": "proved",
   "theorems": [
    "C91_filters_are_the_pledges_of_the_line",
    "C91_fate_of_a_call"
   ],
   "note": ""
  },
  {
   "property": "C92",
   "status": "proved",
   "theorems": [
    "C92_as_if_alone"
   ],
   "note": ""
  },
  {
   "property": "C93",
   "status": "proved",
   "theorems": [
    "C93_exactly_which_opens_are_allowed",
    "C93_open_ignores_its_flags"
   ],
   "note": ""
  },
  {
   "property": "C94",
   "status": "proved",
   "theorems": [
    "C94_exactly_which_modes_are_allowed",
    "C94_fchmodat_ignores_its_mode"
   ],
   "note": ""
  },
  {
   "property": "C95",
   "status": "proved",
   "theorems": [
    "C95_exactly_which_memory_calls_are_allowed"
   ],
   "note": ""
  },
  {
   "property": "C96",
   "status": "proved",
   "theorems": [
    "C96_exactly_which_signals_are_allowed"
   ],
   "note": ""
  },
  {
   "property": "C97",
   "status": "proved",
   "theorems": [
    "C97_exactly_what_a_stack_allows",
    "C97_a_stack_need_not_be_any_list"
   ],
   "note": ""
  },
  {
   "property": "C98",
   "status": "partial",
   "theorems": [
    "C98_new_namespaces_refuted",
    "C98_other_ways_into_namespaces_partial"
   ],
   "note": "Clone with CLONE_NEWUSER, NEWPID, NEWNET, NEWIPC, NEWUTS or NEWCGROUP proceeds under every list with Proc, witness C98_new_namespaces_refuted. The partial theorem: unshare, setns, clone3 and CLONE_NEWNS are never possible, and without Proc only threads (which the kernel keeps out of new user and pid namespaces) can be made."
  },
  {
   "property": "C99",
   "status": "partial",
   "theorems": [
    "C99_migrate_pages_refuted",
    "C99_exactly_which_targets_partial"
   ],
   "note": "False: migrate_pages, and reading with several calls, work on any process with StdIO; witness C99_migrate_pages_refuted. The partial theorem is the exact condition for 35 system calls that name a process."
  },
  {
   "property": "C100",
   "status": "proved",
   "theorems": [
    "C100_promises_some_call_needs",
    "C100_replaceable_promises"
   ],
   "note": ""
  },
  {
   "property": "C101",
   "status": "proved",
   "theorems": [
    "C101_exactly_which_calls_are_reachable"
   ],
   "note": ""
  },
  {
   "property": "C102",
   "status": "proved",
   "theorems": [
    "C102_promises_act_independently",
    "C102_joined_lists"
   ],
   "note": ""
  },
  {
   "property": "C103",
   "status": "partial",
   "theorems": [
    "C103_large_error_number_refuted",
    "C103_error_number_returned_partial"
   ],
   "note": "False for error numbers above 4095, which the kernel caps (in this model of it); witness C103_large_error_number_refuted. The partial theorem says which number is returned for every e below 2^16; for payloads from 2^16 see C44."
  },
  {
   "property": "C104",
   "status": "proved",
   "theorems": [
    "C104_exactly_the_programs_compile_can_produce",
    "C104_written_for_both_profiles",
    "C104_kernel_filters_compile_can_produce"
   ],
   "note": ""
  },
  {
   "property": "C105",
   "status": "proved",
   "theorems": [
    "C105_exactly_where_jumps_go"
   ],
   "note": ""
  },
  {
   "property": "C106",
   "status": "partial",
   "theorems": [
    "C106_getsockopt_rule_is_idle_refuted",
    "C106_every_other_rule_matters_partial"
   ],
   "note": "False: getsockopt_restrict changes nothing in Inet and Unix, because setsockopt_restrict tests for getsockopt too and allows more; witness C106_getsockopt_rule_is_idle_refuted. The partial theorem: it is the only rule whose removal changes nothing."
  },
  {
   "property": "C107",
   "status": "partial",
   "theorems": [
    "C107_exit_code_tests_are_exact",
    "C107_later_calls_pass_signal_tests_refuted",
    "C107_signal_tests_partial"
   ],
   "note": "False for fork_expect_sig: the child returns into the test program after the function under test, so a later refused call makes the test pass; witness C107_later_calls_pass_signal_tests_refuted (stdio_personality_killed is such a test). The other theorems: what passing means exactly, and that a function that never returns is tested properly. Children are single-threaded and end; processes are modelled by their system calls."
  },
  {
   "property": "C108",
   "status": "proved",
   "theorems": [
    "C108_when_two_pledges_build_the_same_filter"
   ],
   "note": ""
  },
  {
   "property": "C109",
   "status": "proved",
   "theorems": [
    "C109_when_a_pledge_allows_all_another_does"
   ],
   "note": ""
  },
  {
   "property": "C110",
   "status": "proved",
   "theorems": [
    "C110_integration_tests_pass",
    "C110_errno_test_passes"
   ],
   "note": ""
  },
  {
   "property": "C111",
   "status": "proved",
   "theorems": [
    "C111_what_a_verdict_depends_on",
    "C111_inspected_words_decide"
   ],
   "note": ""
  },
  {
   "property": "C112",
   "status": "proved",
   "theorems": [
    "C112_older_kernels_are_as_strict",
    "C112_foreign_calls_on_older_kernels"
   ],
   "note": ""
  },
  {
   "property": "C113",
   "status": "proved",
   "theorems": [
    "C113_exact_costs",
    "C113_later_promises_cost_nothing",
    "C113_costs_add",
    "C113_order_costs_a_refused_call_nothing"
   ],
   "note": ""
  },
  {
   "property": "C114",
   "status": "proved",
   "theorems": [
    "C114_program_keeps_the_filters",
    "C114_failed_program_changes_nothing",
    "C114_programs_need_exec",
    "C114_program_signalling_itself",
    "C114_pledge_in_progress_is_forgotten"
   ],
   "note": ""
  },
  {
   "property": "C115",
   "status": "proved",
   "theorems": [
    "C115_exit_always_works",
    "C115_exit_group_needs_stdio",
    "C115_a_process_can_end_thread_by_thread",
    "C115_ended_threads_do_nothing"
   ],
   "note": ""
  },
  {
   "property": "C116",
   "status": "proved",
   "theorems": [
    "C116_what_strict_mode_allows",
    "C116_strict_mode_excluded_by_pledges",
    "C116_pledge_dies_in_strict_mode",
    "C116_ever_after_in_strict_mode"
   ],
   "note": ""
  },
  {
   "property": "C117",
   "status": "proved",
   "theorems": [
    "C117_filters_change_only_on_request",
    "C117_no_new_privs_is_set_only_on_request",
    "C117_ids_and_capabilities"
   ],
   "note": ""
  },
  {
   "property": "C118",
   "status": "proved",
   "theorems": [
    "C118_exactly_the_filters_the_kernel_accepts",
    "C118_stale_scratch_cells_do_not_matter",
    "C118_accepted_filters_end",
    "C118_exactly_the_operations_the_kernel_loads",
    "C118_exactly_the_programs_the_kernel_loads"
   ],
   "note": ""
  },
  {
   "property": "C119",
   "status": "proved",
   "theorems": [
    "C119_filters_act_only_by_what_they_answer",
    "C119_a_pledge_that_is_kept_is_not_noticed",
    "C119_refused_calls_leave_no_trace"
   ],
   "note": ""
  },
  {
   "property": "C120",
   "status": "proved",
   "theorems": [
    "C120_other_processes_change_nothing",
    "C120_own_steps_depend_on_the_process_alone",
    "C120_a_process_runs_as_if_alone",
    "C120_a_process_runs_as_if_alone_whatever_others_create"
   ],
   "note": ""
  },
  {
   "property": "C121",
   "status": "proved",
   "theorems": [
    "C121_steps_of_different_processes_commute",
    "C121_interleaving_does_not_matter"
   ],
   "note": ""
  },
  {
   "property": "C122",
   "status": "proved",
   "theorems": [
    "C122_steps_of_threads_commute",
    "C122_which_steps_keep_to_themselves"
   ],
   "note": ""
  },
  {
   "property": "C123",
   "status": "proved",
   "theorems": [
    "C123_process_of_pledged_threads_is_confined"
   ],
   "note": ""
  },
  {
   "property": "C124",
   "status": "proved",
   "theorems": [
    "C124_when_two_programs_compile_to_the_same_code"
   ],
   "note": ""
  },
  {
   "property": "C125",
   "status": "proved",
   "theorems": [
    "C125_the_action_cache_changes_no_decision",
    "C125_what_is_cached_under_a_pledge",
    "C125_which_allowed_calls_are_cached",
    "C125_StdIO_last_is_the_best_order",
    "C125_what_is_cached_is_granted"
   ],
   "note": ""
  },
  {
   "property": "C126",
   "status": "proved",
   "theorems": [
    "C126_exactly_which_network_calls_are_allowed"
   ],
   "note": ""
  },
  {
   "property": "C127",
   "status": "proved",
   "theorems": [
    "C127_exactly_which_task_and_limit_calls_are_allowed"
   ],
   "note": ""
  },
  {
   "property": "C128",
   "status": "proved",
   "theorems": [
    "C128_the_short_list_decides_the_same",
    "C128_no_list_is_shorter",
    "C128_no_list_costs_less",
    "C128_a_first_pledge_of_the_short_list_succeeds"
   ],
   "note": ""
  },
  {
   "property": "C129",
   "status": "proved",
   "theorems": [
    "C129_who_allows_the_calls_decided_by_number"
   ],
   "note": ""
  },
  {
   "property": "C130",
   "status": "proved",
   "theorems": [
    "C130_when_two_pledges_leave_more_than_exit",
    "C130_after_pledging_stdio"
   ],
   "note": ""
  }
 ]
}