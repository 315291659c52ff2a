{
 "claims": [
  {
   "property": "C01",
   "status": "proved",
   "theorems": [
    "C01_partition",
    "C01_one_slot_per_instant"
   ],
   "note": ""
  },
  {
   "property": "C02",
   "status": "proved",
   "theorems": [
    "C02_split_before",
    "C02_split_after",
    "C02_halves"
   ],
   "note": ""
  },
  {
   "property": "C03",
   "status": "proved",
   "theorems": [
    "C03_insert_job",
    "C03_add_job"
   ],
   "note": ""
  },
  {
   "property": "C04",
   "status": "partial",
   "theorems": [
    "C04_end_refuted",
    "C04_end_partial"
   ],
   "note": "False as stated: when a slot ends exactly at start+walltime the whole slot is taken, one second too long (C04_end_refuted); exact otherwise (C04_end_partial)."
  },
  {
   "property": "C05",
   "status": "proved",
   "theorems": [
    "C05_insert_sorted"
   ],
   "note": ""
  },
  {
   "property": "C06",
   "status": "partial",
   "theorems": [
    "C06_any_order_refuted_crash",
    "C06_any_order_refuted_silent",
    "C06_sorted_partial",
    "C06_one_by_one_partial"
   ],
   "note": "False as stated: the table is ordered by jobs.start_time (0 for jobs not started), so the scheduler can crash or forget a job's window. Proved when the list is ordered by predicted start, and for one call per job."
  },
  {
   "property": "C07",
   "status": "proved",
   "theorems": [
    "C07_slot_at",
    "C07_slot_at_from",
    "C07_encompassing_range"
   ],
   "note": ""
  },
  {
   "property": "C08",
   "status": "proved",
   "theorems": [
    "C08_intersection"
   ],
   "note": ""
  },
  {
   "property": "C09",
   "status": "partial",
   "theorems": [
    "C09_window_refuted",
    "C09_window_partial"
   ],
   "note": "False as stated (witness); holds when no slot of the window makes the accumulated set empty."
  },
  {
   "property": "C10",
   "status": "proved",
   "theorems": [
    "C10_windows"
   ],
   "note": ""
  },
  {
   "property": "C11",
   "status": "proved",
   "theorems": [
    "C11_first_blocks",
    "C11_nonempty_iff"
   ],
   "note": ""
  },
  {
   "property": "C12",
   "status": "proved",
   "theorems": [
    "C12_all_best_half",
    "C12_only_free"
   ],
   "note": ""
  },
  {
   "property": "C13",
   "status": "proved",
   "theorems": [
    "C13_hierarchical_exact",
    "C13_only_free",
    "C13_resource_count"
   ],
   "note": "Exactness for nested levels; 'only free resources' without hypothesis."
  },
  {
   "property": "C14",
   "status": "proved",
   "theorems": [
    "C14_complete",
    "C14_nesting_needed"
   ],
   "note": "For nested levels; C14_nesting_needed shows the hypothesis is necessary in the code."
  },
  {
   "property": "C15",
   "status": "proved",
   "theorems": [
    "C15_all_groups",
    "C15_within",
    "C15_refused_iff"
   ],
   "note": ""
  },
  {
   "property": "C16",
   "status": "partial",
   "theorems": [
    "C16_groups_disjoint_refuted",
    "C16_groups_disjoint_partial"
   ],
   "note": "False as stated: two groups with overlapping eligible resources get the same resources. Holds when the groups' eligible resources are disjoint."
  },
  {
   "property": "C17",
   "status": "proved",
   "theorems": [
    "C17_no_double_booking",
    "C17_timesharing_refuted"
   ],
   "note": "Proved for slot sets of plain jobs, as stated. C17_timesharing_refuted shows that it does not extend to time-sharing jobs."
  },
  {
   "property": "C18",
   "status": "proved",
   "theorems": [
    "C18_earliest"
   ],
   "note": ""
  },
  {
   "property": "C19",
   "status": "partial",
   "theorems": [
    "C19_cache_refuted",
    "C19_cache_transparent_partial"
   ],
   "note": "False as stated: a container of the round that reopens an existing slot set makes the cached positions stale. Proved when no container reopens an existing slot set."
  },
  {
   "property": "C20",
   "status": "proved",
   "theorems": [
    "C20_moldable"
   ],
   "note": ""
  },
  {
   "property": "C21",
   "status": "partial",
   "theorems": [
    "C21_unplaced_dependency_refuted",
    "C21_order_refuted",
    "C21_tail_refuted",
    "C21_dependency_partial"
   ],
   "note": "False as stated (dependency not placed, dependency treated later, dependency ending one second before the end of a slot). Proved when none of the three happens."
  },
  {
   "property": "C22",
   "status": "proved",
   "theorems": [
    "C22_counters",
    "C22_other_types",
    "C22_slot_counters"
   ],
   "note": ""
  },
  {
   "property": "C23",
   "status": "partial",
   "theorems": [
    "C23_window_within_limits_partial",
    "C23_window_accepted",
    "C23_placed_within_limits_partial",
    "C23_unlisted_type_refuted"
   ],
   "note": "Proved for rules on '*' or on a job type listed in Quotas.job_types, up to the placement by the scheduler; C23_unlisted_type_refuted: rules on other types are never enforced."
  },
  {
   "property": "C24",
   "status": "partial",
   "theorems": [
    "C24_selection",
    "C24_found_refuted",
    "C24_second_type_refuted",
    "C24_found_partial",
    "C24_selected_applies"
   ],
   "note": "False as stated (no backtracking to '*', only the first job type looked at). Exact characterisation of the rule selected, and existence when every branch has its '*' rule."
  },
  {
   "property": "C25",
   "status": "partial",
   "theorems": [
    "C25_counted_once_refuted",
    "C25_counted_once_partial"
   ],
   "note": "False as stated: a job spanning two slots of the window counts twice. Exact on one-slot windows; longer windows err on the safe side (C23)."
  },
  {
   "property": "C26",
   "status": "partial",
   "theorems": [
    "C26_rules_at_refuted",
    "C26_slots_crash_refuted",
    "C26_rules_at_selected",
    "C26_rules_at_partial"
   ],
   "note": "False as stated: the scan takes the first period beginning at or after the date, and the remaining duration ignores the period's beginning; the slot construction can stop with an AssertionError. Exact characterisation of what is selected; right at period starts and in the last period."
  },
  {
   "property": "C27",
   "status": "proved",
   "theorems": [
    "C27_default_covers",
    "C27_rules_of_instant",
    "C27_check"
   ],
   "note": ""
  },
  {
   "property": "C28",
   "status": "proved",
   "theorems": [
    "C28_each_second",
    "C28_total",
    "C28_update"
   ],
   "note": "int(start/window) is a float division in Python, exact below 2^53."
  },
  {
   "property": "C29",
   "status": "partial",
   "theorems": [
    "C29_marked_refuted",
    "C29_charged_once_partial"
   ],
   "note": "False as stated: every job not accounted is marked, running ones included, which are then never charged. Proved: charged jobs are marked, never charged twice; exactness when all the unaccounted jobs are charged."
  },
  {
   "property": "C30",
   "status": "proved",
   "theorems": [
    "C30_hms",
    "C30_sql_roundtrip",
    "C30_walltime_roundtrip",
    "C30_walltime_short",
    "C30_signed",
    "C30_signed_read",
    "C30_signed_read_refuted",
    "C30_compound"
   ],
   "note": "The signed text is not readable back for negative durations (C30_signed_read_refuted), which is outside the property."
  },
  {
   "property": "C31",
   "status": "proved",
   "theorems": [
    "C31_finished_stays",
    "C31_unique_ids",
    "C31_requests_ignored",
    "C31_end_after_start"
   ],
   "note": "Over all the modelled actions (submission, state changes, deletion, hold/resume/checkpoint, Sarko, Leon, NodeChangeState, end of job)."
  },
  {
   "property": "C32",
   "status": "proved",
   "theorems": [
    "C32_timeline",
    "C32_no_stray_entry"
   ],
   "note": "Over any history of the modelled actions, from the empty database, with a clock that does not go back. Crashes: see C61."
  },
  {
   "property": "C33",
   "status": "proved",
   "theorems": [
    "C33_only_owner",
    "C33_refused_no_effect",
    "C33_stranger",
    "C33_owner_deletes",
    "C33_walltime_only_owner",
    "C33_walltime_refused_no_effect",
    "C33_force_allowed"
   ],
   "note": "Deletion, checkpoint, hold, resume, walltime changes."
  },
  {
   "property": "C34",
   "status": "partial",
   "theorems": [
    "C34_overdue_refuted",
    "C34_books_partial"
   ],
   "note": "False for a late job with a pending reduction (pending grows in magnitude). Balanced for every request; sign and magnitude kept for extensions, and for reductions of jobs that are not late."
  },
  {
   "property": "C35",
   "status": "partial",
   "theorems": [
    "C35_twice_refuted",
    "C35_late_refuted",
    "C35_one_request_partial"
   ],
   "note": "False as stated: a new request erases the granted amount; a pending reduction of a late job follows the clock. Proved: one accepted extension gives at most maximum - granted, over any number of rounds."
  },
  {
   "property": "C36",
   "status": "partial",
   "theorems": [
    "C36_suspended_refuted",
    "C36_walltime_partial",
    "C36_overrun_killed_partial"
   ],
   "note": "False for jobs that were suspended once (the suspension time replaces the walltime). Proved, both ways, for jobs never suspended."
  },
  {
   "property": "C37",
   "status": "partial",
   "theorems": [
    "C37_stuck_refuted",
    "C37_one_request",
    "C37_moves",
    "C37_fragged_final",
    "C37_progress_partial"
   ],
   "note": "False as stated: the request of a job that ends by itself before Leon sees it stays LEON for ever. The moves and the finality of FRAGGED are proved for every history; progress for a live job."
  },
  {
   "property": "C38",
   "status": "partial",
   "theorems": [
    "C38_hold_waiting_refuted",
    "C38_hold_running_refuted",
    "C38_hold_waiting_partial",
    "C38_resume_partial"
   ],
   "note": "False for running jobs in both directions (the event types are swapped in NodeChangeState). Hold of a waiting job and resume are proved."
  },
  {
   "property": "C39",
   "status": "partial",
   "theorems": [
    "C39_fifo",
    "C39_merged",
    "C39_spaced",
    "C39_remembered",
    "C39_reminder",
    "C39_served_partial",
    "C39_starvation_refuted"
   ],
   "note": "Order, no loss, merging, spacing and memory hold for every run. 'Eventually' is false when the node changes keep asking for new rounds (C39_starvation_refuted), proved with a bound otherwise."
  },
  {
   "property": "C40",
   "status": "proved",
   "theorems": [
    "C40_one_executor",
    "C40_no_loss",
    "C40_bounded",
    "C40_progress"
   ],
   "note": "For every sequence of messages, timeouts and process ends. The bound is the configured maximum plus one (C69)."
  },
  {
   "property": "C41",
   "status": "partial",
   "theorems": [
    "C41_race_refuted",
    "C41_limit_refuted",
    "C41_in_order_partial"
   ],
   "note": "False when a process ends, or the maximum is reached, while the commander goes through its list. Proved when processes end only while it waits and the maximum is not below the number of jobs."
  },
  {
   "property": "C42",
   "status": "partial",
   "theorems": [
    "C42_tokens_partial",
    "C42_bad_token",
    "C42_identity",
    "C42_no_return",
    "C42_dst_refuted",
    "C42_broken_file_refuted"
   ],
   "note": "Proved for time zones whose clock is increasing (no summer time); false around the spring change (dates in UTC are read as local dates) and when the revocation file is broken."
  },
  {
   "property": "C43",
   "status": "partial",
   "theorems": [
    "C43_tables_partial",
    "C43_down_refuted",
    "C43_hold_refuted"
   ],
   "note": "Proved when the resources of active jobs are Alive or Absent. False when one is down, and for held reservations."
  },
  {
   "property": "C44",
   "status": "partial",
   "theorems": [
    "C44_kill_first",
    "C44_kill_only",
    "C44_once",
    "C44_due_partial",
    "C44_effect",
    "C44_down_refuted",
    "C44_checkpoint_refuted",
    "C44_twice_refuted"
   ],
   "note": "A launch is sent at most once, after the predicted start, with no Absent resource. Other states of a resource do not prevent the launch; checkpointed best-effort jobs stop the round."
  },
  {
   "property": "C45",
   "status": "partial",
   "theorems": [
    "C45_alive_refuted",
    "C45_delay_partial"
   ],
   "note": "False: resources that have been Alive for longer than the delay are declared dead too (the query does not look at the state). Proved: the delay, the option, and that nothing else is changed."
  },
  {
   "property": "C46",
   "status": "proved",
   "theorems": [
    "C46_round_order",
    "C46_once"
   ],
   "note": "Exact rationals instead of floats; custom plugins not modelled."
  },
  {
   "property": "C47",
   "status": "proved",
   "theorems": [
    "C47_groups",
    "C47_active"
   ],
   "note": ""
  },
  {
   "property": "C48",
   "status": "partial",
   "theorems": [
    "C48_one_special",
    "C48_two_levels_refuted",
    "C48_single_group"
   ],
   "note": "Two special levels are refused by the parser; one special level beside others is refused by the estimate when the request has one group only."
  },
  {
   "property": "C49",
   "status": "partial",
   "theorems": [
    "C49_timesharing_refuted",
    "C49_timesharing_partial",
    "C49_container_adds"
   ],
   "note": "False as stated: only the first job inserted under a given (user,name) is recorded as shareable. Proved for the first one, with the frame for all other records."
  },
  {
   "property": "C50",
   "status": "partial",
   "theorems": [
    "C50_placeholder_refuted",
    "C50_placeholder_partial",
    "C50_allowed_not_twice"
   ],
   "note": "First half false when two placeholder jobs bear the same name (the second replaces the record); otherwise proved. Second half proved."
  },
  {
   "property": "C51",
   "status": "proved",
   "theorems": [
    "C51_slot_counters"
   ],
   "note": ""
  },
  {
   "property": "C52",
   "status": "proved",
   "theorems": [
    "C52_loaded_jobs",
    "C52_suspended_time"
   ],
   "note": ""
  },
  {
   "property": "C53",
   "status": "partial",
   "theorems": [
    "C53_suspended_release_refuted",
    "C53_suspended_release_partial"
   ],
   "note": "False as stated: only the last job of the list is treated. Proved for that one."
  },
  {
   "property": "C54",
   "status": "partial",
   "theorems": [
    "C54_container_refuted",
    "C54_timesharing_container_refuted",
    "C54_container_partial"
   ],
   "note": "False for containers already running (window too long) and for time-sharing containers (crash). Proved for plain containers not yet started."
  },
  {
   "property": "C55",
   "status": "proved",
   "theorems": [
    "C55_available_upto"
   ],
   "note": ""
  },
  {
   "property": "C56",
   "status": "partial",
   "theorems": [
    "C56_container_refuted",
    "C56_inner_refuted",
    "C56_round_completes_partial"
   ],
   "note": "False as stated: an unplaceable container or an unknown inner name stops the round with an exception. Proved for plain jobs without quotas or containers."
  },
  {
   "property": "C57",
   "status": "partial",
   "theorems": [
    "C57_entry_partial",
    "C57_entry_refuted"
   ],
   "note": "False for hours over midnight and for day intervals over the week-end with hours (they cover nothing). Proved otherwise. The reading of the text is C198."
  },
  {
   "property": "C58",
   "status": "partial",
   "theorems": [
    "C58_interrupted_refuted_twice",
    "C58_interrupted_refuted_lost",
    "C58_interrupted_partial",
    "C58_uninterrupted"
   ],
   "note": "False as stated: creating a window commits, so a kill can double or cut a job's charge. Proved when all the windows exist already."
  },
  {
   "property": "C59",
   "status": "proved",
   "theorems": [
    "C59_rebuild"
   ],
   "note": ""
  },
  {
   "property": "C60",
   "status": "proved",
   "theorems": [
    "C60_durations_add_up"
   ],
   "note": ""
  },
  {
   "property": "C61",
   "status": "partial",
   "theorems": [
    "C61_crash_refuted"
   ],
   "note": "False: the state is committed before the log; a finished job's log is then never repaired. No positive part is claimed."
  },
  {
   "property": "C62",
   "status": "partial",
   "theorems": [
    "C62_end_date_refuted"
   ],
   "note": "False: an extermination already decided moves the end date of a job that ended meanwhile. C31_requests_ignored is the part that holds (state changes)."
  },
  {
   "property": "C63",
   "status": "partial",
   "theorems": [
    "C63_no_host_refuted",
    "C63_end_reaches_final_partial"
   ],
   "note": "False when the exit code's message names the first host of a job without hosts (IndexError). Proved otherwise."
  },
  {
   "property": "C64",
   "status": "partial",
   "theorems": [
    "C64_never_processed_refuted",
    "C64_enabled_stops_refuted"
   ],
   "note": "False for every configuration (\"YES\" against \"yes\", and a call with one argument out of three). No positive part."
  },
  {
   "property": "C65",
   "status": "proved",
   "theorems": [
    "C65_no_collision",
    "C65_inner"
   ],
   "note": ""
  },
  {
   "property": "C66",
   "status": "partial",
   "theorems": [
    "C66_overdue_refuted",
    "C66_recorded_partial"
   ],
   "note": "False for a late job. Proved when the job is not past its end."
  },
  {
   "property": "C67",
   "status": "partial",
   "theorems": [
    "C67_blocked_refuted",
    "C67_all_treated_partial"
   ],
   "note": "False for timesharing=user,* / name,* jobs and for inner jobs whose container is over. Proved otherwise."
  },
  {
   "property": "C68",
   "status": "partial",
   "theorems": [
    "C68_message_refuted",
    "C68_child_refuted",
    "C68_keeps_running_partial"
   ],
   "note": "False: null, a message without command, a text that is no regular expression, or a child killed by a signal stop the server. Proved for ordinary commands (known or not) and known exit codes."
  },
  {
   "property": "C69",
   "status": "partial",
   "theorems": [
    "C69_one_too_many_refuted",
    "C40_bounded"
   ],
   "note": "False by one, for every maximum; maximum + 1 is proved to be the bound."
  },
  {
   "property": "C70",
   "status": "partial",
   "theorems": [
    "C70_upload_refuted",
    "C70_space_refuted",
    "C70_ls_refuted",
    "C70_read_remove_partial",
    "C70_upload_partial"
   ],
   "note": "False for names with ';' (upload), with a space, comma, dollar or backquote (other requests), and for listings. Proved for plain names."
  },
  {
   "property": "C71",
   "status": "partial",
   "theorems": [
    "C71_threads_refuted",
    "C71_processes_partial"
   ],
   "note": "False for two threads of one server process (POSIX locks belong to the process). Proved when each request is served by its own process."
  },
  {
   "property": "C72",
   "status": "partial",
   "theorems": [
    "C72_pages",
    "C72_total",
    "C72_not_found",
    "C72_ls_page",
    "C72_ls_total_refuted"
   ],
   "note": "Proved for database answers; the total of directory listings is false."
  },
  {
   "property": "C73",
   "status": "partial",
   "theorems": [
    "C73_timeline_partial",
    "C73_sqlite_refuted",
    "C73_api_create_refuted",
    "C73_unknown_refuted"
   ],
   "note": "Proved for every history on PostgreSQL with resources created by the tools; false on SQLite, for resources created through the API, and when the state of an unknown resource is set."
  },
  {
   "property": "C74",
   "status": "partial",
   "theorems": [
    "C74_applied_partial",
    "C74_lost_refuted",
    "C74_blocked_refuted"
   ],
   "note": "Proved when nothing is requested during the pass and the requested states exist; false otherwise."
  },
  {
   "property": "C75",
   "status": "partial",
   "theorems": [
    "C75_finaud_refuted",
    "C75_resurrected_refuted",
    "C75_suspected_refuted",
    "C75_finaud_partial",
    "C75_finaud_works"
   ],
   "note": "False on nodes with resources in different states, and when a node is suspected. Proved for nodes all of whose resources are withdrawn."
  },
  {
   "property": "C76",
   "status": "partial",
   "theorems": [
    "C76_deleted_partial",
    "C76_only",
    "C76_suspected",
    "C76_api_refuted"
   ],
   "note": "Proved for requested changes; false for a change through the API."
  },
  {
   "property": "C77",
   "status": "proved",
   "theorems": [
    "C77_admin_only"
   ],
   "note": ""
  },
  {
   "property": "C78",
   "status": "partial",
   "theorems": [
    "C78_dead_only",
    "C78_gone",
    "C78_others_partial",
    "C78_running_refuted"
   ],
   "note": "False for jobs that also run elsewhere. The rest is proved."
  },
  {
   "property": "C79",
   "status": "partial",
   "theorems": [
    "C79_own_partial",
    "C79_down_refuted"
   ],
   "note": "Proved for resources in use; false for the others, which all count as the first one."
  },
  {
   "property": "C80",
   "status": "partial",
   "theorems": [
    "C80_end_partial",
    "C80_late_refuted"
   ],
   "note": "The end is the announced one plus the security time."
  },
  {
   "property": "C81",
   "status": "partial",
   "theorems": [
    "C81_all_there_partial",
    "C81_unnoticed_refuted",
    "C81_wait_refuted",
    "C81_reduce_refuted"
   ],
   "note": "False: missing resources are not noticed, or stop the round, or all resources are given up."
  },
  {
   "property": "C82",
   "status": "partial",
   "theorems": [
    "C82_expired_partial",
    "C82_only_expired",
    "C82_pushed_refuted"
   ],
   "note": "Only expired reservations are put in error; one with no resource never expires."
  },
  {
   "property": "C83",
   "status": "partial",
   "theorems": [
    "C83_share_refuted"
   ],
   "note": "False: the declaration is never seen."
  },
  {
   "property": "C84",
   "status": "partial",
   "theorems": [
    "C84_accepted",
    "C84_decision",
    "C84_round",
    "C84_round_ends",
    "C84_security_refuted"
   ],
   "note": "Proved for plain reservations within the horizon; the security time after a reservation is not kept."
  },
  {
   "property": "C85",
   "status": "partial",
   "theorems": [
    "C85_waiting_job",
    "C85_reservation_refuted"
   ],
   "note": "Proved for waiting jobs; false for reservations."
  },
  {
   "property": "C86",
   "status": "partial",
   "theorems": [
    "C86_within_limits_partial",
    "C86_unlisted_type_refuted"
   ],
   "note": "For rules on configured job types, as C23; false for rules on other types (C86_unlisted_type_refuted)."
  },
  {
   "property": "C87",
   "status": "partial",
   "theorems": [
    "C87_horizon_refuted"
   ],
   "note": "False for a start after 2038-01-19."
  },
  {
   "property": "C88",
   "status": "proved",
   "theorems": [
    "C88_less_consumed_first",
    "C88_karma_value"
   ],
   "note": ""
  },
  {
   "property": "C89",
   "status": "partial",
   "theorems": [
    "C89_share_refuted",
    "C89_share_partial"
   ],
   "note": "False when an accounting window ends exactly at the time of the round; proved otherwise."
  },
  {
   "property": "C90",
   "status": "partial",
   "theorems": [
    "C90_user_target_refuted",
    "C90_no_target_partial"
   ],
   "note": "False: any target for a user with a waiting job makes the round fail (a text is divided by a number)."
  },
  {
   "property": "C91",
   "status": "partial",
   "theorems": [
    "C91_age_refuted",
    "C91_age_monotone_partial"
   ],
   "note": "False for the first seven days (max instead of min); the age never lowers the priority."
  },
  {
   "property": "C92",
   "status": "partial",
   "theorems": [
    "C92_work_refuted",
    "C92_missing_refuted",
    "C92_formula",
    "C92_plain_partial"
   ],
   "note": "False: work has no effect above 1, and jobs of the database lack the attributes."
  },
  {
   "property": "C93",
   "status": "proved",
   "theorems": [
    "C93_within_limit",
    "C93_behind_limit"
   ],
   "note": "With the order by id; jobs behind the limit are never considered."
  },
  {
   "property": "C94",
   "status": "partial",
   "theorems": [
    "C94_understood",
    "C94_comma_refuted",
    "C94_second_comma_refuted"
   ],
   "note": "Proved for conditions without comma, plus and closing brace; false with a comma in a condition or a second comma."
  },
  {
   "property": "C95",
   "status": "partial",
   "theorems": [
    "C95_conditions",
    "C95_some_group",
    "C95_single_group_partial",
    "C95_two_groups_refuted"
   ],
   "note": "Proved for one group per instance; false with two groups."
  },
  {
   "property": "C96",
   "status": "proved",
   "theorems": [
    "C96_numbering",
    "C96_recorded",
    "C96_bounds"
   ],
   "note": "Identifiers below 100000 (the size of the arrays)."
  },
  {
   "property": "C97",
   "status": "partial",
   "theorems": [
    "C97_condition_exact",
    "C97_condition_partial",
    "C97_condition_refuted"
   ],
   "note": "False when a resource satisfying the condition is Dead or Suspected: it stands for the first resource."
  },
  {
   "property": "C98",
   "status": "partial",
   "theorems": [
    "C98_loaded_ranks",
    "C98_first_resource_refuted",
    "C98_usable_partial"
   ],
   "note": "False when a resource of the job is Dead or Suspected: it stands for the first resource."
  },
  {
   "property": "C99",
   "status": "proved",
   "theorems": [
    "C99_level"
   ],
   "note": ""
  },
  {
   "property": "C100",
   "status": "partial",
   "theorems": [
    "C100_group_partial",
    "C100_admin",
    "C100_script_partial",
    "C100_group_refuted",
    "C100_admin_refuted"
   ],
   "note": "False with an OR outside parentheses in the job's or group's condition; the user's text is parenthesised before an administrator's condition."
  },
  {
   "property": "C101",
   "status": "partial",
   "theorems": [
    "C101_round_trip_partial",
    "C101_repeated_group",
    "C101_order_of_rows_refuted",
    "C101_concurrent_refuted"
   ],
   "note": "Proved when the database gives identifiers in the order of insertion (the code asks for no order) and for submissions one after the other; false otherwise."
  },
  {
   "property": "C102",
   "status": "proved",
   "theorems": [
    "C102_waiting_described",
    "C102_reversed_example"
   ],
   "note": "For any order in which the database gives identifiers back; concurrent sessions not modelled."
  },
  {
   "property": "C103",
   "status": "partial",
   "theorems": [
    "C103_half_job_refuted",
    "C103_log_refuted",
    "C103_array_refuted",
    "C103_left_behind_partial"
   ],
   "note": "False; what is left incomplete is in state Hold."
  },
  {
   "property": "C104",
   "status": "proved",
   "theorems": [
    "C104_array",
    "C104_keyed_array",
    "C104_array_types",
    "C104_job_types"
   ],
   "note": "With identifiers read back in the order of insertion."
  },
  {
   "property": "C105",
   "status": "partial",
   "theorems": [
    "C105_twice_refuted",
    "C105_once_partial",
    "C105_admin"
   ],
   "note": "False when the type is given twice (list.remove); proved for lists without repetition."
  },
  {
   "property": "C106",
   "status": "partial",
   "theorems": [
    "C106_moldable_array_refuted",
    "C106_refused_array_refuted",
    "C106_reservation_lost",
    "C106_single",
    "C106_refused_early"
   ],
   "note": "False for arrays; proved for single jobs."
  },
  {
   "property": "C107",
   "status": "partial",
   "theorems": [
    "C107_empty_partial",
    "C107_null_refuted",
    "C107_other_type_refuted",
    "C107_estimate_differs_refuted",
    "C107_both"
   ],
   "note": "False when the condition is NULL (no -p option); proved for the empty text."
  },
  {
   "property": "C108",
   "status": "partial",
   "theorems": [
    "C108_undescribed_refuted",
    "C108_alone_refuted",
    "C108_resumed_refuted"
   ],
   "note": "False: the reading or the placement raises."
  },
  {
   "property": "C109",
   "status": "partial",
   "theorems": [
    "C109_sleep",
    "C109_only_if_configured",
    "C109_always_on_refuted"
   ],
   "note": "The exact set is proved; a resource never to be switched off is halted with its node if another resource of the node may be."
  },
  {
   "property": "C110",
   "status": "partial",
   "theorems": [
    "C110_wake",
    "C110_not_both_partial",
    "C110_both_refuted",
    "C110_wake_command_refuted"
   ],
   "note": "The exact set is proved; both requests are possible if the wake-up time exceeds the sleep time; the code tests the sleep command to decide wake-ups."
  },
  {
   "property": "C111",
   "status": "partial",
   "theorems": [
    "C111_keepalive_partial",
    "C111_wakes_partial",
    "C111_wakes_only",
    "C111_refuted"
   ],
   "note": "Proved when all the resources of a node have the same state and next state; false otherwise (the node counts twice)."
  },
  {
   "property": "C112",
   "status": "partial",
   "theorems": [
    "C112_one_at_a_time",
    "C112_while_booting",
    "C112_waiting_for_ever_refuted"
   ],
   "note": "Proved, except that a command that had to wait is launched again for ever: it is never taken off the list."
  },
  {
   "property": "C113",
   "status": "partial",
   "theorems": [
    "C113_busy_halted_refuted"
   ],
   "note": "False: a halt that had to wait is launched later whatever the node does then."
  },
  {
   "property": "C114",
   "status": "partial",
   "theorems": [
    "C114_stuck_refuted",
    "C114_failed_command",
    "C114_restart",
    "C114_woken_partial"
   ],
   "note": "False when the halt command fails, or when the manager restarts while one runs: the node is never commanded again. Proved when nothing is recorded as running on the node."
  },
  {
   "property": "C115",
   "status": "partial",
   "theorems": [
    "C115_goes_on",
    "C115_suspected",
    "C115_unknown_command_refuted"
   ],
   "note": "Proved, except for unknown commands, which end the manager."
  },
  {
   "property": "C116",
   "status": "partial",
   "theorems": [
    "C116_timeout",
    "C116_defined",
    "C116_couples",
    "C116_first_couple_refuted",
    "C116_wrong_couple_refuted"
   ],
   "note": "Proved for well-formed options that give a value for 1; otherwise an exception."
  },
  {
   "property": "C117",
   "status": "partial",
   "theorems": [
    "C117_same_request",
    "C117_same_order",
    "C117_read_back_partial",
    "C117_example",
    "C117_walltime_refuted"
   ],
   "note": "Proved, for the histories where rows come back in the order of insertion; but a walltime changed while the job ran is copied instead of the one asked for."
  },
  {
   "property": "C118",
   "status": "partial",
   "theorems": [
    "C118_dependants",
    "C118_own_dependencies_refuted",
    "C118_own_dependencies"
   ],
   "note": "The jobs that required it are proved; its own dependencies are never copied."
  },
  {
   "property": "C119",
   "status": "partial",
   "theorems": [
    "C119_never_accounted",
    "C119_accounted_refuted",
    "C119_not_yet_accounted_partial"
   ],
   "note": "False: the mark 'accounted' is copied, so a job resubmitted after the accounting of the first run is never accounted."
  },
  {
   "property": "C120",
   "status": "partial",
   "theorems": [
    "C120_refused",
    "C120_allowed",
    "C120_own_key_refuted"
   ],
   "note": "Exact condition proved; when the server resubmits, the keys of the owner's own jobs count as those of another user."
  },
  {
   "property": "C121",
   "status": "proved",
   "theorems": [
    "C121_at_most_once",
    "C121_events",
    "C121_example"
   ],
   "note": ""
  },
  {
   "property": "C122",
   "status": "partial",
   "theorems": [
    "C122_who",
    "C122_when",
    "C122_deleted_refuted",
    "C122_finished_refuted",
    "C122_example"
   ],
   "note": "Exact condition proved for jobs without key; deleted jobs, and jobs run to their end whose server epilogue timed out, are run again."
  },
  {
   "property": "C123",
   "status": "proved",
   "theorems": [
    "C123_blamed",
    "C123_first",
    "C123_example"
   ],
   "note": ""
  },
  {
   "property": "C124",
   "status": "partial",
   "theorems": [
    "C124_all_treated_partial",
    "C124_example",
    "C124_blocked_refuted",
    "C124_lost_refuted"
   ],
   "note": "Proved if the jobs, keys and nodes of the events exist; a job without node blocks the treatment for ever, and events added meanwhile may be lost."
  },
  {
   "property": "C125",
   "status": "proved",
   "theorems": [
    "C125_stops",
    "C125_others",
    "C125_list",
    "C125_example"
   ],
   "note": ""
  },
  {
   "property": "C126",
   "status": "proved",
   "theorems": [
    "C126_once",
    "C126_recorded_first",
    "C126_example"
   ],
   "note": "Sequential requests; Commander runs one launcher per job at a time (C-claims on Commander)."
  },
  {
   "property": "C127",
   "status": "partial",
   "theorems": [
    "C127_ignored_refuted",
    "C127_recorded_partial",
    "C127_runs_anyway",
    "C127_example"
   ],
   "note": "The failure is recorded before the start, but the result of the prologue has no influence on the start."
  },
  {
   "property": "C128",
   "status": "partial",
   "theorems": [
    "C128_silent",
    "C128_reported_partial",
    "C128_silent_refuted",
    "C128_example"
   ],
   "note": "The only silent failures are identified: a reservation without alive node (TypeError) and a job without node whose executor fails (IndexError)."
  },
  {
   "property": "C129",
   "status": "partial",
   "theorems": [
    "C129_installed_partial",
    "C129_reservation_partial",
    "C129_timeout_refuted",
    "C129_timeout_example",
    "C129_example"
   ],
   "note": "Proved when the cpuset command does not time out; after a timeout the job is started without cpuset."
  },
  {
   "property": "C130",
   "status": "partial",
   "theorems": [
    "C130_checked_partial",
    "C130_example",
    "C130_reservation_refuted"
   ],
   "note": "Proved except for reservations, which can be started on a node just found dead, or outside of their nodes."
  },
  {
   "property": "C131",
   "status": "partial",
   "theorems": [
    "C131_told",
    "C131_not_deleted_refuted",
    "C131_example"
   ],
   "note": "The client is told in every case; a job whose client is lost keeps running: no deletion is requested."
  },
  {
   "property": "C132",
   "status": "proved",
   "theorems": [
    "C132_challenge",
    "C132_wrong_challenge",
    "C132_accepted",
    "C132_other_states",
    "C132_no_start",
    "C132_to_launch_refuted",
    "C132_example"
   ],
   "note": "A report for a job still in toLaunch is treated as a launch request."
  },
  {
   "property": "C133",
   "status": "partial",
   "theorems": [
    "C133_taktuk",
    "C133_nmap",
    "C133_example",
    "C133_nmap_example",
    "C133_same_address_refuted",
    "C133_never_suspects_refuted",
    "C133_methods_refuted"
   ],
   "note": "Proved for taktuk and nmap (distinct addresses); the other three methods never suspect any host."
  },
  {
   "property": "C134",
   "status": "partial",
   "theorems": [
    "C134_exit_code",
    "C134_nodes_partial",
    "C134_epilogue_refuted",
    "C134_example"
   ],
   "note": "Proved unless the epilogue fails: then neither its failure nor the bad nodes are recorded."
  },
  {
   "property": "C135",
   "status": "partial",
   "theorems": [
    "C135_cleaned_partial",
    "C135_end_partial",
    "C135_left_refuted",
    "C135_example"
   ],
   "note": "Not removed when a node stops answering between the two checks, nor for noop jobs."
  },
  {
   "property": "C136",
   "status": "proved",
   "theorems": [
    "C136_address",
    "C136_predicted",
    "C136_verdicts",
    "C136_example"
   ],
   "note": ""
  },
  {
   "property": "C137",
   "status": "proved",
   "theorems": [
    "C137_ends",
    "C137_blocked_refuted",
    "C137_api_refuted",
    "C137_resume_refuted",
    "C137_example"
   ],
   "note": "The consequences (unreachable client, API reservation, no resume script) are the _refuted theorems."
  },
  {
   "property": "C138",
   "status": "proved",
   "theorems": [
    "C138_orders",
    "C138_once",
    "C138_again"
   ],
   "note": ""
  },
  {
   "property": "C139",
   "status": "proved",
   "theorems": [
    "C139_shown",
    "C139_fresh",
    "C139_cut_refuted",
    "C139_example"
   ],
   "note": "A copy cut between its two commits shows nothing at all."
  },
  {
   "property": "C140",
   "status": "proved",
   "theorems": [
    "C140_deleted",
    "C140_recorded"
   ],
   "note": ""
  },
  {
   "property": "C141",
   "status": "proved",
   "theorems": [
    "C141_code"
   ],
   "note": ""
  },
  {
   "property": "C142",
   "status": "proved",
   "theorems": [
    "C142_stopped",
    "C142_log_refuted",
    "C142_example"
   ],
   "note": "The logged status and signal are wrong (C142_log_refuted)."
  },
  {
   "property": "C143",
   "status": "proved",
   "theorems": [
    "C143_failed",
    "C143_never_refuted"
   ],
   "note": ""
  },
  {
   "property": "C144",
   "status": "proved",
   "theorems": [
    "C144_left_out",
    "C144_alone",
    "C144_together_refuted",
    "C144_example"
   ],
   "note": "Slot set with only the default container."
  },
  {
   "property": "C145",
   "status": "proved",
   "theorems": [
    "C145_balance",
    "C145_back",
    "C145_held",
    "C145_levels",
    "C145_example"
   ],
   "note": ""
  },
  {
   "property": "C146",
   "status": "partial",
   "theorems": [
    "C146_twice_refuted",
    "C146_both_refuted",
    "C146_moved_refuted",
    "C146_kill_refuted",
    "C146_uncounted"
   ],
   "note": "False: two changes of type, a type removed from a time-sharing job, a column changed meanwhile, a kill at the end. A launch killed before the update is harmless (C146_uncounted)."
  },
  {
   "property": "C147",
   "status": "proved",
   "theorems": [
    "C147_list",
    "C147_states",
    "C147_example"
   ],
   "note": ""
  },
  {
   "property": "C148",
   "status": "partial",
   "theorems": [
    "C148_by_id",
    "C148_refused_refuted",
    "C148_refused_example"
   ],
   "note": "False: a job in Error that never had resources (a refused reservation) is shown to nobody. C148_by_id gives the exact condition."
  },
  {
   "property": "C149",
   "status": "partial",
   "theorems": [
    "C149_default",
    "C149_to_error_refuted",
    "C147_example"
   ],
   "note": "False for toError. C149_default gives the exact condition."
  },
  {
   "property": "C150",
   "status": "partial",
   "theorems": [
    "C150_concerned",
    "C150_ended",
    "C150_running",
    "C150_waiting_refuted",
    "C150_state_refuted",
    "C147_example"
   ],
   "note": "False for waiting jobs submitted before the period, and when a state is asked for. Exact for ended jobs; everything listed concerns the period."
  },
  {
   "property": "C151",
   "status": "partial",
   "theorems": [
    "C151_details",
    "C151_nodes",
    "C151_known",
    "C151_others_refuted",
    "C151_unknown_refuted",
    "C151_example"
   ],
   "note": "False: /jobs/ID/resources ignores ID; an unknown job is answered with 500."
  },
  {
   "property": "C152",
   "status": "partial",
   "theorems": [
    "C152_besteffort",
    "C152_resources",
    "C152_example",
    "C152_or_refuted",
    "C152_parentheses_refuted"
   ],
   "note": "False when the condition of a group contains OR, or when parentheses of -p close those of the rules; proved otherwise. Types, queue and reservation: proved for all."
  },
  {
   "property": "C153",
   "status": "proved",
   "theorems": [
    "C153_admin",
    "C152_example"
   ],
   "note": ""
  },
  {
   "property": "C154",
   "status": "partial",
   "theorems": [
    "C154_pending",
    "C154_accepted_refuted",
    "C154_part_of_name_refuted"
   ],
   "note": "False: accepted reservations are not counted (the rule looks for Schedule, the state is Scheduled). Proved for those not yet examined."
  },
  {
   "property": "C155",
   "status": "proved",
   "theorems": [
    "C155_walltime",
    "C152_example"
   ],
   "note": ""
  },
  {
   "property": "C156",
   "status": "partial",
   "theorems": [
    "C156_deploy",
    "C156_standby_refuted",
    "C152_or_refuted"
   ],
   "note": "False for deploy=standby and with OR in a group (C152_or_refuted); proved otherwise."
  },
  {
   "property": "C157",
   "status": "proved",
   "theorems": [
    "C157_system",
    "C152_example"
   ],
   "note": ""
  },
  {
   "property": "C158",
   "status": "partial",
   "theorems": [
    "C158_types",
    "C158_newline_refuted",
    "C158_noop_refuted"
   ],
   "note": "False: a type may end with a newline, and noop is refused. C158_types gives the exact set of admitted types."
  },
  {
   "property": "C159",
   "status": "partial",
   "theorems": [
    "C159_order",
    "C159_number_refuted",
    "C159_glued_refuted"
   ],
   "note": "Proved when all numbers have the same number of digits; 10_ comes before 2_, and files are glued without a newline."
  },
  {
   "property": "C160",
   "status": "partial",
   "theorems": [
    "C160_drain",
    "C152_example",
    "C152_or_refuted",
    "C152_parentheses_refuted"
   ],
   "note": "False with OR in a group or unbalanced parentheses in -p; proved otherwise."
  },
  {
   "property": "C161",
   "status": "partial",
   "theorems": [
    "C161_date",
    "C161_example",
    "C161_stale_refuted",
    "C161_killed_refuted"
   ],
   "note": "Proved for every history in which -p does not touch the two dates and no command is killed; false when available_upto is set by -p after a maintenance and -m off is given again, and when -m on is killed after its first commit."
  },
  {
   "property": "C162",
   "status": "partial",
   "theorems": [
    "C162_log",
    "C162_example",
    "C162_killed_refuted"
   ],
   "note": "Proved for complete commands; false when -m off is killed after closing the log."
  },
  {
   "property": "C163",
   "status": "partial",
   "theorems": [
    "C163_log",
    "C163_example",
    "C163_killed_refuted"
   ],
   "note": "Proved for complete commands, at every date; false when a command is killed between its two commits."
  },
  {
   "property": "C164",
   "status": "partial",
   "theorems": [
    "C164_others",
    "C164_server",
    "C164_example",
    "C164_id_refuted"
   ],
   "note": "Proved unless -p id=... is given, which changes an identifier."
  },
  {
   "property": "C165",
   "status": "partial",
   "theorems": [
    "C165_resources",
    "C165_host_partial",
    "C165_example",
    "C165_hosts_refuted",
    "C165_file_refuted"
   ],
   "note": "Proved for -r and for a single -h; of several hosts only the last is waited for, and hosts read from a file keep their newline."
  },
  {
   "property": "C166",
   "status": "partial",
   "theorems": [
    "C166_add",
    "C166_example",
    "C166_properties_refuted"
   ],
   "note": "With several hosts only the last new resource gets the properties."
  },
  {
   "property": "C167",
   "status": "partial",
   "theorems": [
    "C167_exit",
    "C167_property",
    "C167_example",
    "C167_unknown_refuted",
    "C167_unknown_host_refuted"
   ],
   "note": "Unknown resources and hosts give 0."
  },
  {
   "property": "C168",
   "status": "proved",
   "theorems": [
    "C168_set",
    "C168_example"
   ],
   "note": "For commands that do not name id or network_address."
  },
  {
   "property": "C169",
   "status": "proved",
   "theorems": [
    "C169_state",
    "C169_example"
   ],
   "note": ""
  },
  {
   "property": "C170",
   "status": "partial",
   "theorems": [
    "C170_once",
    "C170_example",
    "C170_twice_refuted",
    "C170_killed_refuted",
    "C170_asked_refuted"
   ],
   "note": "Proved for complete runs that list each node once; false when a node has two next states, when a run is killed, and a hard reboot may follow in the same run without a new report."
  },
  {
   "property": "C171",
   "status": "partial",
   "theorems": [
    "C171_bound",
    "C171_example",
    "C171_total_refuted",
    "C171_zero_refuted"
   ],
   "note": "Proved for each kind separately and a limit of at least 1."
  },
  {
   "property": "C172",
   "status": "partial",
   "theorems": [
    "C172_progress",
    "C172_example",
    "C172_starve_refuted"
   ],
   "note": "Proved with a bound when the same nodes stay broken; nodes that break later can go first for ever."
  },
  {
   "property": "C173",
   "status": "proved",
   "theorems": [
    "C173_repaired",
    "C173_example"
   ],
   "note": ""
  },
  {
   "property": "C174",
   "status": "partial",
   "theorems": [
    "C174_option_wins",
    "C174_case",
    "C174_properties_refuted"
   ],
   "note": "Proved for every option but -p, where the script wins."
  },
  {
   "property": "C175",
   "status": "partial",
   "theorems": [
    "C175_directives",
    "C175_properties",
    "C175_unambiguous",
    "C175_directory_refuted",
    "C175_and_refuted"
   ],
   "note": "Proved for the options other than -d, which the command line always gives, and -p, whose values are joined with AND without parentheses."
  },
  {
   "property": "C176",
   "status": "partial",
   "theorems": [
    "C176_not_understood",
    "C176_no_directive",
    "C176_stagein_refuted",
    "C176_unreadable_refuted"
   ],
   "note": "Proved for lines not understood; --stagein is accepted and dropped, and a script that cannot be read is not noticed."
  },
  {
   "property": "C177",
   "status": "partial",
   "theorems": [
    "C177_param_file",
    "C177_array",
    "C177_script_file",
    "C177_single",
    "C177_case",
    "C177_zero_refuted",
    "C177_negative_refuted",
    "C177_both_refuted",
    "C177_empty_file_refuted"
   ],
   "note": "Proved when the submission succeeds; --array 0 makes a job, --array -2 and an empty file named in the script end with an exception, --array drops the file of the script."
  },
  {
   "property": "C178",
   "status": "partial",
   "theorems": [
    "C178_characters",
    "C178_case",
    "C178_newline_refuted"
   ],
   "note": "Proved but for a final newline in the names of files and of the user."
  },
  {
   "property": "C179",
   "status": "partial",
   "theorems": [
    "C179_connected",
    "C179_refused",
    "C179_accepted",
    "C179_case",
    "C179_failure_lost_refuted",
    "C179_no_host_refuted"
   ],
   "note": "Who and where: proved. The exit value of ssh is lost, and a cosystem job without hosts raises."
  },
  {
   "property": "C180",
   "status": "partial",
   "theorems": [
    "C180_key",
    "C180_forbidden_partial",
    "C180_case",
    "C180_export_refuted",
    "C180_array_refuted",
    "C180_crash_refuted"
   ],
   "note": "Which key: proved. Options without -k are refused for single jobs only; -e writes an empty file or raises after the job is made."
  },
  {
   "property": "C181",
   "status": "partial",
   "theorems": [
    "C181_param_file",
    "C181_id",
    "C181_refused_partial",
    "C181_case",
    "C181_key_files_refuted",
    "C181_reservation_refuted",
    "C181_comments_refuted",
    "C181_nothing_refuted"
   ],
   "note": "The identifier is right and without key an error means no job; the reservation, the files of keys and workdir are dropped, comments make jobs, 200 may come with no job."
  },
  {
   "property": "C182",
   "status": "partial",
   "theorems": [
    "C182_printed",
    "C182_refused_partial",
    "C182_keys_refuted",
    "C180_crash_refuted"
   ],
   "note": "Proved for success, and for failure without -k."
  },
  {
   "property": "C183",
   "status": "partial",
   "theorems": [
    "C183_date",
    "C183_refused",
    "C183_case",
    "C183_impossible_refuted"
   ],
   "note": "Proved, but dates out of the calendar end with an exception instead of a message."
  },
  {
   "property": "C184",
   "status": "proved",
   "theorems": [
    "C184_last_setting",
    "C184_proper",
    "C184_case"
   ],
   "note": "Lines as texts; the separators of lines other than newline and characters beyond ASCII left out."
  },
  {
   "property": "C185",
   "status": "partial",
   "theorems": [
    "C185_value",
    "C185_integer",
    "C185_text",
    "C185_text_refuted"
   ],
   "note": "Proved for texts without '#' and without quotes at their ends that are not numerals of Python; refuted in general: a '#' between quotes cuts the value, leading zeros, underscores and some texts (nan42, _1) are lost."
  },
  {
   "property": "C186",
   "status": "proved",
   "theorems": [
    "C186_failure"
   ],
   "note": ""
  },
  {
   "property": "C187",
   "status": "partial",
   "theorems": [
    "C187_defaults",
    "C187_given_refuted"
   ],
   "note": "Refuted for the values given to the constructor: they are ignored."
  },
  {
   "property": "C188",
   "status": "partial",
   "theorems": [
    "C188_namespace",
    "C188_case",
    "C188_case_refuted"
   ],
   "note": "Proved unless two keys of the namespace differ by the case of their letters only: then one is lost."
  },
  {
   "property": "C189",
   "status": "partial",
   "theorems": [
    "C189_address",
    "C189_injective",
    "C189_missing",
    "C189_hypotheses",
    "C189_case",
    "C189_ambiguous_refuted",
    "C189_password_refuted"
   ],
   "note": "Proved for PostgreSQL and parts without the separators of the address; refuted otherwise (nothing is quoted), and a password of digits loses its leading zeros."
  },
  {
   "property": "C190",
   "status": "partial",
   "theorems": [
    "C190_status",
    "C190_again",
    "C190_again_refuted"
   ],
   "note": "Proved for the first question; asked again after 15, the answer is the first error."
  },
  {
   "property": "C191",
   "status": "partial",
   "theorems": [
    "C191_rights",
    "C191_effect",
    "C191_no_user_refuted"
   ],
   "note": "Proved; but without USER in the environment the command fails even for oar. Who runs it is what the environment says."
  },
  {
   "property": "C192",
   "status": "partial",
   "theorems": [
    "C192_effect",
    "C192_unique",
    "C192_list",
    "C192_case",
    "C192_unknown_refuted",
    "C192_two_refuted"
   ],
   "note": "Proved for one option and a queue that is there; an unknown queue is not told, and of several options one is done without a word."
  },
  {
   "property": "C193",
   "status": "proved",
   "theorems": [
    "C193_text",
    "C193_impossible"
   ],
   "note": "NULL priorities and the lengths of texts left out."
  },
  {
   "property": "C194",
   "status": "proved",
   "theorems": [
    "C194_protected"
   ],
   "note": "Includes a crash at any point. Names are compared as PostgreSQL does (case matters)."
  },
  {
   "property": "C195",
   "status": "partial",
   "theorems": [
    "C195_delete",
    "C195_add",
    "C195_exception",
    "C195_case",
    "C195_together_refuted"
   ],
   "note": "Proved for deletions alone and additions alone, and exceptions; refuted for both in one command (the property is lost) and for a refusal after some deletions (exit value 0)."
  },
  {
   "property": "C196",
   "status": "partial",
   "theorems": [
    "C196_rename",
    "C196_crash_refuted",
    "C196_twice_refuted"
   ],
   "note": "Proved for one renaming without a crash; refuted for a crash between the two commits and for two renamings of the same property in one command."
  },
  {
   "property": "C197",
   "status": "partial",
   "theorems": [
    "C197_exists",
    "C197_type_refuted"
   ],
   "note": "The values are kept; the message about the type is wrong both ways."
  },
  {
   "property": "C198",
   "status": "proved",
   "theorems": [
    "C198_read",
    "C198_case"
   ],
   "note": "For hours within a day and ranges of days that do not go over the end of the week with hours (C57 says what happens otherwise)."
  },
  {
   "property": "C199",
   "status": "partial",
   "theorems": [
    "C199_accepted",
    "C199_no_month",
    "C199_strict_refuted",
    "C199_case"
   ],
   "note": "What is accepted is characterised; hours out of the day and what follows the seconds are accepted in silence."
  },
  {
   "property": "C200",
   "status": "proved",
   "theorems": [
    "C200_week",
    "C200_sets",
    "C200_unknown_set",
    "C200_case"
   ],
   "note": "For entries that do not overlap (C56 and C57 are about the rest)."
  },
  {
   "property": "C201",
   "status": "partial",
   "theorems": [
    "C201_number",
    "C201_whole_number",
    "C201_limits",
    "C201_hours_refuted",
    "C201_one_number_refuted",
    "C201_case",
    "C201_exponent",
    "C201_exponent_case",
    "C201_rules",
    "C201_rules_case"
   ],
   "note": "Whole numbers and decimals: proved; a fraction of an hour is lost, and the documented single number raises."
  },
  {
   "property": "C202",
   "status": "partial",
   "theorems": [
    "C202_all",
    "C202_mode",
    "C202_close",
    "C202_exact_partial",
    "C202_case",
    "C202_mode_case",
    "C202_exact_refuted",
    "C202_period_refuted",
    "C202_mode_refuted"
   ],
   "note": "Within one unit, exact for fractions over a power of two; 0.29*ALL of 100 is 28, ALL is not known in the rules of periods, and with another counting mode ALL is at most 1 (an assignment instead of an addition in ResourceSet)."
  },
  {
   "property": "C203",
   "status": "partial",
   "theorems": [
    "C203_read",
    "C203_refused",
    "C203_description_refuted",
    "C203_case"
   ],
   "note": "Proved for entries with a description; without one the program stops."
  },
  {
   "property": "C204",
   "status": "partial",
   "theorems": [
    "C204_alone_refuted",
    "C204_case"
   ],
   "note": "Refuted: a file with one-shot periods alone is accepted, and then no round can be made."
  },
  {
   "property": "C205",
   "status": "partial",
   "theorems": [
    "C205_rules",
    "C205_empty_set_refuted",
    "C205_case"
   ],
   "note": "Proved for sets that are not empty; with an empty set the default rules apply."
  },
  {
   "property": "C206",
   "status": "partial",
   "theorems": [
    "C206_free",
    "C206_number",
    "C206_case",
    "C206_ignored_refuted",
    "C206_all_refuted"
   ],
   "note": "Free, disjoint, within the condition and as many as the first number: proved. The level, the levels below and the other groups are not looked at, and ALL leaves a resource."
  },
  {
   "property": "C207",
   "status": "proved",
   "theorems": [
    "C207_order",
    "C207_case",
    "C209_next"
   ],
   "note": ""
  },
  {
   "property": "C208",
   "status": "partial",
   "theorems": [
    "C208_running_refuted",
    "C208_other_refuted",
    "C208_case"
   ],
   "note": "Refuted: a running job makes every cycle fail (attribute res_itvs does not exist), and the jobs in other states are not looked at."
  },
  {
   "property": "C209",
   "status": "partial",
   "theorems": [
    "C209_groups",
    "C209_next",
    "C209_missing_refuted",
    "C209_shared_refuted"
   ],
   "note": "Proved for one group; a group that cannot be served is dropped, and groups share their resources."
  },
  {
   "property": "C210",
   "status": "partial",
   "theorems": [
    "C210_queue_refuted",
    "C210_saved",
    "C210_case"
   ],
   "note": "What is written is what was decided; but the arguments are ignored and only the queue default is served."
  },
  {
   "property": "C211",
   "status": "proved",
   "theorems": [
    "C211_delete",
    "C211_case"
   ],
   "note": "The right exit status needs that the server answers; which of two different errors wins is C190."
  },
  {
   "property": "C212",
   "status": "partial",
   "theorems": [
    "C212_array",
    "C212_condition",
    "C212_usage",
    "C212_case",
    "C212_named_refuted",
    "C212_empty_refuted"
   ],
   "note": "Proved when the array or the condition selects something; identifiers given beside are dropped, and a selection of nothing is a success."
  },
  {
   "property": "C213",
   "status": "partial",
   "theorems": [
    "C213_signals",
    "C213_api_checkpoint",
    "C213_case",
    "C213_event_refuted",
    "C213_api_refuted"
   ],
   "note": "Proved for the command; the events call every signal a checkpoint, and the API cannot send a signal."
  },
  {
   "property": "C214",
   "status": "partial",
   "theorems": [
    "C214_injection_refuted",
    "C214_any_refuted",
    "C214_case"
   ],
   "note": "Refuted: the text of the user is part of a shell command run on the host by oar."
  },
  {
   "property": "C215",
   "status": "partial",
   "theorems": [
    "C215_rights",
    "C215_force",
    "C215_besteffort",
    "C215_case",
    "C215_unknown_refuted",
    "C215_not_running_refuted"
   ],
   "note": "Proved for jobs that exist (-b: not listed twice); an unknown job is an exception after the first changes, and -b on a job that does not run is a silent success."
  },
  {
   "property": "C216",
   "status": "partial",
   "theorems": [
    "C216_hold",
    "C216_resume",
    "C216_api_rhold",
    "C216_case",
    "C216_refusal_refuted",
    "C216_api_refuted"
   ],
   "note": "What is recorded is characterised for every list; requests before a refusal are recorded without telling the server, and the API takes any word for hold."
  },
  {
   "property": "C217",
   "status": "proved",
   "theorems": [
    "C217_text",
    "C217_usage",
    "C217_status",
    "C217_accepted",
    "C217_granted",
    "C217_case"
   ],
   "note": "The configuration has a largest increase for the queue; unique identifiers of jobs, of moldables and one change per job. For a job that is not past its end (the others: C66_overdue_refuted)."
  },
  {
   "property": "C218",
   "status": "partial",
   "theorems": [
    "C218_reads_only",
    "C218_shown_partial",
    "C218_refuted"
   ],
   "note": "Proved that nothing is changed, and for unknown jobs and jobs without a walltime; refuted for every job that has one: the command ends with an exception."
  },
  {
   "property": "C219",
   "status": "partial",
   "theorems": [
    "C219_called_partial",
    "C219_by_hand_partial",
    "C219_refuted",
    "C219_case"
   ],
   "note": "Proved without quotas, for dates below 2^53; with QUOTAS=yes the command always raises."
  },
  {
   "property": "C220",
   "status": "partial",
   "theorems": [
    "C220_lines",
    "C220_state_partial",
    "C220_state_refuted",
    "C220_case"
   ],
   "note": "Lines, counts and jobs are proved; the state is that of the first resource of the host, right when all have the same."
  },
  {
   "property": "C221",
   "status": "partial",
   "theorems": [
    "C221_hosts",
    "C221_all",
    "C221_ids",
    "C221_case",
    "C221_mixed_refuted",
    "C221_summary_refuted"
   ],
   "note": "Proved for hosts alone, for nothing, and for identifiers and conditions; hosts given with -r or --sql are ignored, and --sql with -S shows nothing."
  },
  {
   "property": "C222",
   "status": "partial",
   "theorems": [
    "C222_refuted",
    "C222_unknown_refuted"
   ],
   "note": "Refuted: the status is always 0."
  },
  {
   "property": "C223",
   "status": "partial",
   "theorems": [
    "C223_by_id",
    "C223_by_host",
    "C223_format_refuted"
   ],
   "note": "Proved by identifier and for JSON or YAML; the display of the hosts shows Absent for Standby."
  },
  {
   "property": "C224",
   "status": "proved",
   "theorems": [
    "C224_since",
    "C224_last"
   ],
   "note": "The date is already a number (C30 to C32 are about dates as texts)."
  },
  {
   "property": "C225",
   "status": "partial",
   "theorems": [
    "C225_values",
    "C225_added",
    "C225_fails_partial",
    "C225_empty_refuted",
    "C225_host_refuted",
    "C225_case"
   ],
   "note": "Proved: the arguments are kept and each such option gets a value; an empty argument raises IndexError, and oarnodes -e host takes the host for a date."
  },
  {
   "property": "C226",
   "status": "proved",
   "theorems": [
    "C226_all",
    "C226_user"
   ],
   "note": "The database returns the groups in the order of their seconds, ties in any order; -S is a predicate on rows. A window that ends exactly at the first second of the period is not of the period, as in the code."
  },
  {
   "property": "C227",
   "status": "partial",
   "theorems": [
    "C227_of_largest",
    "C227_partial",
    "C227_case",
    "C227_refuted"
   ],
   "note": "The windows are those of the kind with the most seconds; right when used windows are asked ones and less was used than asked; refuted for a job that went past its end into another window."
  },
  {
   "property": "C228",
   "status": "partial",
   "theorems": [
    "C228_projects_partial",
    "C228_refuted",
    "C227_case"
   ],
   "note": "Proved without -S; with -S the projects ignore the condition."
  },
  {
   "property": "C229",
   "status": "partial",
   "theorems": [
    "C229_partial",
    "C229_refuted",
    "C227_case"
   ],
   "note": "Proved when no window straddles the common date; refuted where midnight is not a multiple of a day since 1970."
  },
  {
   "property": "C230",
   "status": "proved",
   "theorems": [
    "C230_jobs_to_report",
    "C230_case"
   ],
   "note": "The accounting table is empty before the update, and the period contains the finished jobs and their walltimes."
  },
  {
   "property": "C231",
   "status": "partial",
   "theorems": [
    "C231_read",
    "C231_bad",
    "C231_rest_refuted",
    "C231_impossible_refuted",
    "C231_case"
   ],
   "note": "Proved for texts that begin with two dates of the calendar and for those that do not; what follows is not read, and dates out of the calendar raise an exception."
  },
  {
   "property": "C232",
   "status": "partial",
   "theorems": [
    "C232_last_partial",
    "C232_written_partial",
    "C232_small_refuted",
    "C232_case"
   ],
   "note": "Which of several jobs that start together is not said. Refuted for a Karma written with an exponent."
  },
  {
   "property": "C233",
   "status": "partial",
   "theorems": [
    "C233_partial",
    "C233_formats",
    "C233_refuted",
    "C235_case"
   ],
   "note": "Proved for the jobs that exist, in the lines and in the dictionary of JSON and YAML; refuted for an id that is no job: nothing is said and the status is 0."
  },
  {
   "property": "C234",
   "status": "proved",
   "theorems": [
    "C234_events",
    "C234_formats",
    "C234_case"
   ],
   "note": "The database returns the events by job, then by date, those of the same date in any order."
  },
  {
   "property": "C235",
   "status": "partial",
   "theorems": [
    "C235_partial",
    "C235_shown",
    "C235_case",
    "C235_refuted"
   ],
   "note": "Proved for -j with distinct ids and for an array; a job given twice has its resources shown twice."
  },
  {
   "property": "C236",
   "status": "partial",
   "theorems": [
    "C236_exited",
    "C236_killed",
    "C236_none",
    "C236_refuted"
   ],
   "note": "The value of exit and the signal are each shown right; which of the two it was cannot be told."
  },
  {
   "property": "C237",
   "status": "partial",
   "theorems": [
    "C237_partial",
    "C237_not_begun",
    "C237_case",
    "C237_refuted"
   ],
   "note": "Proved for jobs on their resources, over or not begun; refuted for a suspended job, which shows a dash."
  },
  {
   "property": "C238",
   "status": "partial",
   "theorems": [
    "C238_partial",
    "C238_unknown",
    "C238_case",
    "C238_refuted"
   ],
   "note": "Proved for known columns, each given once; an unknown column raises KeyError, and one given twice is shown once under its last label."
  },
  {
   "property": "C239",
   "status": "partial",
   "theorems": [
    "C239_partial",
    "C239_one",
    "C239_case",
    "C239_refuted"
   ],
   "note": "Proved for one group, and for groups each with a property, different from that before; refuted otherwise: two groups read as one."
  },
  {
   "property": "C240",
   "status": "partial",
   "theorems": [
    "C240_conflict",
    "C240_hosts",
    "C240_first",
    "C240_case",
    "C240_gantt_refuted",
    "C240_resources_refuted"
   ],
   "note": "Proved but for the two options: a badly written --gantt raises AttributeError, and -r without -f changes nothing."
  },
  {
   "property": "C241",
   "status": "partial",
   "theorems": [
    "C241_earliest_partial",
    "C241_case",
    "C241_tie_case"
   ],
   "note": "Proved when every alternative has one group and can be satisfied some day; C242 and C245 refute the rest."
  },
  {
   "property": "C242",
   "status": "partial",
   "theorems": [
    "C242_unsatisfiable_refuted",
    "C242_alternative_refuted",
    "C242_case"
   ],
   "note": "Refuted: a job that can never be satisfied is given a date and no resource, and such an alternative is preferred to one that could be satisfied when it is shorter."
  },
  {
   "property": "C243",
   "status": "proved",
   "theorems": [
    "C243_no_double",
    "C243_nothing_lost",
    "C243_case"
   ],
   "note": "For every list of distinct jobs, with or without time-sharing and placeholders: each receives only what is free, and nothing twice."
  },
  {
   "property": "C244",
   "status": "partial",
   "theorems": [
    "C244_long_refuted",
    "C244_case"
   ],
   "note": "Refuted: one alternative longer than the slot set raises NameError and no job of the cycle is scheduled; C241 gives the totality without such alternatives."
  },
  {
   "property": "C245",
   "status": "partial",
   "theorems": [
    "C245_groups_partial",
    "C245_missing_refuted",
    "C245_shared_refuted"
   ],
   "note": "Each group receives what it asks for or nothing; refuted: a missing group does not prevent the placement, and two groups can be given the same resources."
  },
  {
   "property": "C246",
   "status": "partial",
   "theorems": [
    "C246_inner_refuted",
    "C246_case"
   ],
   "note": "Refuted: a cycle with a job inside a container fails, since containers open no slot set."
  },
  {
   "property": "C247",
   "status": "partial",
   "theorems": [
    "C247_cycle_partial",
    "C247_case"
   ],
   "note": "Proved when the jobs already scheduled come by start; the query sorts them by another date, see C06. The very last second of the horizon is excepted for the dates of availability, see C55."
  },
  {
   "property": "C248",
   "status": "partial",
   "theorems": [
    "C248_dates_partial",
    "C248_case"
   ],
   "note": "Proved for requests of one group shorter than the time there is, when the jobs already scheduled come by start; refuted otherwise by C244, C246 and C06."
  }
 ]
}