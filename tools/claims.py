c("C01","proved","C01_partition C01_one_slot_per_instant","")
c("C02","proved","C02_split_before C02_split_after C02_halves","")
c("C03","proved","C03_insert_job C03_add_job","")
c("C04","partial","C04_end_refuted C04_end_partial","False as stated: when a slot ends exactly at start+walltime the whole slot is taken, one second too long (C04_end_refuted); exact otherwise (C04_end_partial).")
c("C05","proved","C05_insert_sorted","")
c("C07","proved","C07_slot_at C07_slot_at_from C07_encompassing_range","")
c("C08","proved","C08_intersection","")
c("C09","partial","C09_window_refuted C09_window_partial","False as stated (witness); holds when no slot of the window makes the accumulated set empty.")
c("C10","proved","C10_windows","")
c("C11","proved","C11_first_blocks C11_nonempty_iff","")
c("C12","proved","C12_all_best_half C12_only_free","")
c("C13","proved","C13_hierarchical_exact C13_only_free C13_resource_count","Exactness for nested levels; 'only free resources' without hypothesis.")
c("C14","proved","C14_complete C14_nesting_needed","For nested levels; C14_nesting_needed shows the hypothesis is necessary in the code.")
c("C15","proved","C15_all_groups C15_within C15_refused_iff","")
c("C16","partial","C16_groups_disjoint_refuted C16_groups_disjoint_partial","False as stated: two groups with overlapping eligible resources get the same resources. Holds when the groups' eligible resources are disjoint.")
c("C49","partial","C49_timesharing_refuted C49_timesharing_partial C49_container_adds","False as stated: only the first job inserted under a given (user,name) is recorded as shareable. Proved for the first one, with the frame for all other records.")
c("C50","partial","C50_placeholder_refuted C50_placeholder_partial C50_allowed_not_twice","First half false when two placeholder jobs bear the same name (the second replaces the record); otherwise proved. Second half proved.")
c("C51","proved","C51_slot_counters","")
c("C06","partial","C06_any_order_refuted_crash C06_any_order_refuted_silent C06_sorted_partial C06_one_by_one_partial","False as stated: the table is ordered by jobs.start_time (0 for jobs not started), so the scheduler can crash or forget a job's window. Proved when the list is ordered by predicted start, and for one call per job.")
c("C52","proved","C52_loaded_jobs C52_suspended_time","")
c("C53","partial","C53_suspended_release_refuted C53_suspended_release_partial","False as stated: only the last job of the list is treated. Proved for that one.")
c("C54","partial","C54_container_refuted C54_timesharing_container_refuted C54_container_partial","False for containers already running (window too long) and for time-sharing containers (crash). Proved for plain containers not yet started.")
c("C55","proved","C55_available_upto","")
c("C17","proved","C17_no_double_booking C17_timesharing_refuted","Proved for slot sets of plain jobs, as stated. C17_timesharing_refuted shows that it does not extend to time-sharing jobs.")
c("C18","proved","C18_earliest","")
c("C19","partial","C19_cache_refuted C19_cache_transparent_partial","False as stated: a container of the round that reopens an existing slot set makes the cached positions stale. Proved when no container reopens an existing slot set.")
c("C20","proved","C20_moldable","")
c("C21","partial","C21_unplaced_dependency_refuted C21_order_refuted C21_tail_refuted C21_dependency_partial","False as stated (dependency not placed, dependency treated later, dependency ending one second before the end of a slot). Proved when none of the three happens.")
c("C56","partial","C56_container_refuted C56_inner_refuted C56_round_completes_partial","False as stated: an unplaceable container or an unknown inner name stops the round with an exception. Proved for plain jobs without quotas or containers.")
c("C22","proved","C22_counters C22_other_types C22_slot_counters","")
c("C23","partial","C23_window_within_limits_partial C23_window_accepted C23_placed_within_limits_partial C23_unlisted_type_refuted","Proved for rules on '*' or on a job type listed in Quotas.job_types, up to the placement by the scheduler; C23_unlisted_type_refuted: rules on other types are never enforced.")
c("C24","partial","C24_selection C24_found_refuted C24_second_type_refuted C24_found_partial C24_selected_applies","False as stated (no backtracking to '*', only the first job type looked at). Exact characterisation of the rule selected, and existence when every branch has its '*' rule.")
c("C25","partial","C25_counted_once_refuted C25_counted_once_partial","False as stated: a job spanning two slots of the window counts twice. Exact on one-slot windows; longer windows err on the safe side (C23).")
c("C26","partial","C26_rules_at_refuted C26_slots_crash_refuted C26_rules_at_selected C26_rules_at_partial","False as stated: the scan takes the first period beginning at or after the date, and the remaining duration ignores the period's beginning; the slot construction can stop with an AssertionError. Exact characterisation of what is selected; right at period starts and in the last period.")
c("C27","proved","C27_default_covers C27_rules_of_instant C27_check","")
c("C57","partial","C57_entry_partial C57_entry_refuted","False for hours over midnight and for day intervals over the week-end with hours (they cover nothing). Proved otherwise. The reading of the text is C198.")
c("C28","proved","C28_each_second C28_total C28_update","int(start/window) is a float division in Python, exact below 2^53.")
c("C29","partial","C29_marked_refuted C29_charged_once_partial","False as stated: every job not accounted is marked, running ones included, which are then never charged. Proved: charged jobs are marked, never charged twice; exactness when all the unaccounted jobs are charged.")
c("C58","partial","C58_interrupted_refuted_twice C58_interrupted_refuted_lost C58_interrupted_partial C58_uninterrupted","False as stated: creating a window commits, so a kill can double or cut a job's charge. Proved when all the windows exist already.")
c("C59","proved","C59_rebuild","")
c("C30","proved","C30_hms C30_sql_roundtrip C30_walltime_roundtrip C30_walltime_short C30_signed C30_signed_read C30_signed_read_refuted C30_compound","The signed text is not readable back for negative durations (C30_signed_read_refuted), which is outside the property.")
c("C31","proved","C31_finished_stays C31_unique_ids C31_requests_ignored C31_end_after_start","Over all the modelled actions (submission, state changes, deletion, hold/resume/checkpoint, Sarko, Leon, NodeChangeState, end of job).")
c("C32","proved","C32_timeline C32_no_stray_entry","Over any history of the modelled actions, from the empty database, with a clock that does not go back. Crashes: see C61.")
c("C60","proved","C60_durations_add_up","")
c("C61","partial","C61_crash_refuted","False: the state is committed before the log; a finished job's log is then never repaired. No positive part is claimed.")
c("C62","partial","C62_end_date_refuted","False: an extermination already decided moves the end date of a job that ended meanwhile. C31_requests_ignored is the part that holds (state changes).")
c("C33","proved","C33_only_owner C33_refused_no_effect C33_stranger C33_owner_deletes C33_walltime_only_owner C33_walltime_refused_no_effect C33_force_allowed","Deletion, checkpoint, hold, resume, walltime changes.")
c("C36","partial","C36_suspended_refuted C36_walltime_partial C36_overrun_killed_partial","False for jobs that were suspended once (the suspension time replaces the walltime). Proved, both ways, for jobs never suspended.")
c("C37","partial","C37_stuck_refuted C37_one_request C37_moves C37_fragged_final C37_progress_partial","False as stated: the request of a job that ends by itself before Leon sees it stays LEON for ever. The moves and the finality of FRAGGED are proved for every history; progress for a live job.")
c("C38","partial","C38_hold_waiting_refuted C38_hold_running_refuted C38_hold_waiting_partial C38_resume_partial","False for running jobs in both directions (the event types are swapped in NodeChangeState). Hold of a waiting job and resume are proved.")
c("C63","partial","C63_no_host_refuted C63_end_reaches_final_partial","False when the exit code's message names the first host of a job without hosts (IndexError). Proved otherwise.")
c("C34","partial","C34_overdue_refuted C34_books_partial","False for a late job with a pending reduction (pending grows in magnitude). Balanced for every request; sign and magnitude kept for extensions, and for reductions of jobs that are not late.")
c("C35","partial","C35_twice_refuted C35_late_refuted C35_one_request_partial","False as stated: a new request erases the granted amount; a pending reduction of a late job follows the clock. Proved: one accepted extension gives at most maximum - granted, over any number of rounds.")
c("C64","partial","C64_never_processed_refuted C64_enabled_stops_refuted","False for every configuration (\"YES\" against \"yes\", and a call with one argument out of three). No positive part.")
c("C65","proved","C65_no_collision C65_inner","")
c("C66","partial","C66_overdue_refuted C66_recorded_partial","False for a late job. Proved when the job is not past its end.")
c("C67","partial","C67_blocked_refuted C67_all_treated_partial","False for timesharing=user,* / name,* jobs and for inner jobs whose container is over. Proved otherwise.")
c("C39","partial","C39_fifo C39_merged C39_spaced C39_remembered C39_reminder C39_served_partial C39_starvation_refuted","Order, no loss, merging, spacing and memory hold for every run. 'Eventually' is false when the node changes keep asking for new rounds (C39_starvation_refuted), proved with a bound otherwise.")
c("C68","partial","C68_message_refuted C68_child_refuted C68_keeps_running_partial","False: null, a message without command, a text that is no regular expression, or a child killed by a signal stop the server. Proved for ordinary commands (known or not) and known exit codes.")

c("C40","proved","C40_one_executor C40_no_loss C40_bounded C40_progress","For every sequence of messages, timeouts and process ends. The bound is the configured maximum plus one (C69).")
c("C41","partial","C41_race_refuted C41_limit_refuted C41_in_order_partial","False when a process ends, or the maximum is reached, while the commander goes through its list. Proved when processes end only while it waits and the maximum is not below the number of jobs.")
c("C69","partial","C69_one_too_many_refuted C40_bounded","False by one, for every maximum; maximum + 1 is proved to be the bound.")
c("C42","partial","C42_tokens_partial C42_bad_token C42_identity C42_no_return C42_dst_refuted C42_broken_file_refuted","Proved for time zones whose clock is increasing (no summer time); false around the spring change (dates in UTC are read as local dates) and when the revocation file is broken.")
c("C70","partial","C70_upload_refuted C70_space_refuted C70_ls_refuted C70_read_remove_partial C70_upload_partial","False for names with ';' (upload), with a space, comma, dollar or backquote (other requests), and for listings. Proved for plain names.")
c("C71","partial","C71_threads_refuted C71_processes_partial","False for two threads of one server process (POSIX locks belong to the process). Proved when each request is served by its own process.")
c("C72","partial","C72_pages C72_total C72_not_found C72_ls_page C72_ls_total_refuted","Proved for database answers; the total of directory listings is false.")
c("C45","partial","C45_alive_refuted C45_delay_partial","False: resources that have been Alive for longer than the delay are declared dead too (the query does not look at the state). Proved: the delay, the option, and that nothing else is changed.")
c("C73","partial","C73_timeline_partial C73_sqlite_refuted C73_api_create_refuted C73_unknown_refuted","Proved for every history on PostgreSQL with resources created by the tools; false on SQLite, for resources created through the API, and when the state of an unknown resource is set.")
c("C74","partial","C74_applied_partial C74_lost_refuted C74_blocked_refuted","Proved when nothing is requested during the pass and the requested states exist; false otherwise.")
c("C75","partial","C75_finaud_refuted C75_resurrected_refuted C75_suspected_refuted C75_finaud_partial C75_finaud_works","False on nodes with resources in different states, and when a node is suspected. Proved for nodes all of whose resources are withdrawn.")
c("C76","partial","C76_deleted_partial C76_only C76_suspected C76_api_refuted","Proved for requested changes; false for a change through the API.")
c("C77","proved","C77_admin_only","")
c("C78","partial","C78_dead_only C78_gone C78_others_partial C78_running_refuted","False for jobs that also run elsewhere. The rest is proved.")
c("C43","partial","C43_tables_partial C43_down_refuted C43_hold_refuted","Proved when the resources of active jobs are Alive or Absent. False when one is down, and for held reservations.")
c("C44","partial","C44_kill_first C44_kill_only C44_once C44_due_partial C44_effect C44_down_refuted C44_checkpoint_refuted C44_twice_refuted","A launch is sent at most once, after the predicted start, with no Absent resource. Other states of a resource do not prevent the launch; checkpointed best-effort jobs stop the round.")
c("C79","partial","C79_own_partial C79_down_refuted","Proved for resources in use; false for the others, which all count as the first one.")
c("C80","partial","C80_end_partial C80_late_refuted","The end is the announced one plus the security time.")
c("C81","partial","C81_all_there_partial C81_unnoticed_refuted C81_wait_refuted C81_reduce_refuted","False: missing resources are not noticed, or stop the round, or all resources are given up.")
c("C82","partial","C82_expired_partial C82_only_expired C82_pushed_refuted","Only expired reservations are put in error; one with no resource never expires.")
c("C83","partial","C83_share_refuted","False: the declaration is never seen.")
c("C84","partial","C84_accepted C84_decision C84_round C84_round_ends C84_security_refuted","Proved for plain reservations within the horizon; the security time after a reservation is not kept.")
c("C85","partial","C85_waiting_job C85_reservation_refuted","Proved for waiting jobs; false for reservations.")
c("C86","partial","C86_within_limits_partial C86_unlisted_type_refuted","For rules on configured job types, as C23; false for rules on other types (C86_unlisted_type_refuted).")
c("C87","partial","C87_horizon_refuted","False for a start after 2038-01-19.")
c("C46","proved","C46_round_order C46_once","Exact rationals instead of floats; custom plugins not modelled.")
c("C47","proved","C47_groups C47_active","")
c("C88","proved","C88_less_consumed_first C88_karma_value","")
c("C89","partial","C89_share_refuted C89_share_partial","False when an accounting window ends exactly at the time of the round; proved otherwise.")
c("C90","partial","C90_user_target_refuted C90_no_target_partial","False: any target for a user with a waiting job makes the round fail (a text is divided by a number).")
c("C91","partial","C91_age_refuted C91_age_monotone_partial","False for the first seven days (max instead of min); the age never lowers the priority.")
c("C92","partial","C92_work_refuted C92_missing_refuted C92_formula C92_plain_partial","False: work has no effect above 1, and jobs of the database lack the attributes.")
c("C93","proved","C93_within_limit C93_behind_limit","With the order by id; jobs behind the limit are never considered.")
c("C48","partial","C48_one_special C48_two_levels_refuted C48_single_group","Two special levels are refused by the parser; one special level beside others is refused by the estimate when the request has one group only.")
c("C94","partial","C94_understood C94_comma_refuted C94_second_comma_refuted","Proved for conditions without comma, plus and closing brace; false with a comma in a condition or a second comma.")
c("C95","partial","C95_conditions C95_some_group C95_single_group_partial C95_two_groups_refuted","Proved for one group per instance; false with two groups.")
c("C96","proved","C96_numbering C96_recorded C96_bounds","Identifiers below 100000 (the size of the arrays).")
c("C97","partial","C97_condition_exact C97_condition_partial C97_condition_refuted","False when a resource satisfying the condition is Dead or Suspected: it stands for the first resource.")
c("C98","partial","C98_loaded_ranks C98_first_resource_refuted C98_usable_partial","False when a resource of the job is Dead or Suspected: it stands for the first resource.")
c("C99","proved","C99_level","")
c("C100","partial","C100_group_partial C100_admin C100_script_partial C100_group_refuted C100_admin_refuted","False with an OR outside parentheses in the job's or group's condition; the user's text is parenthesised before an administrator's condition.")
c("C101","partial","C101_round_trip_partial C101_repeated_group C101_order_of_rows_refuted C101_concurrent_refuted","Proved when the database gives identifiers in the order of insertion (the code asks for no order) and for submissions one after the other; false otherwise.")
c("C102","proved","C102_waiting_described C102_reversed_example","For any order in which the database gives identifiers back; concurrent sessions not modelled.")
c("C103","partial","C103_half_job_refuted C103_log_refuted C103_array_refuted C103_left_behind_partial","False; what is left incomplete is in state Hold.")
c("C104","proved","C104_array C104_keyed_array C104_array_types C104_job_types","With identifiers read back in the order of insertion.")
c("C105","partial","C105_twice_refuted C105_once_partial C105_admin","False when the type is given twice (list.remove); proved for lists without repetition.")
c("C106","partial","C106_moldable_array_refuted C106_refused_array_refuted C106_reservation_lost C106_single C106_refused_early","False for arrays; proved for single jobs.")
c("C107","partial","C107_empty_partial C107_null_refuted C107_other_type_refuted C107_estimate_differs_refuted C107_both","False when the condition is NULL (no -p option); proved for the empty text.")
c("C108","partial","C108_undescribed_refuted C108_alone_refuted C108_resumed_refuted","False: the reading or the placement raises.")
c("C109","partial","C109_sleep C109_only_if_configured C109_always_on_refuted","The exact set is proved; a resource never to be switched off is halted with its node if another resource of the node may be.")
c("C110","partial","C110_wake C110_not_both_partial C110_both_refuted C110_wake_command_refuted","The exact set is proved; both requests are possible if the wake-up time exceeds the sleep time; the code tests the sleep command to decide wake-ups.")
c("C111","partial","C111_keepalive_partial C111_wakes_partial C111_wakes_only C111_refuted","Proved when all the resources of a node have the same state and next state; false otherwise (the node counts twice).")
c("C112","partial","C112_one_at_a_time C112_while_booting C112_waiting_for_ever_refuted","Proved, except that a command that had to wait is launched again for ever: it is never taken off the list.")
c("C113","partial","C113_busy_halted_refuted","False: a halt that had to wait is launched later whatever the node does then.")
c("C114","partial","C114_stuck_refuted C114_failed_command C114_restart C114_woken_partial","False when the halt command fails, or when the manager restarts while one runs: the node is never commanded again. Proved when nothing is recorded as running on the node.")
c("C115","partial","C115_goes_on C115_suspected C115_unknown_command_refuted","Proved, except for unknown commands, which end the manager.")
c("C116","partial","C116_timeout C116_defined C116_couples C116_first_couple_refuted C116_wrong_couple_refuted","Proved for well-formed options that give a value for 1; otherwise an exception.")
c("C117","partial","C117_same_request C117_same_order C117_read_back_partial C117_example C117_walltime_refuted","Proved, for the histories where rows come back in the order of insertion; but a walltime changed while the job ran is copied instead of the one asked for.")
c("C118","partial","C118_dependants C118_own_dependencies_refuted C118_own_dependencies","The jobs that required it are proved; its own dependencies are never copied.")
c("C119","partial","C119_never_accounted C119_accounted_refuted C119_not_yet_accounted_partial","False: the mark 'accounted' is copied, so a job resubmitted after the accounting of the first run is never accounted.")
c("C120","partial","C120_refused C120_allowed C120_own_key_refuted","Exact condition proved; when the server resubmits, the keys of the owner's own jobs count as those of another user.")
c("C121","proved","C121_at_most_once C121_events C121_example","")
c("C122","partial","C122_who C122_when C122_deleted_refuted C122_finished_refuted C122_example","Exact condition proved for jobs without key; deleted jobs, and jobs run to their end whose server epilogue timed out, are run again.")
c("C123","proved","C123_blamed C123_first C123_example","")
c("C124","partial","C124_all_treated_partial C124_example C124_blocked_refuted C124_lost_refuted","Proved if the jobs, keys and nodes of the events exist; a job without node blocks the treatment for ever, and events added meanwhile may be lost.")
c("C125","proved","C125_stops C125_others C125_list C125_example","")
c("C126","proved","C126_once C126_recorded_first C126_example","Sequential requests; Commander runs one launcher per job at a time (C-claims on Commander).")
c("C127","partial","C127_ignored_refuted C127_recorded_partial C127_runs_anyway C127_example","The failure is recorded before the start, but the result of the prologue has no influence on the start.")
c("C128","partial","C128_silent C128_reported_partial C128_silent_refuted C128_example","The only silent failures are identified: a reservation without alive node (TypeError) and a job without node whose executor fails (IndexError).")
c("C129","partial","C129_installed_partial C129_reservation_partial C129_timeout_refuted C129_timeout_example C129_example","Proved when the cpuset command does not time out; after a timeout the job is started without cpuset.")
c("C130","partial","C130_checked_partial C130_example C130_reservation_refuted","Proved except for reservations, which can be started on a node just found dead, or outside of their nodes.")
c("C131","partial","C131_told C131_not_deleted_refuted C131_example","The client is told in every case; a job whose client is lost keeps running: no deletion is requested.")
c("C132","proved","C132_challenge C132_wrong_challenge C132_accepted C132_other_states C132_no_start C132_to_launch_refuted C132_example","A report for a job still in toLaunch is treated as a launch request.")
c("C133","partial","C133_taktuk C133_nmap C133_example C133_nmap_example C133_same_address_refuted C133_never_suspects_refuted C133_methods_refuted","Proved for taktuk and nmap (distinct addresses); the other three methods never suspect any host.")
c("C134","partial","C134_exit_code C134_nodes_partial C134_epilogue_refuted C134_example","Proved unless the epilogue fails: then neither its failure nor the bad nodes are recorded.")
c("C135","partial","C135_cleaned_partial C135_end_partial C135_left_refuted C135_example","Not removed when a node stops answering between the two checks, nor for noop jobs.")
c("C136","proved","C136_address C136_predicted C136_verdicts C136_example","")
c("C137","proved","C137_ends C137_blocked_refuted C137_api_refuted C137_resume_refuted C137_example","The consequences (unreachable client, API reservation, no resume script) are the _refuted theorems.")
c("C138","proved","C138_orders C138_once C138_again","")
c("C139","proved","C139_shown C139_fresh C139_cut_refuted C139_example","A copy cut between its two commits shows nothing at all.")
c("C140","proved","C140_deleted C140_recorded","")
c("C141","proved","C141_code","")
c("C142","proved","C142_stopped C142_log_refuted C142_example","The logged status and signal are wrong (C142_log_refuted).")
c("C143","proved","C143_failed C143_never_refuted","")
c("C144","proved","C144_left_out C144_alone C144_together_refuted C144_example","Slot set with only the default container.")
c("C145","proved","C145_balance C145_back C145_held C145_levels C145_example","")
c("C146","partial","C146_twice_refuted C146_both_refuted C146_moved_refuted C146_kill_refuted C146_uncounted","False: two changes of type, a type removed from a time-sharing job, a column changed meanwhile, a kill at the end. A launch killed before the update is harmless (C146_uncounted).")
c("C147","proved","C147_list C147_states C147_example","")
c("C148","partial","C148_by_id C148_refused_refuted C148_refused_example","False: a job in Error that never had resources (a refused reservation) is shown to nobody. C148_by_id gives the exact condition.")
c("C149","partial","C149_default C149_to_error_refuted C147_example","False for toError. C149_default gives the exact condition.")
c("C150","partial","C150_concerned C150_ended C150_running C150_waiting_refuted C150_state_refuted C147_example","False for waiting jobs submitted before the period, and when a state is asked for. Exact for ended jobs; everything listed concerns the period.")
c("C151","partial","C151_details C151_nodes C151_known C151_others_refuted C151_unknown_refuted C151_example","False: /jobs/ID/resources ignores ID; an unknown job is answered with 500.")
c("C152","partial","C152_besteffort C152_resources C152_example C152_or_refuted C152_parentheses_refuted","False when the condition of a group contains OR, or when parentheses of -p close those of the rules; proved otherwise. Types, queue and reservation: proved for all.")
c("C153","proved","C153_admin C152_example","")
c("C154","partial","C154_pending C154_accepted_refuted C154_part_of_name_refuted","False: accepted reservations are not counted (the rule looks for Schedule, the state is Scheduled). Proved for those not yet examined.")
c("C155","proved","C155_walltime C152_example","")
c("C156","partial","C156_deploy C156_standby_refuted C152_or_refuted","False for deploy=standby and with OR in a group (C152_or_refuted); proved otherwise.")
c("C157","proved","C157_system C152_example","")
c("C158","partial","C158_types C158_newline_refuted C158_noop_refuted","False: a type may end with a newline, and noop is refused. C158_types gives the exact set of admitted types.")
c("C159","partial","C159_order C159_number_refuted C159_glued_refuted","Proved when all numbers have the same number of digits; 10_ comes before 2_, and files are glued without a newline.")
c("C160","partial","C160_drain C152_example C152_or_refuted C152_parentheses_refuted","False with OR in a group or unbalanced parentheses in -p; proved otherwise.")
c("C161","partial","C161_date C161_example C161_stale_refuted C161_killed_refuted","Proved for every history in which -p does not touch the two dates and no command is killed; false when available_upto is set by -p after a maintenance and -m off is given again, and when -m on is killed after its first commit.")
c("C162","partial","C162_log C162_example C162_killed_refuted","Proved for complete commands; false when -m off is killed after closing the log.")
c("C163","partial","C163_log C163_example C163_killed_refuted","Proved for complete commands, at every date; false when a command is killed between its two commits.")
c("C164","partial","C164_others C164_server C164_example C164_id_refuted","Proved unless -p id=... is given, which changes an identifier.")
c("C165","partial","C165_resources C165_host_partial C165_example C165_hosts_refuted C165_file_refuted","Proved for -r and for a single -h; of several hosts only the last is waited for, and hosts read from a file keep their newline.")
c("C166","partial","C166_add C166_example C166_properties_refuted","With several hosts only the last new resource gets the properties.")
c("C167","partial","C167_exit C167_property C167_example C167_unknown_refuted C167_unknown_host_refuted","Unknown resources and hosts give 0.")
c("C168","proved","C168_set C168_example","For commands that do not name id or network_address.")
c("C169","proved","C169_state C169_example","")
c("C170","partial","C170_once C170_example C170_twice_refuted C170_killed_refuted C170_asked_refuted","Proved for complete runs that list each node once; false when a node has two next states, when a run is killed, and a hard reboot may follow in the same run without a new report.")
c("C171","partial","C171_bound C171_example C171_total_refuted C171_zero_refuted","Proved for each kind separately and a limit of at least 1.")
c("C172","partial","C172_progress C172_example C172_starve_refuted","Proved with a bound when the same nodes stay broken; nodes that break later can go first for ever.")
c("C173","proved","C173_repaired C173_example","")
c("C174","partial","C174_option_wins C174_case C174_properties_refuted","Proved for every option but -p, where the script wins.")
c("C175","partial","C175_directives C175_properties C175_unambiguous C175_directory_refuted C175_and_refuted","Proved for the options other than -d, which the command line always gives, and -p, whose values are joined with AND without parentheses.")
c("C176","partial","C176_not_understood C176_no_directive C176_stagein_refuted C176_unreadable_refuted","Proved for lines not understood; --stagein is accepted and dropped, and a script that cannot be read is not noticed.")
c("C177","partial","C177_param_file C177_array C177_script_file C177_single C177_case C177_zero_refuted C177_negative_refuted C177_both_refuted C177_empty_file_refuted","Proved when the submission succeeds; --array 0 makes a job, --array -2 and an empty file named in the script end with an exception, --array drops the file of the script.")
c("C178","partial","C178_characters C178_case C178_newline_refuted","Proved but for a final newline in the names of files and of the user.")
c("C179","partial","C179_connected C179_refused C179_accepted C179_case C179_failure_lost_refuted C179_no_host_refuted","Who and where: proved. The exit value of ssh is lost, and a cosystem job without hosts raises.")
c("C180","partial","C180_key C180_forbidden_partial C180_case C180_export_refuted C180_array_refuted C180_crash_refuted","Which key: proved. Options without -k are refused for single jobs only; -e writes an empty file or raises after the job is made.")
c("C181","partial","C181_param_file C181_id C181_refused_partial C181_case C181_key_files_refuted C181_reservation_refuted C181_comments_refuted C181_nothing_refuted","The identifier is right and without key an error means no job; the reservation, the files of keys and workdir are dropped, comments make jobs, 200 may come with no job.")
c("C182","partial","C182_printed C182_refused_partial C182_keys_refuted C180_crash_refuted","Proved for success, and for failure without -k.")
c("C183","partial","C183_date C183_refused C183_case C183_impossible_refuted","Proved, but dates out of the calendar end with an exception instead of a message.")
c("C184","proved","C184_last_setting C184_proper C184_case","Lines as texts; the separators of lines other than newline and characters beyond ASCII left out.")
c("C185","partial","C185_value C185_integer C185_text C185_text_refuted","Proved for texts without '#' and without quotes at their ends that are not numerals of Python; refuted in general: a '#' between quotes cuts the value, leading zeros, underscores and some texts (nan42, _1) are lost.")
c("C186","proved","C186_failure","")
c("C187","partial","C187_defaults C187_given_refuted","Refuted for the values given to the constructor: they are ignored.")
c("C188","partial","C188_namespace C188_case C188_case_refuted","Proved unless two keys of the namespace differ by the case of their letters only: then one is lost.")
c("C189","partial","C189_address C189_injective C189_missing C189_hypotheses C189_case C189_ambiguous_refuted C189_password_refuted","Proved for PostgreSQL and parts without the separators of the address; refuted otherwise (nothing is quoted), and a password of digits loses its leading zeros.")
c("C190","partial","C190_status C190_again C190_again_refuted","Proved for the first question; asked again after 15, the answer is the first error.")
c("C191","partial","C191_rights C191_effect C191_no_user_refuted","Proved; but without USER in the environment the command fails even for oar. Who runs it is what the environment says.")
c("C192","partial","C192_effect C192_unique C192_list C192_case C192_unknown_refuted C192_two_refuted","Proved for one option and a queue that is there; an unknown queue is not told, and of several options one is done without a word.")
c("C193","proved","C193_text C193_impossible","NULL priorities and the lengths of texts left out.")
c("C194","proved","C194_protected","Includes a crash at any point. Names are compared as PostgreSQL does (case matters).")
c("C195","partial","C195_delete C195_add C195_exception C195_case C195_together_refuted","Proved for deletions alone and additions alone, and exceptions; refuted for both in one command (the property is lost) and for a refusal after some deletions (exit value 0).")
c("C196","partial","C196_rename C196_crash_refuted C196_twice_refuted","Proved for one renaming without a crash; refuted for a crash between the two commits and for two renamings of the same property in one command.")
c("C197","partial","C197_exists C197_type_refuted","The values are kept; the message about the type is wrong both ways.")
c("C198","proved","C198_read C198_case","For hours within a day and ranges of days that do not go over the end of the week with hours (C57 says what happens otherwise).")
c("C199","partial","C199_accepted C199_no_month C199_strict_refuted C199_case","What is accepted is characterised; hours out of the day and what follows the seconds are accepted in silence.")
c("C200","proved","C200_week C200_sets C200_unknown_set C200_case","For entries that do not overlap (C56 and C57 are about the rest).")
c("C201","partial","C201_number C201_whole_number C201_limits C201_hours_refuted C201_one_number_refuted C201_case C201_exponent C201_exponent_case C201_rules C201_rules_case","Whole numbers and decimals: proved; a fraction of an hour is lost, and the documented single number raises.")
c("C202","partial","C202_all C202_mode C202_close C202_exact_partial C202_case C202_mode_case C202_exact_refuted C202_period_refuted C202_mode_refuted","Within one unit, exact for fractions over a power of two; 0.29*ALL of 100 is 28, ALL is not known in the rules of periods, and with another counting mode ALL is at most 1 (an assignment instead of an addition in ResourceSet).")
c("C203","partial","C203_read C203_refused C203_description_refuted C203_case","Proved for entries with a description; without one the program stops.")
c("C204","partial","C204_alone_refuted C204_case","Refuted: a file with one-shot periods alone is accepted, and then no round can be made.")
c("C205","partial","C205_rules C205_empty_set_refuted C205_case","Proved for sets that are not empty; with an empty set the default rules apply.")
c("C206","partial","C206_free C206_number C206_case C206_ignored_refuted C206_all_refuted","Free, disjoint, within the condition and as many as the first number: proved. The level, the levels below and the other groups are not looked at, and ALL leaves a resource.")
c("C207","proved","C207_order C207_case C209_next","")
c("C208","partial","C208_running_refuted C208_other_refuted C208_case","Refuted: a running job makes every cycle fail (attribute res_itvs does not exist), and the jobs in other states are not looked at.")
c("C209","partial","C209_groups C209_next C209_missing_refuted C209_shared_refuted","Proved for one group; a group that cannot be served is dropped, and groups share their resources.")
c("C210","partial","C210_queue_refuted C210_saved C210_case","What is written is what was decided; but the arguments are ignored and only the queue default is served.")
c("C211","proved","C211_delete C211_case","The right exit status needs that the server answers; which of two different errors wins is C190.")
c("C212","partial","C212_array C212_condition C212_usage C212_case C212_named_refuted C212_empty_refuted","Proved when the array or the condition selects something; identifiers given beside are dropped, and a selection of nothing is a success.")
c("C213","partial","C213_signals C213_api_checkpoint C213_case C213_event_refuted C213_api_refuted","Proved for the command; the events call every signal a checkpoint, and the API cannot send a signal.")
c("C214","partial","C214_injection_refuted C214_any_refuted C214_case","Refuted: the text of the user is part of a shell command run on the host by oar.")
c("C215","partial","C215_rights C215_force C215_besteffort C215_case C215_unknown_refuted C215_not_running_refuted","Proved for jobs that exist (-b: not listed twice); an unknown job is an exception after the first changes, and -b on a job that does not run is a silent success.")
c("C216","partial","C216_hold C216_resume C216_api_rhold C216_case C216_refusal_refuted C216_api_refuted","What is recorded is characterised for every list; requests before a refusal are recorded without telling the server, and the API takes any word for hold.")
c("C217","proved","C217_text C217_usage C217_status C217_accepted C217_granted C217_case","The configuration has a largest increase for the queue; unique identifiers of jobs, of moldables and one change per job. For a job that is not past its end (the others: C66_overdue_refuted).")
c("C218","partial","C218_reads_only C218_shown_partial C218_refuted","Proved that nothing is changed, and for unknown jobs and jobs without a walltime; refuted for every job that has one: the command ends with an exception.")
c("C219","partial","C219_called_partial C219_by_hand_partial C219_refuted C219_case","Proved without quotas, for dates below 2^53; with QUOTAS=yes the command always raises.")
c("C220","partial","C220_lines C220_state_partial C220_state_refuted C220_case","Lines, counts and jobs are proved; the state is that of the first resource of the host, right when all have the same.")
c("C221","partial","C221_hosts C221_all C221_ids C221_case C221_mixed_refuted C221_summary_refuted","Proved for hosts alone, for nothing, and for identifiers and conditions; hosts given with -r or --sql are ignored, and --sql with -S shows nothing.")
c("C222","partial","C222_refuted C222_unknown_refuted","Refuted: the status is always 0.")
c("C223","partial","C223_by_id C223_by_host C223_format_refuted","Proved by identifier and for JSON or YAML; the display of the hosts shows Absent for Standby.")
c("C224","proved","C224_since C224_last","The date is already a number (C30 to C32 are about dates as texts).")
c("C225","partial","C225_values C225_added C225_fails_partial C225_empty_refuted C225_host_refuted C225_case","Proved: the arguments are kept and each such option gets a value; an empty argument raises IndexError, and oarnodes -e host takes the host for a date.")
c("C226","proved","C226_all C226_user","The database returns the groups in the order of their seconds, ties in any order; -S is a predicate on rows. A window that ends exactly at the first second of the period is not of the period, as in the code.")
c("C227","partial","C227_of_largest C227_partial C227_case C227_refuted","The windows are those of the kind with the most seconds; right when used windows are asked ones and less was used than asked; refuted for a job that went past its end into another window.")
c("C228","partial","C228_projects_partial C228_refuted C227_case","Proved without -S; with -S the projects ignore the condition.")
c("C229","partial","C229_partial C229_refuted C227_case","Proved when no window straddles the common date; refuted where midnight is not a multiple of a day since 1970.")
c("C230","proved","C230_jobs_to_report C230_case","The accounting table is empty before the update, and the period contains the finished jobs and their walltimes.")
c("C231","partial","C231_read C231_bad C231_rest_refuted C231_impossible_refuted C231_case","Proved for texts that begin with two dates of the calendar and for those that do not; what follows is not read, and dates out of the calendar raise an exception.")
c("C232","partial","C232_last_partial C232_written_partial C232_small_refuted C232_case","Which of several jobs that start together is not said. Refuted for a Karma written with an exponent.")
c("C233","partial","C233_partial C233_formats C233_refuted C235_case","Proved for the jobs that exist, in the lines and in the dictionary of JSON and YAML; refuted for an id that is no job: nothing is said and the status is 0.")
c("C234","proved","C234_events C234_formats C234_case","The database returns the events by job, then by date, those of the same date in any order.")
c("C235","partial","C235_partial C235_shown C235_case C235_refuted","Proved for -j with distinct ids and for an array; a job given twice has its resources shown twice.")
c("C236","partial","C236_exited C236_killed C236_none C236_refuted","The value of exit and the signal are each shown right; which of the two it was cannot be told.")
c("C237","partial","C237_partial C237_not_begun C237_case C237_refuted","Proved for jobs on their resources, over or not begun; refuted for a suspended job, which shows a dash.")
c("C238","partial","C238_partial C238_unknown C238_case C238_refuted","Proved for known columns, each given once; an unknown column raises KeyError, and one given twice is shown once under its last label.")
c("C239","partial","C239_partial C239_one C239_case C239_refuted","Proved for one group, and for groups each with a property, different from that before; refuted otherwise: two groups read as one.")
c("C240","partial","C240_conflict C240_hosts C240_first C240_case C240_gantt_refuted C240_resources_refuted","Proved but for the two options: a badly written --gantt raises AttributeError, and -r without -f changes nothing.")
c("C241","partial","C241_earliest_partial C241_case C241_tie_case","Proved when every alternative has one group and can be satisfied some day; C242 and C245 refute the rest.")
c("C242","partial","C242_unsatisfiable_refuted C242_alternative_refuted C242_case","Refuted: a job that can never be satisfied is given a date and no resource, and such an alternative is preferred to one that could be satisfied when it is shorter.")
c("C243","proved","C243_no_double C243_nothing_lost C243_case","For every list of distinct jobs, with or without time-sharing and placeholders: each receives only what is free, and nothing twice.")
c("C244","partial","C244_long_refuted C244_case","Refuted: one alternative longer than the slot set raises NameError and no job of the cycle is scheduled; C241 gives the totality without such alternatives.")
c("C245","partial","C245_groups_partial C245_missing_refuted C245_shared_refuted","Each group receives what it asks for or nothing; refuted: a missing group does not prevent the placement, and two groups can be given the same resources.")
c("C246","partial","C246_inner_refuted C246_case","Refuted: a cycle with a job inside a container fails, since containers open no slot set.")
c("C247","partial","C247_cycle_partial C247_case","Proved when the jobs already scheduled come by start; the query sorts them by another date, see C06. The very last second of the horizon is excepted for the dates of availability, see C55.")
c("C248","partial","C248_dates_partial C248_case","Proved for requests of one group shorter than the time there is, when the jobs already scheduled come by start; refuted otherwise by C244, C246 and C06.")
