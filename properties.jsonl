{"id": "C01", "title": "The slot set always partitions its time range", "statement": "Starting from a slot set built on one slot, after any sequence of slot splits and of job insertions/removals that the API accepts, the slots form one doubly linked chain, consecutive in time, without gap or overlap, covering exactly [begin, end] of the slot set.", "quantifier": "every initial slot and every finite sequence of split / insert operations", "why_tests_cant": "The sequences are unbounded and the linked structure is updated by hand in several branches; tests only try a few splits.", "anchors": ["oar/kao/slot.py:SlotSet.split_at_before", "oar/kao/slot.py:SlotSet.split_at_after", "oar/kao/slot.py:SlotSet.split_slots", "oar/kao/slot.py:SlotSet.split_slots_jobs"]}
{"id": "C02", "title": "Splitting a slot never changes what is available at any instant", "statement": "Splitting a slot at a date inside it leaves, for every instant of the slot set, the same available resources, time-sharing sets, placeholder sets and quota counters, and makes the date a slot boundary whenever the slot is longer than one second.", "quantifier": "every well-formed slot set, every slot of it, every date in that slot, every instant", "why_tests_cant": "Boundary cases (date = begin, date = end, size-1 slots, first/last slot) multiply with list positions; a test fixes one.", "anchors": ["oar/kao/slot.py:SlotSet.split_at_before", "oar/kao/slot.py:SlotSet.split_at_after", "oar/kao/slot.py:SlotSet.copy_intervals_set"]}
{"id": "C03", "title": "Inserting a job removes its resources during its whole window", "statement": "After inserting a job in a slot set, none of its resources is available at any instant of [start, start+walltime-1] covered by the slot set; every resource not in the job's set keeps its availability at every instant; at instants before start or after start+walltime nothing changes.", "quantifier": "every well-formed slot set, every job window and resource set, every instant and resource", "why_tests_cant": "The number of slots straddled and the alignment of the window with slot boundaries are unbounded.", "anchors": ["oar/kao/slot.py:SlotSet.split_slots", "oar/kao/slot.py:SlotSet.split_slots_jobs", "oar/kao/slot.py:SlotSet.sub_slot_during_job"]}
{"id": "C04", "title": "Inserting a job frees its resources again at start+walltime", "statement": "A job occupies exactly [start, start+walltime-1]: at instant start+walltime the slot set's availability is unchanged by the insertion.", "quantifier": "every well-formed slot set, every job, the instant start+walltime", "why_tests_cant": "Only some alignments of the window with pre-existing slot boundaries exercise the off-by-one.", "anchors": ["oar/kao/slot.py:SlotSet.split_slots"]}
{"id": "C05", "title": "Inserting a sorted list of jobs accounts for every job", "statement": "Inserting a list of jobs sorted by start time never fails, and afterwards a resource is available at an instant iff it was available before and no job of the list holds it then (up to the one-second tail of C04).", "quantifier": "every well-formed slot set, every list of jobs sorted by start time, every instant and resource", "why_tests_cant": "Needs induction over the job list with the cursor optimisation (search resumes at the previous job's slot).", "anchors": ["oar/kao/slot.py:SlotSet.split_slots_jobs", "oar/kao/slot.py:SlotSet.get_encompassing_slots"]}
{"id": "C06", "title": "Inserting previously scheduled jobs works in any order", "statement": "The scheduler can insert any list of already scheduled jobs into the slot set, whatever the order in which they are listed.", "quantifier": "every list of jobs", "why_tests_cant": "Only an unsorted list with particular overlaps fails.", "anchors": ["oar/kao/slot.py:SlotSet.split_slots_jobs", "oar/kao/scheduling.py:set_slots_with_prev_scheduled_jobs"]}
{"id": "C07", "title": "Looking up the slot at a date", "statement": "The slot returned for a date is the one whose interval contains it, and 0 is returned exactly when the date lies outside the slot set.", "quantifier": "every well-formed slot set and every date", "why_tests_cant": "Unbounded chain length and dates.", "anchors": ["oar/kao/slot.py:SlotSet.slot_id_at", "oar/kao/slot.py:SlotSet.get_encompassing_slots"]}
{"id": "C08", "title": "A contiguous-window intersection is exactly what is free throughout", "statement": "The resources returned for a window of consecutive slots are exactly those available at every instant of the window.", "quantifier": "every well-formed slot set, every window of consecutive slots, every resource", "why_tests_cant": "Quantifies over every instant of every window.", "anchors": ["oar/kao/slot.py:intersec_itvs_slots"]}
{"id": "C09", "title": "A time-sharing or placeholder window never offers a busy resource", "statement": "The resources offered to a time-sharing or placeholder-allowed job for a window are, in every slot of the window, either free or explicitly shareable with that job.", "quantifier": "every slot set, window and job", "why_tests_cant": "Fails only for windows where an intermediate intersection is empty.", "anchors": ["oar/kao/slot.py:intersec_ts_ph_itvs_slots"]}
{"id": "C10", "title": "Candidate windows are long enough, minimal and complete", "statement": "Enumerating windows of a given width yields, in chronological order, for every start slot from which the remaining time is long enough, the shortest run of slots at least that long, and nothing else.", "quantifier": "every well-formed slot set, every positive width, every starting slot", "why_tests_cant": "Nested generators over an unbounded chain.", "anchors": ["oar/kao/slot.py:SlotSet.traverse_with_width", "oar/kao/slot.py:SlotSet.traverse_id"]}
{"id": "C11", "title": "Flat resource requests: n whole free blocks or nothing", "statement": "For a one-level request of n>0 blocks, the answer is either empty or the union of exactly n blocks of the level that are entirely free, the first ones in level order; it is non-empty exactly when at least n such blocks exist (blocks being non-empty).", "quantifier": "every set of free resources, every level, every n>0", "why_tests_cant": "Unbounded levels and request sizes.", "anchors": ["oar/lib/hierarchy.py:extract_n_scattered_block_itv", "oar/lib/hierarchy.py:find_resource_hierarchies_scattered"]}
{"id": "C12", "title": "ALL / BEST / HALF_BEST requests", "statement": "ALL returns the whole level iff every block is free, BEST returns all free blocks, HALF_BEST the first half (rounded down) of the free blocks; no other resource is ever returned.", "quantifier": "every set of free resources and every non-empty level", "why_tests_cant": "Unbounded levels.", "anchors": ["oar/lib/hierarchy.py:extract_all_best_half_scattered_block_itv"]}
{"id": "C13", "title": "Hierarchical requests are served exactly and from free resources only", "statement": "For a multi-level request (n1 of level 1, each with n2 of level 2, ...) a non-empty answer consists of free resources only and is made of exactly n1 level-1 blocks, in each of which exactly n2 level-2 blocks were taken, and so on down to fully free bottom blocks.", "quantifier": "every hierarchy, request depth, counts and free set", "why_tests_cant": "Recursive structure of unbounded depth.", "anchors": ["oar/lib/hierarchy.py:find_resource_n_h", "oar/lib/hierarchy.py:find_resource_hierarchies_scattered"]}
{"id": "C14", "title": "Hierarchical search is complete", "statement": "If the free resources contain a placement of the hierarchical request, the search finds one.", "quantifier": "every nested hierarchy, positive request and free set", "why_tests_cant": "A negative statement over all placements.", "anchors": ["oar/lib/hierarchy.py:find_resource_n_h"]}
{"id": "C15", "title": "A multi-group request gets every group, within its constraints", "statement": "An allocation for several resource groups is non-empty only if every group was satisfied, each from resources meeting the group's own properties, and contains nothing else.", "quantifier": "every free set, hierarchy and list of groups", "why_tests_cant": "Unbounded number of groups.", "anchors": ["oar/kao/scheduling.py:find_resource_hierarchies_job"]}
{"id": "C16", "title": "Groups of a multi-group request get distinct resources", "statement": "The resources given to two different groups of the same request do not overlap.", "quantifier": "every free set, hierarchy and list of groups", "why_tests_cant": "Needs overlapping constraints.", "anchors": ["oar/kao/scheduling.py:find_resource_hierarchies_job"]}
{"id": "C17", "title": "No resource is ever promised to two jobs at the same time", "statement": "After scheduling any list of waiting jobs (plain jobs: no time-sharing, no placeholder) on any well-formed slot set, two jobs placed in the same slot set never hold a common resource at the same instant, and no job holds a resource that was not free for its whole window beforehand.", "quantifier": "every slot set, hierarchy, list of jobs with any moldable requests and any minimal start times", "why_tests_cant": "History-dependent: holds after every prefix of an unbounded job list.", "anchors": ["oar/kao/scheduling.py:schedule_id_jobs_ct", "oar/kao/scheduling.py:assign_resources_mld_job_split_slots", "oar/kao/scheduling.py:find_first_suitable_contiguous_slots_no_quotas"]}
{"id": "C18", "title": "Each job gets the earliest possible slot", "statement": "Without the search cache, the window selected for a request is the first, in chronological order of slot starts at or after the search origin, in which the request can be satisfied; the request is declared unschedulable only if no window of the slot set satisfies it.", "quantifier": "every slot set, request and origin", "why_tests_cant": "Universally quantifies over all the earlier windows.", "anchors": ["oar/kao/scheduling.py:find_first_suitable_contiguous_slots_no_quotas"]}
{"id": "C19", "title": "The search cache never changes the result", "statement": "Scheduling a list of jobs with the per-request search cache gives the same placements as without it.", "quantifier": "every slot set and every list of jobs whose requests have equal cache keys only when equal", "why_tests_cant": "History-dependent: relies on availability only shrinking during the round.", "anchors": ["oar/kao/scheduling.py:find_first_suitable_contiguous_slots_no_quotas", "oar/lib/job_handling.py:set_jobs_cache_keys"]}
{"id": "C20", "title": "A moldable job takes the alternative that finishes first", "statement": "Among the satisfiable alternatives of a moldable job the scheduler selects one with the earliest completion time, the first listed on ties; the job is unscheduled iff no alternative is satisfiable and then the slot set is unchanged.", "quantifier": "every slot set and every list of alternatives", "why_tests_cant": "Unbounded list of alternatives.", "anchors": ["oar/kao/scheduling.py:assign_resources_mld_job_split_slots"]}
{"id": "C21", "title": "A job never starts before the jobs it depends on end", "statement": "A scheduled job whose dependency is a waiting job of the same round starts no earlier than the dependency's start + walltime, and is not scheduled when its dependency is not.", "quantifier": "every round and dependency graph", "why_tests_cant": "Depends on slot alignment and on the dependency's own fate.", "anchors": ["oar/kao/scheduling.py:schedule_id_jobs_ct", "oar/kao/scheduling.py:find_first_suitable_contiguous_slots_no_quotas"]}
{"id": "C22", "title": "Quota counters equal what the running jobs consume", "statement": "After any sequence of jobs has been counted, the counter of (queue, project, type, user), '*' standing for any, is the sum over the matching jobs of resources, jobs and resource-seconds.", "quantifier": "every list of jobs, every counter key", "why_tests_cant": "Unbounded sequence and key space.", "anchors": ["oar/kao/quotas.py:Quotas.update"]}
{"id": "C23", "title": "A job is placed only where its quota rule holds", "statement": "When quotas are enabled, a window is accepted for a job only if in every quota period touched the counters of the job's applicable rule, with the job added, do not exceed the rule's limits; hence at each slot of the window the resources and number of jobs counted for that rule stay within limits.", "quantifier": "every slot set, window, job and rule set", "why_tests_cant": "Quantifies over all counters and rules.", "anchors": ["oar/kao/quotas.py:Quotas.check_slots_quotas", "oar/kao/quotas.py:Quotas.check", "oar/kao/scheduling.py:find_first_suitable_contiguous_slots_quotas"]}
{"id": "C24", "title": "The applicable quota rule is found whenever one matches", "statement": "A job to which some rule of the rule set applies ('*' and '/' matching anything) is subject to at least one rule.", "quantifier": "every rule set and job", "why_tests_cant": "Depends on interactions between rules of a set.", "anchors": ["oar/kao/quotas.py:Quotas.find_applicable_rule"]}
{"id": "C25", "title": "Resource-hours quota counts each job once", "statement": "The resource-time checked for a window counts the resource-time of each running job once, however many slots the job spans.", "quantifier": "every window and job list", "why_tests_cant": "Only multi-slot windows show the over-count.", "anchors": ["oar/kao/quotas.py:Quotas.combine", "oar/kao/quotas.py:Quotas.check_slots_quotas"]}
{"id": "C26", "title": "Temporal quotas apply the rules of the period containing the date", "statement": "For a weekly calendar that covers the week, the rules selected at a date are those of the period containing the date and the remaining duration is the time to that period's end.", "quantifier": "every contiguous calendar and every date of the week", "why_tests_cant": "Every date of every calendar.", "anchors": ["oar/kao/quotas.py:Calendar.periodical_rules_at", "oar/kao/quotas.py:Calendar.rules_at"]}
{"id": "C27", "title": "A calendar with a default covers the whole week", "statement": "If a default periodical is given and the other periodicals are disjoint and inside the week, the resulting periodicals are contiguous from 0 to 7 days and each explicit periodical keeps its rules.", "quantifier": "every finite set of disjoint periodicals", "why_tests_cant": "Unbounded sets of periodicals.", "anchors": ["oar/kao/quotas.py:Calendar.__init__", "oar/kao/quotas.py:Calendar.check_periodicals"]}
{"id": "C28", "title": "Accounting never loses or duplicates a resource-second", "statement": "The consumption charged for a job over accounting windows is the job's duration times its number of resources, whatever the window size; each second is charged to the window that contains it.", "quantifier": "every start/stop times, window size > 0 and resource count", "why_tests_cant": "Every alignment of the job with windows, unbounded number of windows.", "anchors": ["oar/lib/accounting.py:update_accounting", "oar/lib/accounting.py:add_accounting_row"]}
{"id": "C29", "title": "Only finished jobs are marked as accounted", "statement": "An accounting update marks as accounted exactly the jobs whose consumption it has charged.", "quantifier": "every job table", "why_tests_cant": "Needs a table mixing finished and unfinished jobs and two updates.", "anchors": ["oar/lib/accounting.py:check_accounting_update"]}
{"id": "C30", "title": "Durations survive conversion to hours:minutes:seconds", "statement": "Converting a non-negative duration to h:m:s and back gives the same duration, and minutes and seconds are below 60; signed durations keep their sign.", "quantifier": "every integer duration", "why_tests_cant": "All integers.", "anchors": ["oar/lib/tools.py:duration_to_hms", "oar/lib/tools.py:hms_to_duration", "oar/lib/tools.py:duration_to_sql", "oar/lib/tools.py:sql_to_duration"]}
{"id": "C31", "title": "A finished job never comes back", "statement": "Once a job is Terminated or in Error no state change request alters its state again.", "quantifier": "every sequence of state-change requests", "why_tests_cant": "All histories.", "anchors": ["oar/lib/job_handling.py:set_job_state"]}
{"id": "C32", "title": "The job state log is a faithful timeline", "statement": "At every moment the state log of a job has exactly one open entry, which is the current state, earlier entries are closed and consecutive ones meet, for a non-decreasing clock.", "quantifier": "every sequence of state-change requests", "why_tests_cant": "All histories.", "anchors": ["oar/lib/job_handling.py:set_job_state"]}
{"id": "C33", "title": "Only the owner or an administrator can act on a job", "statement": "Deleting, holding, resuming, checkpointing or changing the walltime of a job succeeds only for its owner or the users oar and root; otherwise nothing is changed.", "quantifier": "every user, job and request", "why_tests_cant": "All users and table states.", "anchors": ["oar/lib/job_handling.py:frag_job", "oar/lib/job_handling.py:hold_job", "oar/lib/job_handling.py:resume_job", "oar/lib/job_handling.py:ask_checkpoint_signal_job", "oar/lib/walltime.py:request"]}
{"id": "C34", "title": "Walltime changes keep the books balanced", "statement": "Each processing of a walltime-change request moves an amount from pending to granted and adds the same amount to the job's walltime; the pending amount never changes sign and never grows in magnitude; the running time already consumed is never cut.", "quantifier": "every request, job, and time", "why_tests_cant": "All values and histories.", "anchors": ["oar/kao/walltime_change.py:process_walltime_change_requests", "oar/lib/walltime.py:request"]}
{"id": "C35", "title": "The total extra time granted never exceeds the configured maximum", "statement": "An ordinary user's job can never be granted in total more than the configured maximum walltime increase.", "quantifier": "every sequence of requests and grants", "why_tests_cant": "Needs a sequence of several requests.", "anchors": ["oar/lib/walltime.py:request", "oar/lib/walltime.py:update_walltime_change_request"]}
{"id": "C36", "title": "A job is killed for walltime only after it has run its walltime", "statement": "The villain check asks for the deletion of a running job only if it has been running (suspension excluded) for more than its walltime.", "quantifier": "every job, suspension history and date", "why_tests_cant": "All histories.", "anchors": ["oar/modules/sarko.py:Sarko.run", "oar/lib/job_handling.py:get_job_suspended_sum_duration"]}
{"id": "C37", "title": "Job deletion always progresses to a final state", "statement": "A deletion request goes LEON -> TIMER_ARMED -> FRAGGED, or is retried and finally LEON_EXTERMINATE after the configured delays; it never gets stuck and never leaves the FRAGGED state.", "quantifier": "every sequence of Leon and Sarko runs with non-decreasing dates", "why_tests_cant": "All schedules.", "anchors": ["oar/modules/sarko.py:Sarko.run", "oar/modules/leon.py:Leon.run", "oar/lib/job_handling.py:job_refrag"]}
{"id": "C38", "title": "Hold and resume do what the user asked", "statement": "A hold-waiting request never suspends a running job; a hold-running request on a running job suspends it; resume returns a held job to Waiting and a suspended one to Resuming.", "quantifier": "every job state and request", "why_tests_cant": "All combinations of state at request and at processing time.", "anchors": ["oar/modules/node_change_state.py:NodeChangeState.run", "oar/lib/job_handling.py:hold_job", "oar/lib/job_handling.py:resume_job"]}
{"id": "C39", "title": "The server never loses a notification and never runs the scheduler too often", "statement": "Every notification accepted by the server is eventually taken from the queue in order, a scheduling request made too early is remembered until it is served, duplicates are merged, and two scheduler runs are separated by at least the configured delay.", "quantifier": "every sequence of notifications, clock values and child exit codes", "why_tests_cant": "All interleavings.", "anchors": ["oar/modules/almighty.py:Almighty.run", "oar/modules/almighty.py:Almighty.add_command", "oar/modules/almighty.py:Almighty.time_update"]}
{"id": "C40", "title": "At most one executor per job and no lost launch command", "statement": "The job-launch commander never runs two executors for the same job at once, never drops a command, and keeps the number of executors bounded.", "quantifier": "every sequence of commands and of executor terminations", "why_tests_cant": "All interleavings.", "anchors": ["oar/modules/bipbip_commander.py:BipbipCommander.run"]}
{"id": "C41", "title": "Commands of one job are executed in arrival order", "statement": "Two launch/kill commands received for the same job are started in the order received.", "quantifier": "every sequence of commands and terminations", "why_tests_cant": "Race-dependent.", "anchors": ["oar/modules/bipbip_commander.py:BipbipCommander.run"]}
{"id": "C42", "title": "Revoked tokens are refused", "statement": "An API token issued before the revocation date that applies to its user (or globally) is always refused, and a token issued later is accepted.", "quantifier": "every token, user and revocation table", "why_tests_cant": "All tables and dates.", "anchors": ["oar/api/auth.py:need_authentication"]}
{"id": "C43", "title": "Clearing the Gantt keeps accepted reservations and running jobs", "statement": "Resetting the predicted schedule before a scheduling round removes only predictions of jobs that are free to be re-planned.", "quantifier": "every gantt and job table", "why_tests_cant": "All tables.", "anchors": ["oar/lib/job_handling.py:gantt_flush_tables"]}
{"id": "C44", "title": "Only due jobs with all resources up are launched", "statement": "A job is handed to the launcher only when its predicted start is reached and none of its resources is down, and at most one launch is sent per job; best-effort jobs holding needed resources are killed first.", "quantifier": "every gantt, resource table and date", "why_tests_cant": "All tables.", "anchors": ["oar/kao/meta_sched.py:handle_jobs_to_launch", "oar/kao/meta_sched.py:check_besteffort_jobs_to_kill"]}
{"id": "C45", "title": "Resources are declared dead only after being down", "statement": "A resource is scheduled to become Dead only if its current state has been Absent or Suspected for longer than the configured delay.", "quantifier": "every resource log", "why_tests_cant": "All histories.", "anchors": ["oar/lib/resource_handling.py:get_absent_suspected_resources_for_a_timeout", "oar/modules/sarko.py:Sarko.run"]}
{"id": "C46", "title": "The sort of waiting jobs keeps every job once", "statement": "Ordering the waiting jobs for a round keeps exactly the submitted jobs, once each, by decreasing priority, submission order on ties; truncation to the configured maximum keeps the head of the order.", "quantifier": "every list of waiting jobs", "why_tests_cant": "All lists.", "anchors": ["oar/kao/kamelot.py:internal_schedule_cycle", "oar/kao/multifactor_priority.py", "oar/kao/karma.py"]}
{"id": "C47", "title": "Queues are served by decreasing priority", "statement": "Queues are grouped by equal priority, each queue appears in exactly one group, groups are served by decreasing priority.", "quantifier": "every queue table", "why_tests_cant": "All tables.", "anchors": ["oar/lib/queue.py:get_queues_groupby_priority"]}
{"id": "C48", "title": "ALL, BEST and HALF_BEST at one level only", "statement": "A request in which a resource group uses ALL, BEST or HALF_BEST at two levels is refused with an error; a group of several levels that uses one of them is refused too.", "quantifier": "every request text", "why_tests_cant": "All requests.", "anchors": ["oar/lib/submission.py:parse_resource_descriptions", "oar/lib/submission.py:estimate_job_nb_resources"]}
{"id": "C49", "title": "Time-sharing jobs leave their resources shareable", "statement": "When a time-sharing job is put in the schedule, during its whole window its resources are usable by the jobs it agrees to share with (same user/name or '*'), and by nobody else's sharing rule.", "quantifier": "every slot set, job and instant", "why_tests_cant": "All schedules and sharing combinations.", "anchors": ["oar/kao/slot.py:SlotSet.sub_slot_during_job", "oar/kao/slot.py:SlotSet.add_slot_during_job"]}
{"id": "C50", "title": "Placeholders reserve their resources for allowed jobs, once", "statement": "The resources of a placeholder job are reserved, during its window, for jobs allowed in that placeholder, and an allowed job takes its resources so that no other allowed job uses them at the same time.", "quantifier": "every slot set, job and instant", "why_tests_cant": "All schedules.", "anchors": ["oar/kao/slot.py:SlotSet.sub_slot_during_job"]}
{"id": "C51", "title": "Quota counters of slots follow the jobs inserted", "statement": "Putting a job in the schedule counts it, once, in the quota counters at every instant of its window (containers excepted) and leaves the quota rules in force unchanged.", "quantifier": "every slot set, job and instant", "why_tests_cant": "All schedules.", "anchors": ["oar/kao/slot.py:SlotSet.sub_slot_during_job", "oar/kao/quotas.py:Quotas.update"]}
{"id": "C52", "title": "A scheduled job is loaded with exactly its start, walltime and resources", "statement": "Reading the predicted schedule back gives each scheduled job once, with its predicted start, its walltime plus the security time (plus its suspension time) and exactly the resources of its rows.", "quantifier": "every schedule table", "why_tests_cant": "All tables, any interleaving of jobs and rows.", "anchors": ["oar/lib/job_handling.py:extract_scheduled_jobs", "oar/lib/job_handling.py:get_scheduled_jobs"]}
{"id": "C53", "title": "A suspended job releases its suspendable resources", "statement": "A job in state Suspended is loaded in the schedule without its suspendable resources.", "quantifier": "every schedule table", "why_tests_cant": "Any position of the job in the table.", "anchors": ["oar/lib/job_handling.py:extract_scheduled_jobs"]}
{"id": "C54", "title": "A container offers its resources only while it runs", "statement": "The inner jobs of a container can be given the container's resources only between its start and its end.", "quantifier": "every container job and date", "why_tests_cant": "All containers and dates.", "anchors": ["oar/kao/scheduling.py:set_slots_with_prev_scheduled_jobs"]}
{"id": "C55", "title": "No resource is offered after its availability date", "statement": "A resource available until a date is never offered from that date on, and its availability before that date is unchanged.", "quantifier": "every slot set and availability table", "why_tests_cant": "All tables.", "anchors": ["oar/kao/kamelot.py:schedule_cycle", "oar/kao/meta_sched.py:gantt_init_with_running_jobs"]}
{"id": "C56", "title": "One unschedulable job never prevents the others from being scheduled", "statement": "Scheduling a list of waiting jobs always completes and treats every job of the list: a job that cannot be placed is left unscheduled and the following jobs are still considered.", "quantifier": "every slot set, hierarchy and list of jobs", "why_tests_cant": "the failure needs one particular job among arbitrary others; tests only run lists that can all be placed", "anchors": ["oar/kao/scheduling.py:schedule_id_jobs_ct", "oar/kao/scheduling.py:assign_resources_mld_job_split_slots"]}
{"id": "C57", "title": "A periodical quota entry covers exactly its days and hours", "statement": "The periods a weekly quota entry produces contain an instant of the week exactly when its day is one of the entry's days and its hour lies in the entry's hours; an interval of days or hours may go over the end of the week or of the day.", "quantifier": "every entry (hours, days) and every instant of the week", "why_tests_cant": "Every combination of hours, days and instants, including the wrap-around ones.", "anchors": ["oar/kao/quotas.py:Calendar.periodical_fromJson"]}
{"id": "C58", "title": "An interrupted accounting update can be run again", "statement": "Killing an accounting update at any point and running it again charges every finished job exactly as one uninterrupted update would.", "quantifier": "every crash point, job table and window size", "why_tests_cant": "Crash points between any two statements; needs the commit points of the session.", "anchors": ["oar/lib/accounting.py:check_accounting_update", "oar/lib/accounting.py:add_accounting_row", "oar/lib/models.py:Model.create"]}
{"id": "C59", "title": "Re-initialised accounting depends only on the jobs", "statement": "After the accounting table is emptied and an update is run, every window holds the consumption of the finished jobs, whatever was charged or marked before.", "quantifier": "every previous accounting table, job table and window size", "why_tests_cant": "Every earlier history of the table.", "anchors": ["oar/lib/accounting.py:delete_all_from_accounting", "oar/lib/accounting.py:check_accounting_update"]}
{"id": "C60", "title": "Durations in states add up", "statement": "The times a job is reported to have spent in each of its states add up to the time since its submission.", "quantifier": "every history of the job and every query date", "why_tests_cant": "The sum must hold after every possible sequence of state changes, not only along the tested ones.", "anchors": ["oar/lib/job_handling.py:get_job_duration_in_state", "oar/lib/job_handling.py:set_job_state"]}
{"id": "C61", "title": "A state change survives a crash", "statement": "If the server is killed in the middle of a state change, the state log of the job is still a faithful timeline, or becomes one again with the next change.", "quantifier": "every crash point of every state change", "why_tests_cant": "Crash points between two database commits cannot be enumerated by unit tests.", "anchors": ["oar/lib/job_handling.py:set_job_state"]}
{"id": "C62", "title": "The end date of a finished job is final", "statement": "Once a job is Terminated or in Error its end date does not change any more.", "quantifier": "every history", "why_tests_cant": "It concerns the interleaving of several programs.", "anchors": ["oar/modules/leon.py:Leon.run", "oar/lib/job_handling.py:set_finish_date"]}
{"id": "C63", "title": "Every job end is eventually recorded", "statement": "Whatever exit code the executor reports for a started job, once the events it raised have been treated the job is Terminated or in Error; it never stays Finishing.", "quantifier": "every exit code, job and database", "why_tests_cant": "All exit codes, reservations and job kinds combine across two programs.", "anchors": ["oar/lib/job_handling.py:check_end_of_job", "oar/modules/node_change_state.py:NodeChangeState.run"]}
{"id": "C64", "title": "An accepted walltime-change request is treated by the scheduler", "statement": "When a walltime-change request is accepted, a later scheduling round treats it.", "quantifier": "every configuration, request and database", "why_tests_cant": "Needs the request command and the meta-scheduler under the same configuration.", "anchors": ["oar/lib/walltime.py:request", "oar/kao/meta_sched.py:meta_schedule"]}
{"id": "C65", "title": "A walltime extension never runs into what is planned next", "statement": "A job's extended end plus the security time is never after the start of a job planned after its old end on one of its resources (tolerated jobs excepted), and an inner job never outlives its container.", "quantifier": "every set of predictions, job, request and time", "why_tests_cant": "All Gantt contents and row orders.", "anchors": ["oar/kao/walltime_change.py:process_walltime_change_requests", "oar/lib/job_handling.py:get_possible_job_end_time_in_interval"]}
{"id": "C66", "title": "A walltime-change request records what was asked", "statement": "An accepted request records the change the user asked for, a reduction being limited to the remaining time of the job.", "quantifier": "every request, job and time", "why_tests_cant": "All times and values.", "anchors": ["oar/lib/walltime.py:request"]}
{"id": "C67", "title": "A walltime-change request never blocks the others", "statement": "The treatment of the walltime-change requests of a round reaches every pending request.", "quantifier": "every set of jobs and requests", "why_tests_cant": "All mixes of job types.", "anchors": ["oar/kao/walltime_change.py:process_walltime_change_requests", "oar/lib/job_handling.py:get_possible_job_end_time_in_interval", "oar/lib/job_handling.py:get_running_job"]}
{"id": "C68", "title": "No notification and no child process can stop the server", "statement": "Whatever message is received and however a child process ends, the server goes on.", "quantifier": "every message, every exit code of a child", "why_tests_cant": "All messages and exit codes.", "anchors": ["oar/modules/almighty.py:Almighty.run", "oar/modules/almighty.py:Almighty.add_command", "oar/modules/appendice_proxy.py:AppendiceProxy.run"]}
{"id": "C69", "title": "No more executors than configured", "statement": "The launch commander never has more executors alive at once than the configured maximum.", "quantifier": "every maximum, every sequence of commands and terminations", "why_tests_cant": "the bound depends on the loop condition and on when ended executors are removed, for every history; tests run a few commands", "anchors": ["oar/modules/bipbip_commander.py:BipbipCommander.run"]}
{"id": "C70", "title": "File requests act on exactly the named file", "statement": "A file request of the API (read, list, change mode, remove, upload) tests, reads, changes or writes the very file or directory named in the request, and runs nothing else.", "quantifier": "every file name", "why_tests_cant": "file names are arbitrary texts that go through an escape function and a shell; tests try a few harmless names", "anchors": ["oar/api/routers/media.py:user_and_filename_setup", "oar/api/routers/media.py:post_file", "oar/api/routers/media.py:get_file", "oar/api/routers/media.py:ls"]}
{"id": "C71", "title": "No proxy rule is lost", "statement": "When several users open the proxy of their jobs at the same time, every one of them finds the rule of his job in the routing file, and no other rule is changed.", "quantifier": "every number of requests and every interleaving", "why_tests_cant": "depends on the lock semantics and on interleavings of requests in threads and processes", "anchors": ["oar/api/proxy_utils.py:acquire_lock", "oar/api/proxy_utils.py:add_traefik_rule", "oar/api/routers/proxy.py:proxy"]}
{"id": "C72", "title": "Pages cover the whole answer", "statement": "Going through the pages of an API answer gives every row exactly once and in order, the announced total is the number of rows, and only a page past the end is answered by not found.", "quantifier": "every list of rows, every offset and page size", "why_tests_cant": "must hold for all sizes and offsets; tests use small fixed tables", "anchors": ["oar/api/query.py:PaginationQuery", "oar/api/url_utils.py:list_paginate", "oar/api/routers/media.py:ls"]}
{"id": "C73", "title": "The state log of a resource is its history", "statement": "At any moment the log of the states of a resource is a timeline without gap or overlap: each entry ends when the next starts, exactly one is open, and the open one tells the current state.", "quantifier": "every history of creations, state changes, node suspicions, checks, requests and removals, at dates that do not go back", "why_tests_cant": "must hold after every history, on every database type", "anchors": ["oar/lib/resource_handling.py:add_resource", "oar/lib/resource_handling.py:set_resource_state", "oar/lib/node.py:set_node_state", "oar/modules/node_change_state.py:NodeChangeState.run", "oar/api/routers/resource.py:create"]}
{"id": "C74", "title": "Requested states are applied", "statement": "Every state requested for a resource is given to it by the next pass of the state module, once, and nothing else changes.", "quantifier": "every set of requests, and requests arriving during the pass", "why_tests_cant": "depends on all sets of requests and on interleavings with the pass", "anchors": ["oar/modules/node_change_state.py:NodeChangeState.run", "oar/lib/resource_handling.py:get_resources_change_state", "oar/lib/resource_handling.py:set_resource_nextState"]}
{"id": "C75", "title": "A withdrawn resource stays withdrawn", "statement": "A resource that is Absent or Dead is not brought back, or made Suspected, by the automatic checks of its node.", "quantifier": "every set of resources and every answer of the ping", "why_tests_cant": "must hold for every mix of states on a node", "anchors": ["oar/modules/finaud.py:Finaud.run", "oar/lib/node.py:set_node_state", "oar/lib/node.py:set_node_nextState", "oar/lib/node.py:get_finaud_nodes"]}
{"id": "C76", "title": "Jobs of a withdrawn resource are deleted", "statement": "When a resource becomes Absent or Dead, a deletion is requested for every job that is running on it (except cosystem and noop jobs), for no other job, and the server is told to treat it.", "quantifier": "every set of resources, jobs and assignments", "why_tests_cant": "must hold for every set of assignments and every way to change a state", "anchors": ["oar/modules/node_change_state.py:NodeChangeState.run", "oar/lib/resource_handling.py:get_resource_job_to_frag", "oar/api/routers/resource.py:state"]}
{"id": "C77", "title": "Only administrators change resources through the API", "statement": "Requests to change the state of a resource, to create or to delete one have no effect unless they come from oar or root.", "quantifier": "every user, request and database", "why_tests_cant": "must hold for all users and requests", "anchors": ["oar/api/routers/resource.py:state", "oar/api/routers/resource.py:create", "oar/lib/resource_handling.py:remove_resource"]}
{"id": "C78", "title": "Removing a resource harms nothing else", "statement": "A resource can be removed only when it is Dead; a refused removal changes nothing; a removal leaves the other resources, and the jobs that are running elsewhere, as they are.", "quantifier": "every database", "why_tests_cant": "must hold for all assignments", "anchors": ["oar/lib/resource_handling.py:remove_resource"]}
{"id": "C79", "title": "Jobs read back from the schedule hold their own resources", "statement": "When the scheduler reads jobs and their planned resources back from the database, each job is counted on exactly the resources recorded for it.", "quantifier": "every resource table, planned schedule and answer order", "why_tests_cant": "All tables; the fault shows only for resources in particular states.", "anchors": ["oar/lib/job_handling.py:extract_scheduled_jobs", "oar/lib/resource.py:ResourceSet"]}
{"id": "C80", "title": "A reservation started late keeps its announced end", "statement": "When an accepted reservation is started after its announced start, its walltime is reduced so that it ends at its announced end.", "quantifier": "every reservation, start delay and security time", "why_tests_cant": "All dates.", "anchors": ["oar/kao/meta_sched.py:handle_jobs_to_launch"]}
{"id": "C81", "title": "A reservation with missing resources waits, then starts with the others", "statement": "An accepted reservation some of whose resources are not available at its start waits for them for the configured delay, then gives up exactly the missing ones.", "quantifier": "every resource table, reservation and date", "why_tests_cant": "All tables and dates.", "anchors": ["oar/kao/meta_sched.py:handle_waiting_reservation_jobs", "oar/lib/job_handling.py:remove_gantt_resource_job"]}
{"id": "C82", "title": "A reservation that cannot start expires", "statement": "An accepted reservation not started by its end is put in error, and only then.", "quantifier": "every history of scheduling rounds", "why_tests_cant": "Unbounded histories.", "anchors": ["oar/kao/meta_sched.py:handle_waiting_reservation_jobs"]}
{"id": "C83", "title": "Compatible time-sharing spares best-effort jobs", "statement": "A best-effort job whose time-sharing declaration is compatible with the job to launch is not killed for it.", "quantifier": "every pair of jobs", "why_tests_cant": "All declarations.", "anchors": ["oar/lib/job_handling.py:is_timesharing_for_two_jobs", "oar/lib/job_handling.py:get_jobs_types", "oar/kao/meta_sched.py:check_besteffort_jobs_to_kill"]}
{"id": "C84", "title": "An accepted reservation has its resources for its announced time", "statement": "A reservation is accepted exactly when its request can be served by resources free from its start to its announced end; the resources it gets are then promised to nobody else, and are kept apart from what follows by the security time.", "quantifier": "every slot set, list of new reservations, hierarchy, security time and date", "why_tests_cant": "All schedules and requests.", "anchors": ["oar/kao/meta_sched.py:check_reservation_jobs"]}
{"id": "C85", "title": "The type no_quotas exempts from quotas", "statement": "A job of type no_quotas is scheduled, or its reservation accepted, as if no quota were configured.", "quantifier": "every job, quota configuration and schedule", "why_tests_cant": "All configurations.", "anchors": ["oar/kao/scheduling.py:find_first_suitable_contiguous_slots", "oar/kao/meta_sched.py:check_reservation_jobs"]}
{"id": "C86", "title": "Accepted reservations respect the quotas", "statement": "During its announced time an accepted reservation leaves the counters of the rule its job is subject to within the limits.", "quantifier": "every schedule, quota configuration and reservation", "why_tests_cant": "All configurations.", "anchors": ["oar/kao/meta_sched.py:check_reservation_jobs", "oar/kao/quotas.py:Quotas.check_slots_quotas"]}
{"id": "C87", "title": "No reservation date stops the scheduler", "statement": "Whatever the dates of a new reservation, the round goes on and the other jobs are scheduled.", "quantifier": "every reservation date", "why_tests_cant": "All dates.", "anchors": ["oar/kao/meta_sched.py:check_reservation_jobs", "oar/kao/slot.py:SlotSet.get_encompassing_slots"]}
{"id": "C88", "title": "Fair share serves first the users who consumed less", "statement": "With fair sharing, of two waiting jobs of one project the job of the user who used less (and asked no more) in the window is considered first, whatever the other jobs.", "quantifier": "every accounting table, configuration with positive user coefficient and non-negative ask coefficient, waiting list and limit", "why_tests_cant": "All histories of consumption.", "anchors": ["oar/kao/karma.py:evaluate_jobs_karma", "oar/kao/karma.py:karma_jobs_sorting"]}
{"id": "C89", "title": "A user's fair-share consumption is a fraction of the total", "statement": "The consumption of a user divided by the total is between 0 and 1, so the karma is bounded by the coefficients.", "quantifier": "every accounting table and time", "why_tests_cant": "Depends on the exact ends of all accounting windows.", "anchors": ["oar/kao/karma.py:get_sum_accounting_by_user", "oar/kao/karma.py:get_sum_accounting_window"]}
{"id": "C90", "title": "Targets given to users are honoured", "statement": "A configured target for a user enters the karma of the jobs of this user, and the round orders all the waiting jobs.", "quantifier": "every configuration of targets and every waiting list", "why_tests_cant": "All configurations and job mixes.", "anchors": ["oar/kao/karma.py:evaluate_jobs_karma"]}
{"id": "C91", "title": "Older jobs gain priority", "statement": "With the multifactor policy and a positive age weight, waiting longer raises the priority of a job.", "quantifier": "every job, weight and waiting time", "why_tests_cant": "All ages and weights.", "anchors": ["oar/kao/multifactor_priority.py:evaluate_jobs_priority"]}
{"id": "C92", "title": "The documented factors of the priority act", "statement": "A positive weight for work, size, quality of service or nice makes the factor count in the priority: small (or big) jobs first.", "quantifier": "every job and weight", "why_tests_cant": "All jobs and weights.", "anchors": ["oar/kao/multifactor_priority.py:evaluate_jobs_priority"]}
{"id": "C93", "title": "Every waiting job is considered", "statement": "Each round considers every waiting job of the active queues up to the limit; a job is not considered only because of the limit.", "quantifier": "every table of jobs and limit", "why_tests_cant": "Unbounded tables.", "anchors": ["oar/kao/kamelot.py:internal_schedule_cycle", "oar/kao/kamelot.py:get_max_job_per_queues_group"]}
{"id": "C94", "title": "A request is understood as written", "statement": "A resource request made of conditions, levels with numbers, groups joined by + and a walltime is understood as exactly these conditions, levels, numbers, groups and walltime.", "quantifier": "every list of moldable requests", "why_tests_cant": "All texts.", "anchors": ["oar/lib/submission.py:parse_resource_descriptions"]}
{"id": "C95", "title": "A request the platform can never satisfy is refused at submission", "statement": "A submission is accepted only if some moldable instance can be placed on the whole platform.", "quantifier": "every platform and request", "why_tests_cant": "All hierarchies and requests.", "anchors": ["oar/lib/submission.py:estimate_job_nb_resources"]}
{"id": "C96", "title": "Allocations are recorded on the resources meant", "statement": "Every usable resource has its own number in the scheduler; numbers and database identifiers translate into each other, so an allocation is recorded on exactly the resources the scheduler chose.", "quantifier": "every set of resources, states and order of resources", "why_tests_cant": "All platforms and orders.", "anchors": ["oar/lib/resource.py:ResourceSet", "oar/lib/tools.py"]}
{"id": "C97", "title": "A job receives only resources that satisfy its condition", "statement": "Every resource given to a job satisfies the SQL condition of its request.", "quantifier": "every platform, states of resources and condition", "why_tests_cant": "All platforms and conditions.", "anchors": ["oar/lib/job_handling.py:get_data_jobs", "oar/lib/resource.py:ResourceSet"]}
{"id": "C98", "title": "A running job occupies only its own resources in the schedule", "statement": "In the schedule, a running job occupies exactly the resources it was given.", "quantifier": "every platform, states of resources and running job", "why_tests_cant": "All platforms.", "anchors": ["oar/lib/job_handling.py:extract_scheduled_jobs", "oar/lib/resource.py:ResourceSet"]}
{"id": "C99", "title": "The levels of the hierarchy share out the usable resources", "statement": "At each level the usable resources are shared out in non-empty disjoint blocks, two resources being in one block exactly when they have the same value.", "quantifier": "every platform and level", "why_tests_cant": "All platforms.", "anchors": ["oar/lib/resource.py:ResourceSet", "oar/lib/hierarchy.py:Hierarchy"]}
{"id": "C100", "title": "All the conditions of a request apply", "statement": "A resource given to a job satisfies the job's condition, the condition of the group and the condition added by the administrator.", "quantifier": "all conditions made of comparisons, AND, OR and parentheses", "why_tests_cant": "All formulas.", "anchors": ["oar/lib/submission.py:estimate_job_nb_resources", "oar/lib/submission.py:add_micheline_subjob", "oar/lib/job_handling.py:get_data_jobs"]}
{"id": "C101", "title": "What is asked is what the scheduler reads", "statement": "Every moldable instance of a submitted request, with its walltime, its groups and the quantity of each level, reaches the scheduler as it was asked.", "quantifier": "all requests, all histories of submissions (finished or cut short at any commit), all sets of waiting jobs read together", "why_tests_cant": "The rows of every earlier submission are in the same tables and the reading is a single pass over the rows of all jobs.", "anchors": ["oar/lib/submission.py:add_micheline_subjob", "oar/lib/submission.py:add_micheline_simple_array_job", "oar/lib/job_handling.py:get_data_jobs"]}
{"id": "C102", "title": "A waiting job is fully described", "statement": "At every commit of every submission, a job in state Waiting has all its instances, groups and levels in the database.", "quantifier": "all histories of submissions and every point where the submitting process can die", "why_tests_cant": "The crash points between the commits of a submission are not reached by tests.", "anchors": ["oar/lib/submission.py:add_micheline_subjob", "oar/lib/submission.py:add_micheline_simple_array_job"]}
{"id": "C103", "title": "A submission cut short leaves nothing behind", "statement": "If the submitting process dies, either the whole submission is in the database or nothing of it.", "quantifier": "every point where the submitting process can die", "why_tests_cant": "Needs a crash between two commits.", "anchors": ["oar/lib/submission.py:add_micheline_subjob", "oar/lib/submission.py:add_micheline_simple_array_job"]}
{"id": "C104", "title": "The jobs of an array", "statement": "The jobs of an array have consecutive identifiers, which are those returned, the identifier of the first as array identifier, indices from 1 and the commands in their order.", "quantifier": "all arrays, with or without job key, after any history", "why_tests_cant": "Quantifies over the number of jobs and the rows already there.", "anchors": ["oar/lib/submission.py:add_micheline_subjob", "oar/lib/submission.py:add_micheline_simple_array_job", "oar/lib/submission.py:add_micheline_jobs"]}
{"id": "C105", "title": "The type no_quotas is not for users", "statement": "With quotas on, a job does not escape them by asking for the type no_quotas.", "quantifier": "all lists of types", "why_tests_cant": "Every list of types, with repetitions.", "anchors": ["oar/lib/submission.py:add_micheline_jobs"]}
{"id": "C106", "title": "Errors of a submission are reported", "statement": "A submission that creates no job ends with an error code, and a reservation asked for is a reservation.", "quantifier": "all requests, single or array", "why_tests_cant": "Every request and every error of the steps below.", "anchors": ["oar/lib/submission.py:add_micheline_jobs", "oar/lib/submission.py:add_micheline_simple_array_job"]}
{"id": "C107", "title": "Without condition, only resources of type default", "statement": "A job submitted without any condition only gets resources of type default, and acceptance and scheduling look at the same resources.", "quantifier": "all platforms, all conditions of job and group", "why_tests_cant": "Depends on the resources of other types present and on NULL against the empty text.", "anchors": ["oar/lib/job_handling.py:get_data_jobs", "oar/lib/submission.py:estimate_job_nb_resources"]}
{"id": "C108", "title": "One broken job does not stop the others", "statement": "A job whose description is missing does not prevent the other jobs from being scheduled.", "quantifier": "all databases, all sets of jobs read together", "why_tests_cant": "Needs the rows left by a crash.", "anchors": ["oar/lib/job_handling.py:get_data_jobs"]}
{"id": "C109", "title": "Only long-idle nodes are put to sleep", "statement": "With an energy-saving command, an idle time and a sleep time configured, the nodes the metascheduler asks to halt are exactly those with an Alive default resource that may be switched off, whose such resources all had their last job before now minus the idle time, on which no planned job starts within the sleep time, and which were not woken up within the idle time. Without that configuration none is. A resource declared as never to be switched off should stay on.", "quantifier": "every configuration, set of resources, plan, history of wake-ups and date", "why_tests_cant": "the set depends on every resource of each node, the whole plan and the log", "anchors": ["oar/kao/meta_sched.py:nodes_energy_saving", "oar/lib/node.py:search_idle_nodes", "oar/lib/node.py:get_next_job_date_on_node", "oar/lib/node.py:get_last_wake_up_date_of_node"]}
{"id": "C110", "title": "Nodes are woken up in time for waiting jobs", "statement": "The nodes asked to wake up are exactly those with an Absent default resource given to a waiting job planned to start within the wake-up time and ending before the resource's availability ends; a node is never asked to sleep and to wake up at the same time; a configured wake-up command is enough for this.", "quantifier": "every configuration, set of resources, plan and date", "why_tests_cant": "depends on all the plan and resources", "anchors": ["oar/kao/meta_sched.py:nodes_energy_saving", "oar/lib/node.py:get_gantt_hostname_to_wake_up"]}
{"id": "C111", "title": "A minimum of idle nodes is kept alive", "statement": "For each property of the keepalive option, after the halts launched in a cycle the number of nodes of the property that are up (or about to be) with no job is at least the minimum, or all that there were.", "quantifier": "every reachable state of the energy manager, request, configuration and platform", "why_tests_cant": "the count must hold for every number of requests and every overlap of the properties", "anchors": ["oar/modules/greta.py:Greta.run"]}
{"id": "C112", "title": "One command at a time on a node", "statement": "In a cycle at most one command is launched on a node; none while a halt process still runs on it within the window; none while it boots, before its timeout and until it is up, for any number of later cycles and restarts. A request is carried out once.", "quantifier": "every history of requests, process ends, restarts and states of the platform", "why_tests_cant": "needs invariants over unbounded histories", "anchors": ["oar/modules/greta.py:Greta.run", "oar/modules/greta.py:WindowForker.check_executors"]}
{"id": "C113", "title": "A node with a job is not halted", "statement": "The energy manager never launches a halt on a node that is up and has a job at that moment.", "quantifier": "every history", "why_tests_cant": "depends on the interleaving of requests and job starts", "anchors": ["oar/modules/greta.py:Greta.run"]}
{"id": "C114", "title": "A node that was halted can be woken up", "statement": "After a halt command, however it ends, a later request to wake up the node launches a wake-up.", "quantifier": "every history, including failed commands and restarts", "why_tests_cant": "a state that blocks a node for ever is only seen over all continuations", "anchors": ["oar/modules/greta.py:Greta.run", "oar/modules/greta.py:WindowForker.check_executors"]}
{"id": "C115", "title": "The energy manager goes on and reports failures", "statement": "From every reachable state each cycle terminates without exception (with the timeouts defined for 1 node); a node that does not boot in time or whose command fails is suspected, and nodes are suspected for no other reason; a halted node is set Absent; an unknown command does not stop the manager.", "quantifier": "every reachable state, request and end of the processes", "why_tests_cant": "absence of exceptions (missing keys) must hold in every reachable state", "anchors": ["oar/modules/greta.py:Greta.run", "oar/modules/greta.py:WindowForker.check_executors"]}
{"id": "C116", "title": "Wake-up timeouts follow the option", "statement": "The timeout used for n nodes is that of the greatest number at most n in the option; the last couple given for a number counts; a wrong couple is ignored with a warning, and a set of couples that does not start at 1 still works.", "quantifier": "every option value and number of nodes", "why_tests_cant": "all lists of couples", "anchors": ["oar/modules/greta.py:fill_timeouts", "oar/modules/greta.py:get_timeout"]}
{"id": "C117", "title": "A resubmitted job asks for the same thing", "statement": "The job made by a resubmission has the command, properties and types of the first one and asks for the same alternatives, groups, levels and walltimes, in an order the scheduler reads the same way; this is what its user asked for the first time, whatever happened since.", "quantifier": "every database state, job, and order in which the database returns rows; every history of submissions and resubmissions", "why_tests_cant": "the copy runs over three nested tables of any size while it inserts in them; the order of rows is not fixed", "anchors": ["oar/lib/job_handling.py:resubmit_job"]}
{"id": "C118", "title": "Resubmission keeps dependencies", "statement": "Jobs that required the old job require the new one, and no other dependency changes; the new job requires the jobs that the old one required.", "quantifier": "every set of dependencies", "why_tests_cant": "all graphs of dependencies", "anchors": ["oar/lib/job_handling.py:resubmit_job"]}
{"id": "C119", "title": "A resubmitted job is accounted", "statement": "The run of a job made by a resubmission is added to the accounting when it ends, even if the old job was already accounted.", "quantifier": "every state and history of accounting runs", "why_tests_cant": "depends on when the accounting ran between two events", "anchors": ["oar/lib/job_handling.py:resubmit_job", "oar/lib/accounting.py:check_accounting_update"]}
{"id": "C120", "title": "Who may resubmit what", "statement": "A resubmission succeeds exactly for a passive job that is over, asked by its owner or an administrator, unless another user has a current job with the same key; when refused it changes nothing.", "quantifier": "every state and user", "why_tests_cant": "all combinations of states, users and keys", "anchors": ["oar/lib/job_handling.py:resubmit_job", "oar/lib/job_handling.py:get_count_same_ssh_keys_current_jobs"]}
{"id": "C121", "title": "At most one automatic resubmission of a job", "statement": "No job is resubmitted automatically twice, however many events it has, whichever are treated again or cut short, and whatever users resubmit meanwhile.", "quantifier": "every history", "why_tests_cant": "the guard is spread over three places and must hold over all histories", "anchors": ["oar/modules/node_change_state.py:NodeChangeState.run", "oar/lib/job_handling.py:check_end_of_job", "oar/lib/job_handling.py:is_job_already_resubmitted"]}
{"id": "C122", "title": "Who is run again after an event", "statement": "An event makes a job run again exactly if it is a batch job, not a reservation, not run again before, and either the system failed before the job could run or the job, declared idempotent, ran over a minute, exited with code 99 and was not killed. A job deleted by its user or run to its end does not run again.", "quantifier": "every event and state", "why_tests_cant": "all event types crossed with all job states and histories", "anchors": ["oar/modules/node_change_state.py:NodeChangeState.run"]}
{"id": "C123", "title": "The nodes blamed by an event", "statement": "An event makes suspected exactly the nodes it names, or the nodes of its job, or one node of its job, depending on its type; each once; a node suspected by the check of nodes is marked so that the check can restore it; other events suspect nobody.", "quantifier": "every event and state", "why_tests_cant": "all event types, lists of hosts and assignments", "anchors": ["oar/modules/node_change_state.py:NodeChangeState.run"]}
{"id": "C124", "title": "Every event is treated", "statement": "The treatment of the pending events ends without exception and leaves none of them pending; an event added meanwhile is treated at the next run.", "quantifier": "every list of pending events, and every interleaving with new events", "why_tests_cant": "one bad event must not block the others, for all combinations", "anchors": ["oar/modules/node_change_state.py:NodeChangeState.run", "oar/lib/event.py:get_to_check_events", "oar/lib/event.py:check_event"]}
{"id": "C125", "title": "A failure of a server script stops the queues", "statement": "A failure of the server prologue or epilogue makes all the queues inactive and puts its job in error; no other event touches the queues.", "quantifier": "every list of events, with or without exception", "why_tests_cant": "must hold whatever the other events do", "anchors": ["oar/modules/node_change_state.py:NodeChangeState.run", "oar/lib/queue.py:stop_all_queues"]}
{"id": "C126", "title": "A job is started at most once", "statement": "Whatever launch requests and executor reports arrive for a job, in whatever order and with whatever answers of the nodes, its command is sent to a node at most once, and never if the job is not waiting for its launch; that the launch has begun is recorded before anything else is done.", "quantifier": "every history of requests, reports and state changes that do not put the job back to toLaunch", "why_tests_cant": "the order and number of the requests is unbounded", "anchors": ["oar/modules/bipbip.py:BipBip.run"]}
{"id": "C127", "title": "No start after a failed server prologue", "statement": "The command of a job is started only if the server prologue succeeded; a failure of the prologue is recorded.", "quantifier": "every job, configuration and result of the two runs of the prologue", "why_tests_cant": "depends on every combination of script results and node answers", "anchors": ["oar/modules/bipbip.py:BipBip.run", "oar/modules/bipbip.py:BipBip.call_server_prologue"]}
{"id": "C128", "title": "A failed launch is never silent", "statement": "A launch either ends with the job running, or an event of the job is recorded.", "quantifier": "every job and every answer of nodes, scripts and executor", "why_tests_cant": "all the failure paths and their exceptions have to be followed", "anchors": ["oar/modules/bipbip.py:BipBip.run", "oar/lib/event.py:add_new_event"]}
{"id": "C129", "title": "A job runs only inside its cpusets", "statement": "When cpusets are configured, the command of a job is started only after they were set up on every node of the job; for a reservation, never on a node where the setup failed.", "quantifier": "every job and every answer of the nodes", "why_tests_cant": "quantifies over every partial failure", "anchors": ["oar/modules/bipbip.py:BipBip.run", "oar/lib/tools.py:manage_remote_commands"]}
{"id": "C130", "title": "The head node has passed the checks", "statement": "The command is sent to a node of the job which passed the checks made just before.", "quantifier": "every job and every answer of the nodes", "why_tests_cant": "quantifies over every partial failure", "anchors": ["oar/modules/bipbip.py:BipBip.run", "oar/lib/tools.py:pingchecker"]}
{"id": "C131", "title": "The client of an interactive job is told, or the job is deleted", "statement": "The client of an interactive job either learns that its job runs or gets an error message, and a job whose client cannot be reached is deleted.", "quantifier": "every interactive job and every answer of nodes, executor and client", "why_tests_cant": "all the failure paths have to be followed", "anchors": ["oar/modules/bipbip.py:BipBip.run", "oar/modules/leon.py:Leon.run"]}
{"id": "C132", "title": "Only the executor of a job ends it", "statement": "A report of the end of a started job changes it only if it carries the secret given to its executor and a number; with another secret only an event is recorded; a report for a job in another state does nothing, and no report starts the command again.", "quantifier": "every report (any list of texts) and every state of the job", "why_tests_cant": "forged reports are arbitrary texts", "anchors": ["oar/modules/bipbip.py:BipBip.run", "oar/lib/job_handling.py:check_end_of_job"]}
{"id": "C133", "title": "Exactly the silent nodes are suspected", "statement": "The node check and the remote commands return exactly the hosts, each once, for which no successful answer was read.", "quantifier": "every list of hosts and every output of the check program", "why_tests_cant": "the output is arbitrary text", "anchors": ["oar/lib/tools.py:pingchecker", "oar/lib/tools.py:pingchecker_exec_command", "oar/lib/tools.py:manage_remote_commands"]}
{"id": "C134", "title": "The failures at the end of a job are recorded", "statement": "At the end of a job, the events of its exit code, the failure of the server epilogue, the nodes that could not be cleaned and those that do not answer are all recorded.", "quantifier": "every exit code and every answer of epilogue and nodes", "why_tests_cant": "the failures combine", "anchors": ["oar/lib/job_handling.py:job_finishing_sequence", "oar/lib/job_handling.py:check_end_of_job", "oar/lib/event.py:add_new_event_with_host"]}
{"id": "C135", "title": "The cpusets are removed", "statement": "The cpusets set up for a job are removed on all its nodes when its launch fails or when it ends.", "quantifier": "every job and every answer of the nodes", "why_tests_cant": "quantifies over every partial failure", "anchors": ["oar/modules/bipbip.py:BipBip.run", "oar/lib/job_handling.py:job_finishing_sequence"]}
{"id": "C136", "title": "The waiting clients are given the verdict of the round", "statement": "At the end of a round that nothing interrupts, every refused job (toError) becomes Error and every accepted reservation becomes Waiting; the other jobs keep their row. The clients of refused interactive jobs and of refused batch reservations receive the message then BAD JOB, those of accepted reservations receive GOOD RESERVATION, those of waiting interactive jobs their predicted start, at the address host:port they registered, in the order of the table; nobody else receives anything.", "quantifier": "every table of jobs, of predictions and assignments, every answer of the clients, of the commander and of the resume script", "why_tests_cant": "The verdict must be right for every mix of states, job types and unreachable clients.", "anchors": ["oar/kao/meta_sched.py:meta_schedule", "oar/lib/tools.py:notify_tcp_socket", "oar/lib/tools.py:notify_user"]}
{"id": "C137", "title": "A round reaches its end exactly when no registered client address is malformed or required client missing", "statement": "The notifications of a round run to their end if and only if: the energy saving mode is a known one; every resuming job is either contended or has a configured script and is not noop; every waiting interactive job with a predicted start, and every refused job concerned, registered host:number; every accepted reservation registered host:number and its client answers. (So one reservation client that went away stops every later round; so does a reservation made through the API.)", "quantifier": "every table of jobs, of predictions and assignments, every answer of the clients, of the commander and of the resume script; every number of successive rounds", "why_tests_cant": "The interruption shows up only for the particular client that does not answer, and persists over all later rounds.", "anchors": ["oar/kao/meta_sched.py:meta_schedule"]}
{"id": "C138", "title": "Launch orders are repeated until received, at most once per round", "statement": "A round orders the launch of exactly the jobs in toLaunch whose order was not yet received by the commander during the same round; within a round no order is received twice; a job still in toLaunch at the next round is ordered again.", "quantifier": "every table of jobs, of predictions and assignments, every answer of the clients, of the commander and of the resume script", "why_tests_cant": "Needs every pattern of refused connections over several rounds.", "anchors": ["oar/kao/meta_sched.py:notify_to_run_job"]}
{"id": "C139", "title": "What the users are shown is the plan of some round, or nothing", "statement": "After any history of plans written and of copies for the users, each possibly cut at any commit, the shown predictions and assignments are both empty or are both the plan that was current at some earlier moment; a copy that is not cut shows the current plan.", "quantifier": "every history of plans and of copies, each cut after any number of commits", "why_tests_cant": "Crash points in the middle of the copy cannot be enumerated by unit tests over all histories.", "anchors": ["oar/kao/meta_sched.py:update_gantt_visualization", "oar/lib/job_handling.py:update_gantt_visualization"]}
{"id": "C140", "title": "A lost interactive session is deleted, and only a lost one", "statement": "When a round run by root or oar ends, the jobs whose deletion is requested are those requested before, the waiting interactive jobs with a predicted start whose client could not be told, and the resuming jobs whose script failed; the event LOST_SESSION is recorded for exactly the former.", "quantifier": "every table of jobs, of predictions and assignments, every answer of the clients, of the commander and of the resume script", "why_tests_cant": "Depends on which of an arbitrary number of clients answer.", "anchors": ["oar/kao/meta_sched.py:meta_schedule", "oar/lib/job_handling.py:frag_job"]}
{"id": "C141", "title": "A reservation about to start asks for another round", "statement": "A round that is not interrupted ends with code 1 exactly when an accepted reservation starts within a second and no job was asked to be killed (code 2), and with code 2 exactly when it was before the notifications.", "quantifier": "every table of jobs, of predictions and assignments, every answer of the clients, of the commander and of the resume script", "why_tests_cant": "Combination of arbitrary jobs and dates.", "anchors": ["oar/kao/meta_sched.py:meta_schedule"]}
{"id": "C142", "title": "A failing external scheduler stops its queue, and only it", "statement": "After an external scheduler ended with exit status rc (or could not be run), the queues are those before, except that the queue scheduled by it is notActive when rc is not 0.", "quantifier": "every list of queues, every result of the scheduler", "why_tests_cant": "All exit statuses and lists of queues.", "anchors": ["oar/kao/meta_sched.py:call_external_scheduler"]}
{"id": "C143", "title": "A job whose resume script fails is deleted with an event", "statement": "When a round ends, the event RESUME_SCRIPT_ERROR is recorded exactly for the resuming jobs, not contended, whose script failed or timed out, and their deletion is requested. (No round, interrupted or not, ever makes a resuming job run again.)", "quantifier": "every table of jobs, of predictions and assignments, every answer of the clients, of the commander and of the resume script", "why_tests_cant": "Arbitrary results of scripts for arbitrary sets of jobs.", "anchors": ["oar/kao/meta_sched.py:meta_schedule", "oar/lib/job_handling.py:resume_job"]}
{"id": "C144", "title": "Running best-effort jobs do not take resources from the others, but do from best-effort jobs when their queue is alone", "statement": "The resources offered to the queues of a round are those of the platform minus, at each date, those of the running jobs that are not best-effort; before the queue besteffort, alone at its priority, is scheduled, those of the running best-effort jobs are taken as well. (Not when another queue has its priority.)", "quantifier": "every well-formed slot set and every list of running jobs with resources and dates, at every instant and for every resource", "why_tests_cant": "All dates and resources.", "anchors": ["oar/kao/meta_sched.py:gantt_init_with_running_jobs", "oar/kao/meta_sched.py:meta_schedule", "oar/kao/scheduling.py:set_slots_with_prev_scheduled_jobs"]}
{"id": "C145", "title": "The priority of a resource tells what runs on it, and comes back to its value", "statement": "After any history of launches, state changes, ends and changes of the best-effort type by an administrator (each job changed at most once, and not one that is both best-effort and time-sharing), the scheduler priority of every resource is its initial one plus, for every job then occupying resources that is best-effort or time-sharing, 2k for the k-th column of SCHEDULER_PRIORITY_HIERARCHY_ORDER at which the resource has the value of a resource of the job, times ten if the job is only best-effort. When no job is active, it is the initial one.", "quantifier": "every set of resources, columns and jobs, every value of the option, every history", "why_tests_cant": "The sum over all histories and overlapping jobs cannot be enumerated.", "anchors": ["oar/lib/resource_handling.py:update_current_scheduler_priority", "oar/lib/job_handling.py:set_job_state", "oar/cli/oardel.py:oardel"]}
{"id": "C146", "title": "Ended jobs leave no trace in the priorities", "statement": "Whatever happened (changes of type, moves of resources, kills of a process at any point), once all jobs have ended every resource has its initial scheduler priority.", "quantifier": "every history, with kills and changes of columns", "why_tests_cant": "Crash points and histories.", "anchors": ["oar/lib/resource_handling.py:update_current_scheduler_priority", "oar/cli/oardel.py:oardel"]}
{"id": "C147", "title": "A list of jobs is in order, without doubles, and holds only what was asked", "statement": "Whatever the user, states, identifiers, array, SQL condition and dates given to oarstat or to the REST API, the list is in ascending order of identifiers, shows each job once, and every job in it has the user, the state, the identifier, the array and the condition that were asked for.", "quantifier": "every database, every combination of arguments", "why_tests_cant": "The query is a union of three queries over joins; duplicates or jobs that do not match appear only for particular combinations of rows and arguments.", "anchors": ["oar/lib/basequery.py:filter_jobs_for_user", "oar/lib/basequery.py:get_jobs_for_user"]}
{"id": "C148", "title": "A job can always be looked up by its identifier", "statement": "oarstat -j ID (or ids=ID) shows the job ID if and only if it exists.", "quantifier": "every database, every list of identifiers", "why_tests_cant": "It depends on every state a job can end in and on what is left of it in the other tables.", "anchors": ["oar/lib/basequery.py:filter_jobs_for_user"]}
{"id": "C149", "title": "The list without options shows the jobs that are not over", "statement": "oarstat without options lists exactly the jobs that are in a state other than Terminated and Error.", "quantifier": "every database", "why_tests_cant": "States and tables vary independently.", "anchors": ["oar/lib/basequery.py:filter_jobs_for_user"]}
{"id": "C150", "title": "The list of a period shows the jobs of that period", "statement": "With --gantt or from/to, a job is listed if and only if it ran, is planned to run or was waiting during the period.", "quantifier": "every database, every period", "why_tests_cant": "Boundaries of the period against the dates of the jobs, in each state.", "anchors": ["oar/lib/basequery.py:filter_jobs_for_user", "oar/api/routers/job.py:index"]}
{"id": "C151", "title": "The API shows the resources and nodes of the job asked for, and says when it does not exist", "statement": "GET /jobs/ID?details and GET /jobs/ID/resources give exactly the resources assigned to the job ID, and the nodes are these of the resources, each once; a job that does not exist is answered with 404.", "quantifier": "every database, every identifier", "why_tests_cant": "A query without its filter passes any test with a single job.", "anchors": ["oar/api/routers/job.py:show", "oar/api/routers/job.py:get_resources", "oar/api/routers/job.py:attach_nodes", "oar/lib/basequery.py:get_assigned_one_job_resources"]}
{"id": "C152", "title": "Best effort jobs are put in the besteffort queue and only get resources open to best effort", "statement": "With the delivered rules a job is of type besteffort if and only if its queue is besteffort, it is never a reservation, and every resource the scheduler selects for it has besteffort = 'YES'.", "quantifier": "every submission, every list of queues, every state of the database, with the rules as delivered, every condition", "why_tests_cant": "Conditions of users and rules are combined as texts: every possible condition matters.", "anchors": ["etc/oar/admission_rules.d/06_besteffort_formatting.py", "etc/oar/admission_rules.d/07_besteffort_advance_reservation.py", "oar/lib/submission.py:apply_admission_rules", "oar/lib/submission.py:add_micheline_jobs", "oar/lib/job_handling.py:get_data_jobs"]}
{"id": "C153", "title": "Only administrators submit to the admin queue or without quotas", "statement": "An admitted job is not submitted by root or oar, its queue exists, it is in the queue admin only if its user is a member of the Unix group admin, and it has the type no_quotas only if it is in the queue admin and quotas are enabled.", "quantifier": "every submission, every list of queues, every state of the database, with the rules as delivered", "why_tests_cant": "It is an access control: it must hold for every combination of types, queue and user.", "anchors": ["etc/oar/admission_rules.d/02_prevent_root_oar_toSubmit.py", "etc/oar/admission_rules.d/04_submit_in_admin_queue.py", "oar/lib/submission.py:apply_admission_rules", "oar/lib/submission.py:add_micheline_jobs"]}
{"id": "C154", "title": "A user has at most two reservations waiting", "statement": "A user that is not in the list of unlimited users never has more than two reservations accepted or to be examined that have not started.", "quantifier": "every history of submissions, decisions of the scheduler and changes of state", "why_tests_cant": "The limit is checked at submission only, so it must be an invariant of histories.", "anchors": ["etc/oar/admission_rules.d/11_advance_reservation_limitation.py", "oar/lib/submission.py:apply_admission_rules", "oar/lib/submission.py:add_micheline_jobs"]}
{"id": "C155", "title": "Default walltime of two hours, at most twelve for interactive jobs", "statement": "Each description of an admitted job has a walltime: the one asked for, two hours if none was asked for, and at most twelve hours for an interactive job that is not a reservation.", "quantifier": "every submission, every list of queues, every state of the database, with the rules as delivered", "why_tests_cant": "Several rules rewrite the walltime one after the other.", "anchors": ["etc/oar/admission_rules.d/13_default_walltime.py", "etc/oar/admission_rules.d/14_interactive_max_walltime.py", "oar/lib/submission.py:apply_admission_rules", "oar/lib/submission.py:add_micheline_jobs"]}
{"id": "C156", "title": "Deployment jobs get whole nodes open to deployment", "statement": "A job of type deploy asks for no resource smaller than a node, and every resource selected for it has deploy = 'YES'.", "quantifier": "every submission, every list of queues, every state of the database, with the rules as delivered, every condition", "why_tests_cant": "See C152.", "anchors": ["etc/oar/admission_rules.d/08_deploy_formatting.py", "etc/oar/admission_rules.d/09_prevent_deploy_on_non-entire_nodes.py", "oar/lib/submission.py:apply_admission_rules", "oar/lib/submission.py:add_micheline_jobs"]}
{"id": "C157", "title": "Administrative properties cannot be asked for as resources", "statement": "No description of an admitted job, in any of its groups, asks for a number of resources by an administrative property (state, next_state, suspended_jobs, besteffort, ...).", "quantifier": "every submission, every list of queues, every state of the database, with the rules as delivered", "why_tests_cant": "It ranges over every nesting of descriptions and groups.", "anchors": ["etc/oar/admission_rules.d/05_filter_bad_resources.py", "oar/lib/submission.py:apply_admission_rules", "oar/lib/submission.py:add_micheline_jobs"]}
{"id": "C158", "title": "Only known types are admitted", "statement": "Every type of an admitted job is one of the types of the documentation, and every such type is admitted.", "quantifier": "every submission, every list of queues, every state of the database, with the rules as delivered, every text of type", "why_tests_cant": "The check is a set of regular expressions on arbitrary texts.", "anchors": ["etc/oar/admission_rules.d/15_check_types.py", "oar/lib/submission.py:apply_admission_rules", "oar/lib/submission.py:add_micheline_jobs"]}
{"id": "C159", "title": "Rules are applied in the order of their numbers", "statement": "The files of rules whose names begin with a number are applied in the order of these numbers, each as it is written, and no other file is.", "quantifier": "every set of files", "why_tests_cant": "The order comes from the names and contents of files chosen by administrators.", "anchors": ["oar/lib/submission.py:apply_admission_rules"]}
{"id": "C160", "title": "No job runs on a drained resource, and the condition of the user is respected", "statement": "Every resource selected for an admitted job has drain='NO' and satisfies the condition given with -p.", "quantifier": "every submission, every list of queues, every state of the database, with the rules as delivered, every condition", "why_tests_cant": "See C152.", "anchors": ["etc/oar/admission_rules.d/03_avoid_jobs_on_resources_in_drain_mode.py", "oar/lib/submission.py:apply_admission_rules", "oar/lib/submission.py:add_micheline_jobs", "oar/lib/job_handling.py:get_data_jobs"]}
{"id": "C161", "title": "Maintenance keeps the date a resource is available up to", "statement": "After oarnodesetting -m on the resource is available up to 0, and after -m off it is available up to the date it had before the maintenance, whatever commands were given in between, even if a command is killed.", "quantifier": "every history of commands, every set of targets, every kill point between two commits", "why_tests_cant": "needs every sequence of commands and every state of the table", "anchors": ["oar/cli/oarnodesetting.py:oarnodesetting", "oar/cli/oarnodesetting.py:set_maintenance", "oar/lib/resource_handling.py:set_resources_property"]}
{"id": "C162", "title": "The log of maintenance says when a resource was under maintenance", "statement": "At every date, the resource log has an open maintenance interval for the resource exactly when the resource was under maintenance (available up to 0) at that date.", "quantifier": "every history of commands, every date, every kill point", "why_tests_cant": "needs every sequence of commands and every state of the table", "anchors": ["oar/cli/oarnodesetting.py:oarnodesetting", "oar/cli/oarnodesetting.py:set_maintenance", "oar/lib/resource_handling.py:set_resources_property", "oar/lib/resource_handling.py:log_resource_maintenance_event"]}
{"id": "C163", "title": "The log of a property says the value it had at every date", "statement": "At every date the resource log gives at most one value for a property of a resource, and it is the value the property had at that date; if it gives none the property had never been changed.", "quantifier": "every history of oarnodesetting commands, every resource, property and date, every kill point", "why_tests_cant": "needs every sequence of commands and every state of the table", "anchors": ["oar/cli/oarnodesetting.py:oarnodesetting", "oar/cli/oarnodesetting.py:set_maintenance", "oar/lib/resource_handling.py:set_resources_property"]}
{"id": "C164", "title": "oarnodesetting changes only its targets", "statement": "A command of oarnodesetting changes no column of a resource it is not about, and none of the columns the server keeps for itself except the next state; in particular identifiers do not change.", "quantifier": "every command, every table", "why_tests_cant": "needs every sequence of commands and every state of the table", "anchors": ["oar/cli/oarnodesetting.py:oarnodesetting", "oar/cli/oarnodesetting.py:set_maintenance", "oar/lib/resource_handling.py:set_resources_property", "oar/lib/tools.py:check_resource_system_property"]}
{"id": "C165", "title": "oarnodesetting waits for the jobs of what it sends away", "statement": "Unless --no-wait is given, a command that makes resources or hosts Absent or Dead waits for the jobs of every one of them, whether they are given by -r, -h or -f.", "quantifier": "every command, every list of targets", "why_tests_cant": "needs every sequence of commands and every state of the table", "anchors": ["oar/cli/oarnodesetting.py:oarnodesetting", "oar/cli/oarnodesetting.py:set_maintenance", "oar/lib/resource_handling.py:set_resources_property"]}
{"id": "C166", "title": "oarnodesetting --add", "statement": "--add creates one new resource per host, with a new number and the properties given by -p, and leaves the others unchanged.", "quantifier": "every list of hosts and properties", "why_tests_cant": "needs every sequence of commands and every state of the table", "anchors": ["oar/cli/oarnodesetting.py:oarnodesetting", "oar/cli/oarnodesetting.py:set_maintenance", "oar/lib/resource_handling.py:set_resources_property", "oar/lib/resource_handling.py:add_resource"]}
{"id": "C167", "title": "The exit value of oarnodesetting", "statement": "The exit value is 0 exactly when nothing went wrong: a malformed or refused property, an unknown resource or host give another one; several different errors give 15.", "quantifier": "every command and every list of reported errors", "why_tests_cant": "needs every sequence of commands and every state of the table", "anchors": ["oar/cli/oarnodesetting.py:oarnodesetting", "oar/cli/oarnodesetting.py:set_maintenance", "oar/lib/resource_handling.py:set_resources_property", "oar/cli/utils.py:CommandReturns"]}
{"id": "C168", "title": "An exit value of 0 means the properties are set", "statement": "If oarnodesetting exits with 0, every property given a single value by -p or -d has that value on every resource the command is about.", "quantifier": "every command, every table", "why_tests_cant": "needs every sequence of commands and every state of the table", "anchors": ["oar/cli/oarnodesetting.py:oarnodesetting", "oar/cli/oarnodesetting.py:set_maintenance", "oar/lib/resource_handling.py:set_resources_property"]}
{"id": "C169", "title": "The state asked for is recorded", "statement": "Without -m, the next state of every resource the command is about is the one given by -s, whatever happens to the properties of the same command.", "quantifier": "every command, every table", "why_tests_cant": "needs every sequence of commands and every state of the table", "anchors": ["oar/cli/oarnodesetting.py:oarnodesetting", "oar/cli/oarnodesetting.py:set_maintenance", "oar/lib/resource_handling.py:set_resources_property"]}
{"id": "C170", "title": "A broken node is rebooted once, softly then hard", "statement": "While a node stays broken oar_phoenix reboots it softly at most once, then hard at most once, and only when the soft timeout has passed and the node is still reported broken.", "quantifier": "every history of runs, kill points included", "why_tests_cant": "needs every sequence of runs with any answers of the database, any durations and any kill point", "anchors": ["oar/tools/oar_phoenix.py:main", "oar/tools/oar_phoenix.py:get_nodes_to_soft_reboot", "oar/tools/oar_phoenix.py:get_nodes_to_hard_reboot", "oar/lib/node.py:get_nodes_with_given_sql"]}
{"id": "C171", "title": "The number of simultaneous reboots is limited", "statement": "A run of oar_phoenix reboots at most PHOENIX_MAX_REBOOTS nodes (soft or hard).", "quantifier": "every run", "why_tests_cant": "needs every sequence of runs with any answers of the database, any durations and any kill point", "anchors": ["oar/tools/oar_phoenix.py:main", "oar/tools/oar_phoenix.py:get_nodes_to_soft_reboot", "oar/tools/oar_phoenix.py:get_nodes_to_hard_reboot", "oar/lib/node.py:get_nodes_with_given_sql"]}
{"id": "C172", "title": "Every broken node is rebooted in the end", "statement": "A node that stays broken is rebooted after a bounded number of runs.", "quantifier": "every history of runs", "why_tests_cant": "needs every sequence of runs with any answers of the database, any durations and any kill point", "anchors": ["oar/tools/oar_phoenix.py:main", "oar/tools/oar_phoenix.py:get_nodes_to_soft_reboot", "oar/tools/oar_phoenix.py:get_nodes_to_hard_reboot", "oar/lib/node.py:get_nodes_with_given_sql"]}
{"id": "C173", "title": "A repaired node is left alone", "statement": "A run reboots no node that is not broken and forgets it, so that a later failure begins again with a soft reboot.", "quantifier": "every run, every status", "why_tests_cant": "needs every sequence of runs with any answers of the database, any durations and any kill point", "anchors": ["oar/tools/oar_phoenix.py:main", "oar/tools/oar_phoenix.py:get_nodes_to_soft_reboot", "oar/tools/oar_phoenix.py:get_nodes_to_hard_reboot", "oar/lib/node.py:get_nodes_with_given_sql"]}
{"id": "C174", "title": "Options win over directives", "statement": "With oarsub -S, an option given on the command line is used and the #OAR lines of the script for the same option are not.", "quantifier": "every command line, script, option", "why_tests_cant": "the command line, the script, the files and the answers of the database are unbounded texts and any combination of options must hold", "anchors": ["oar/cli/oarsub.py:cli", "oar/lib/submission.py:JobParameters", "oar/lib/submission.py:scan_script"]}
{"id": "C175", "title": "Directives count", "statement": "With oarsub -S, each #OAR line of the form documented (option, value) gives the job that value when the option is not on the command line: the last one for a single value, all of them in order for -l, -t and -a, all of them together for -p; no line can be read in two ways.", "quantifier": "every script, every option and value", "why_tests_cant": "the command line, the script, the files and the answers of the database are unbounded texts and any combination of options must hold", "anchors": ["oar/lib/submission.py:JobParameters", "oar/lib/submission.py:scan_script"]}
{"id": "C176", "title": "No directive is passed over", "statement": "A line that begins with #OAR either has one of the documented forms and counts, or the submission is refused and no job is made.", "quantifier": "every script", "why_tests_cant": "the command line, the script, the files and the answers of the database are unbounded texts and any combination of options must hold", "anchors": ["oar/lib/submission.py:JobParameters", "oar/lib/submission.py:scan_script", "oar/cli/oarsub.py:cli"]}
{"id": "C177", "title": "Size of arrays", "statement": "--array n makes n jobs with the command; a file of parameters makes one job per line that is neither blank nor a comment, its command followed by the line, in order; otherwise one job is made.", "quantifier": "every command line, size, file", "why_tests_cant": "the command line, the script, the files and the answers of the database are unbounded texts and any combination of options must hold", "anchors": ["oar/lib/submission.py:JobParameters", "oar/lib/submission.py:add_micheline_jobs", "oar/cli/oarsub.py:cli"]}
{"id": "C178", "title": "Characters accepted", "statement": "A job made has a name of letters, digits, _ . - only, files of output whose names hold only the characters listed, and a user of letters, digits, _ and -.", "quantifier": "every submission", "why_tests_cant": "the command line, the script, the files and the answers of the database are unbounded texts and any combination of options must hold", "anchors": ["oar/lib/submission.py:JobParameters", "oar/lib/submission.py:add_micheline_jobs"]}
{"id": "C179", "title": "Who may connect", "statement": "oarsub -C connects exactly the owner of the job or oar, as the owner, to the first host of a Running job (the configured host for cosystem and deploy jobs), and its exit value tells whether the connection failed.", "quantifier": "every user, job, value of ssh", "why_tests_cant": "the command line, the script, the files and the answers of the database are unbounded texts and any combination of options must hold", "anchors": ["oar/cli/oarsub.py:connect_job"]}
{"id": "C180", "title": "Job keys", "statement": "With -k each job has a key: the one given, the one of the file, or one made for this job; the other options about keys are refused without -k; -e writes the key.", "quantifier": "every combination of options, every array", "why_tests_cant": "the command line, the script, the files and the answers of the database are unbounded texts and any combination of options must hold", "anchors": ["oar/lib/submission.py:job_key_management", "oar/lib/submission.py:add_micheline_jobs"]}
{"id": "C181", "title": "Submission by the API", "statement": "POST /jobs means the same as oarsub with the same options: file of parameters, reservation, keys; its answer names the first of the jobs made, and an error means that none was made.", "quantifier": "every request", "why_tests_cant": "the command line, the script, the files and the answers of the database are unbounded texts and any combination of options must hold", "anchors": ["oar/api/routers/job.py:submit", "oar/lib/submission.py:add_micheline_jobs", "oar/lib/submission.py:JobParameters"]}
{"id": "C182", "title": "The user is told", "statement": "oarsub prints exactly the jobs made and exits with 0, or it makes none and exits with something else.", "quantifier": "every submission, every failure of a key or of the database", "why_tests_cant": "the command line, the script, the files and the answers of the database are unbounded texts and any combination of options must hold", "anchors": ["oar/cli/oarsub.py:cli", "oar/lib/submission.py:add_micheline_jobs"]}
{"id": "C183", "title": "Date of a reservation", "statement": "oarsub -r takes exactly the dates YYYY-MM-DD hh:mm:ss of the calendar and reserves for that date; anything else is refused with a message and no job is made.", "quantifier": "every text", "why_tests_cant": "the command line, the script, the files and the answers of the database are unbounded texts and any combination of options must hold", "anchors": ["oar/lib/submission.py:check_reservation", "oar/cli/oarsub.py:cli"]}
{"id": "C184", "title": "The last assignment of a key in the configuration file wins", "statement": "After the configuration file is loaded, each key it assigns on a line that is not commented has the value of its last assignment, and every other key keeps the value it had (or is gone when the configuration was cleared first); no key is there twice.", "quantifier": "all files, all keys, all former configurations, with and without clearing", "why_tests_cant": "The files and the sets of keys are unbounded; tests load one or two files.", "anchors": ["oar/lib/configuration.py:Configuration.load_file"]}
{"id": "C185", "title": "A setting is read as it is written", "statement": "A value written in the configuration file, alone or between quotes, is the value the program gets: an integer as an integer, any other text unchanged.", "quantifier": "all texts of values, quoted or not, anywhere in a file", "why_tests_cant": "Every text has to be classified as a number or not; a few literals say nothing about the borders of the grammar of numbers.", "anchors": ["oar/lib/configuration.py:Configuration.load_file", "oar/lib/utils.py:try_convert_decimal"]}
{"id": "C186", "title": "A configuration file that cannot be read changes nothing", "statement": "When the file cannot be opened, or reading it fails at any point, the configuration is what it was before and the caller is told (a value other than True, or an exception).", "quantifier": "all points of failure, all files, silent or not, clearing or not", "why_tests_cant": "The failure may come after any line.", "anchors": ["oar/lib/configuration.py:Configuration.load_file"]}
{"id": "C187", "title": "A configuration starts with the defaults and what it is given", "statement": "A new configuration has every default of the program, replaced by the values given to the constructor.", "quantifier": "all defaults and all values given", "why_tests_cant": "A universal statement on all dictionaries given.", "anchors": ["oar/lib/configuration.py:Configuration.__init__"]}
{"id": "C188", "title": "A namespace has exactly the options with its prefix", "statement": "The namespace of a prefix contains an option for each key that begins with the prefix, with its value, under the name that remains (in small letters when asked), and nothing else.", "quantifier": "all configurations, prefixes and flags", "why_tests_cant": "The sets of keys are unbounded.", "anchors": ["oar/lib/configuration.py:Configuration.get_namespace"]}
{"id": "C189", "title": "The address of the database says what the configuration says", "statement": "The address of the database contains the login, password, host, port and base of the configuration, so that two configurations that differ have different addresses; a setting that is missing is named.", "quantifier": "all configurations, for the normal and the read-only account", "why_tests_cant": "Injectivity ranges over pairs of arbitrary texts.", "anchors": ["oar/lib/configuration.py:Configuration.get_sqlalchemy_uri"]}
{"id": "C190", "title": "The exit value of a command tells its errors", "statement": "A command exits with 0 when none of its messages is an error, with the value of its errors when they agree, with 15 when they differ - whenever it is asked.", "quantifier": "all sequences of messages", "why_tests_cant": "Sequences are unbounded.", "anchors": ["oar/cli/utils.py:CommandReturns.get_exit_value"]}
{"id": "C191", "title": "Only oar and root manage queues", "statement": "oarqueue changes a queue only for the users oar and root; for them it works, for any other user it changes nothing and exits with an error.", "quantifier": "all users, environments, options and sets of queues", "why_tests_cant": "All options and states must be covered.", "anchors": ["oar/cli/oarqueue.py:oarqueue"]}
{"id": "C192", "title": "oarqueue does what is asked to the queue that is named", "statement": "Enabling, disabling, changing and removing concern the queue named and no other; what is asked is done or the user is told; the list shows all queues by decreasing priority.", "quantifier": "all sets of queues, options and names", "why_tests_cant": "Frame conditions over all other queues.", "anchors": ["oar/cli/oarqueue.py:oarqueue", "oar/lib/queue.py"]}
{"id": "C193", "title": "A queue is described by name,priority,policy", "statement": "A text name,priority,policy makes or changes the queue with these values; any other text, or the name of a queue that is there already, is refused without effect.", "quantifier": "all texts and sets of queues", "why_tests_cant": "The language of texts is infinite.", "anchors": ["oar/cli/oarqueue.py:oarqueue", "oar/lib/queue.py:create_queue", "oar/lib/queue.py:change_queue"]}
{"id": "C194", "title": "The properties of OAR itself are never altered", "statement": "Whatever oarproperty is asked, and wherever it stops, the columns of the resources that OAR declares keep their names, types and values.", "quantifier": "all command lines, all tables, all crash points", "why_tests_cant": "All interleavings of options and stops.", "anchors": ["oar/cli/oarproperty.py:oarproperty", "oar/cli/oarproperty.py:check_property_name", "oar/lib/tools.py:check_resource_property"]}
{"id": "C195", "title": "oarproperty adds and deletes the properties that are named", "statement": "The properties named are deleted, or added without values and with the type asked, and the others are kept with their values; a command that fails changes nothing, and a command that does not do all it is asked exits with an error.", "quantifier": "all command lines and tables", "why_tests_cant": "All lists of names, in one command.", "anchors": ["oar/cli/oarproperty.py:oarproperty"]}
{"id": "C196", "title": "Renaming a property keeps the tables consistent", "statement": "After a property is renamed its values, its history and the requests that name it are those of the new name, and nothing else changes; at no time do they disagree.", "quantifier": "all tables, all sequences of renamings, all crash points", "why_tests_cant": "A crash may happen between the two transactions.", "anchors": ["oar/cli/oarproperty.py:oarproperty"]}
{"id": "C197", "title": "Adding a property that is there", "statement": "Adding a property that exists changes nothing, and the user is told when the type asked is not the type it has, and only then.", "quantifier": "all tables, both types", "why_tests_cant": "All tables.", "anchors": ["oar/cli/oarproperty.py:oarproperty"]}
{"id": "C198", "title": "A weekly period is read as written", "statement": "A weekly period of the file of quotas, written as hours (hh, hh:mm or hh:mm:ss, or *) and days (names, a range or a list, or *), covers exactly the instants of the week at those hours of those days, each of them once.", "quantifier": "every text of a weekly period with hours within a day, every instant of the week", "why_tests_cant": "the texts are unbounded and each instant of the week has to be covered exactly once", "anchors": ["oar/kao/quotas.py:Calendar.periodical_fromJson", "oar/lib/tools.py:hms_str_to_duration"]}
{"id": "C199", "title": "A wrong weekly period is refused", "statement": "A weekly period that is not in the documented form (unknown day, impossible hour, day of month or month given) stops the program instead of being read as something else.", "quantifier": "every text", "why_tests_cant": "quantifies over all the texts that are not well formed", "anchors": ["oar/kao/quotas.py:Calendar.periodical_fromJson", "oar/lib/tools.py:hms_str_to_duration"]}
{"id": "C200", "title": "Each instant of the week has the rules the file gives to it", "statement": "At each instant of the week the rules in force are those named by the weekly period that contains it, and those of the (last) default entry when none does; a set of rules that is not in the file stops the program.", "quantifier": "every file, every instant of the week", "why_tests_cant": "any number of periods, in any order, that share or not their sets of rules", "anchors": ["oar/kao/quotas.py:Calendar.__init__", "oar/kao/quotas.py:Calendar.check_periodicals"]}
{"id": "C201", "title": "A limit is the number in the file", "statement": "A limit of a rule, a number or a text that is a number, is that number; the third one is in hours; one number alone stands for the number of resources, as documented.", "quantifier": "every limit", "why_tests_cant": "quantifies over all the numerals", "anchors": ["oar/kao/quotas.py:Quotas.quotas_rules_fromJson"]}
{"id": "C202", "title": "A share of ALL is that share of the resources", "statement": "ALL is the number of resources, and c*ALL is that fraction of it, rounded down.", "quantifier": "every decimal c, every number of resources, every counting mode", "why_tests_cant": "floating-point products are right for most of the values a test tries", "anchors": ["oar/kao/quotas.py:Quotas.quotas_rules_fromJson", "oar/kao/quotas.py:Quotas.enable", "oar/lib/resource.py:ResourceSet"]}
{"id": "C203", "title": "A one-shot period is read as written", "statement": "A one-shot period of the file begins and ends at the dates written and has the rules named; a text that is no date stops the program; the description is free.", "quantifier": "every file, every local time zone", "why_tests_cant": "quantifies over all the files and dates", "anchors": ["oar/kao/quotas.py:Calendar.oneshot_fromJson", "oar/lib/submission.py:check_reservation"]}
{"id": "C204", "title": "One-shot periods do not need weekly ones", "statement": "A file with only one-shot periods is usable: outside of them the default rules apply.", "quantifier": "every file with one-shot periods and no weekly one, every round", "why_tests_cant": "quantifies over all the files and instants", "anchors": ["oar/kao/quotas.py:Calendar.rules_at", "oar/kao/quotas.py:Calendar.__init__"]}
{"id": "C205", "title": "The slots use the rules of the file", "statement": "The default rules are those of the set quotas, the rules of a period are those of its set (an empty set means no limit), the job types counted are those of the file and *.", "quantifier": "every file", "why_tests_cant": "quantifies over all the files", "anchors": ["oar/kao/quotas.py:Quotas.load_quotas_rules", "oar/kao/quotas.py:Quotas.__init__"]}
{"id": "C206", "title": "The FIFO scheduler gives free resources, what was asked for", "statement": "Every job placed by the FIFO scheduler gets resources of the platform that satisfy its condition, that no other job of the cycle gets, in the number and of the kind asked for.", "quantifier": "every platform, every list of jobs and requests", "why_tests_cant": "any number of jobs and resources", "anchors": ["oar/kao/kamelot_fifo.py:schedule_fifo_cycle"]}
{"id": "C207", "title": "First in, first out", "statement": "The jobs placed by a cycle are the first waiting jobs of the queue by number; the first that is not placed cannot be served with what the others leave.", "quantifier": "every database", "why_tests_cant": "the order must hold whatever the jobs", "anchors": ["oar/kao/kamelot_fifo.py:schedule_fifo_cycle", "oar/lib/job_handling.py:get_waiting_jobs"]}
{"id": "C208", "title": "The FIFO scheduler spares the jobs that have resources already", "statement": "No job placed by the FIFO scheduler gets a resource of a job that runs, is being launched or has a reservation.", "quantifier": "every database", "why_tests_cant": "depends on the states of all the other jobs", "anchors": ["oar/kao/kamelot_fifo.py:schedule_fifo_cycle"]}
{"id": "C209", "title": "The FIFO scheduler with the hierarchy serves the whole request", "statement": "With the hierarchy, a job placed gets for each of its groups what the group asks for.", "quantifier": "every hierarchy and request", "why_tests_cant": "any hierarchy and number of groups", "anchors": ["oar/kao/kamelot_fifo.py:schedule_fifo_cycle", "oar/kao/scheduling_basic.py:find_resource_hierarchies_job"]}
{"id": "C210", "title": "An external scheduler serves the queue it is called for", "statement": "Called for a queue, the FIFO scheduler places jobs of that queue and writes in the Gantt what it decided.", "quantifier": "every queue, every database", "why_tests_cant": "quantifies over queues and databases", "anchors": ["oar/kao/kamelot_fifo.py:main", "oar/kao/meta_sched.py:call_external_scheduler", "oar/lib/job_handling.py:save_assigns"]}
{"id": "C211", "title": "oardel deletes exactly what it may", "statement": "oardel on a list of jobs records one request of deletion and one event for each job of the list that exists, belongs to the user (or the user is oar or root) and has no request yet, and nothing for the others; the exit status is 0 exactly when this is the case of all of them and the server was told.", "quantifier": "every database, user and list of identifiers, duplicates included", "why_tests_cant": "lists of any length, with unknown, foreign and already deleted jobs in any order", "anchors": ["oar/cli/oardel.py:oardel", "oar/lib/job_handling.py:frag_job"]}
{"id": "C212", "title": "oardel acts on what was selected", "statement": "The jobs treated are those named, those of the array and those of the condition; when nothing is selected the command says so with an error.", "quantifier": "every combination of options", "why_tests_cant": "depends on the database for the array and the condition", "anchors": ["oar/cli/oardel.py:oardel", "oar/cli/oarhold.py:oarhold", "oar/cli/oarresume.py:oarresume"]}
{"id": "C213", "title": "Signals and checkpoints reach the right jobs", "statement": "oardel -c and -s send exactly one signal, the right one, on the right host, for each running, non interactive job of the list that the user may act on; nothing but events changes; the exit status is 0 exactly when all were sent; the API does the same.", "quantifier": "every database, user, list and network behaviour", "why_tests_cant": "any list, any hosts, any failure of the network", "anchors": ["oar/cli/oardel.py:oardel", "oar/lib/job_handling.py:ask_checkpoint_signal_job", "oar/lib/tools.py:signal_oarexec", "oar/api/routers/job.py:signal"]}
{"id": "C214", "title": "The text of a signal is only a signal", "statement": "Whatever text a user gives to oardel -s, the command run on the host of the job does nothing but record that signal.", "quantifier": "every text", "why_tests_cant": "any text, shell characters included", "anchors": ["oar/lib/tools.py:signal_oarexec", "oar/cli/oardel.py:oardel"]}
{"id": "C215", "title": "The options of administrators", "statement": "--force-terminate-finishing-job and --besteffort are refused to users other than oar and root, without effect; for them the first records an event for exactly the jobs stuck in Finishing, the second changes the type besteffort of exactly the running jobs, and the server is told.", "quantifier": "every database, user and list", "why_tests_cant": "histories of states and lists of any length", "anchors": ["oar/cli/oardel.py:oardel", "oar/lib/job_handling.py:get_job_duration_in_state"]}
{"id": "C216", "title": "oarhold and oarresume", "statement": "Each job that may be held (resumed) gets its request, the others are refused with an error, and the server is told of what was recorded.", "quantifier": "every database, user, configuration and list", "why_tests_cant": "lists of any length with a refusal anywhere", "anchors": ["oar/cli/oarhold.py:oarhold", "oar/cli/oarresume.py:oarresume", "oar/lib/job_handling.py:hold_job", "oar/lib/job_handling.py:resume_job", "oar/api/routers/job.py"]}
{"id": "C217", "title": "oarwalltime asks for the change that is written", "statement": "oarwalltime accepts exactly the texts +t, -t and t with t a number of hours, h:m or h:m:s, meaning more, less, or a new walltime; a request of the owner (or oar, root) for a running job within the rules of the site exits with 0, is recorded as it was written and the server is told; in every other case the status is not 0, nothing is recorded and nothing is sent.", "quantifier": "every text, user, database, configuration and date", "why_tests_cant": "any text of any length; any history of changes", "anchors": ["oar/cli/oarwalltime.py:oarwalltime", "oar/lib/walltime.py:request"]}
{"id": "C218", "title": "oarwalltime shows where a change is", "statement": "Without a new walltime, oarwalltime shows the walltime of the job and what was granted and waits, changes nothing, and exits with 2 for an unknown job or a site without the function.", "quantifier": "every database and job", "why_tests_cant": "every state of the job and of its change", "anchors": ["oar/cli/oarwalltime.py:oarwalltime", "oar/lib/walltime.py:get"]}
{"id": "C219", "title": "The command kamelot runs the cycle it is asked for", "statement": "Called by the meta-scheduler with a queue and a date, or by hand, the command kamelot schedules that queue at that date, with quotas or without.", "quantifier": "every queue, date and configuration of quotas", "why_tests_cant": "every date, as a text", "anchors": ["oar/kao/kamelot.py:main", "oar/kao/meta_sched.py:call_external_scheduler"]}
{"id": "C220", "title": "The summary of oarnodes is right", "statement": "oarnodes -S shows exactly one line for each of the hosts asked for that have resources, with the number of its resources, the number of those that are Alive and have no running job, the running jobs on it, each once, and its state.", "quantifier": "every database and list of hosts", "why_tests_cant": "any number of resources, jobs and hosts, in any order", "anchors": ["oar/cli/oarnodes.py:cluster_summary", "oar/cli/oarnodes.py:get_resources_for_job", "oar/cli/oarnodes.py:get_resources_grouped_by_network_address"]}
{"id": "C221", "title": "oarnodes shows the resources asked for", "statement": "oarnodes shows exactly the resources of the hosts given, those of the identifiers given or selected by --sql, or all of them when nothing is given, each once and in the order of their numbers, whatever options are combined.", "quantifier": "every database and options", "why_tests_cant": "any selection", "anchors": ["oar/cli/oarnodes.py:oarnodes", "oar/lib/node.py:get_resources_of_nodes", "oar/lib/resource_handling.py:get_resources_from_ids"]}
{"id": "C222", "title": "The status of oarnodes tells unknown hosts", "statement": "oarnodes with hosts exits with 0 when every host is known and with 1 otherwise.", "quantifier": "every database and list of hosts", "why_tests_cant": "any hosts", "anchors": ["oar/cli/oarnodes.py:oarnodes"]}
{"id": "C223", "title": "oarnodes -s shows the states", "statement": "oarnodes -s shows the state of each resource, Standby for one that is Absent and available later, the same whatever the format and the selection.", "quantifier": "every database, hosts and identifiers", "why_tests_cant": "every state and date", "anchors": ["oar/cli/oarnodes.py:print_resources_states", "oar/cli/oarnodes.py:print_resources_states_for_hosts", "oar/lib/resource_handling.py:get_resources_state", "oar/lib/node.py:get_resources_state_for_host"]}
{"id": "C224", "title": "oarnodes -e shows the events of the hosts", "statement": "With a date, exactly the events of the host since that date, the latest first; without, the 30 latest ones.", "quantifier": "every database, hosts and date", "why_tests_cant": "any number of events", "anchors": ["oar/cli/oarnodes.py:print_events", "oar/lib/event.py:get_events_for_hostname_from"]}
{"id": "C225", "title": "Options with or without a value", "statement": "oarstat -u and oarnodes -e may be given without a value anywhere on the command line: what follows is then still read as it is written.", "quantifier": "every command line", "why_tests_cant": "any number of arguments in any order", "anchors": ["oar/cli/oarnodes.py:events_option_flag_or_string", "oar/cli/oarstat.py:user_option_flag_or_string"]}
{"id": "C226", "title": "oarstat --accounting shows the consumption of the period", "statement": "With two dates, oarstat --accounting shows one line for each user with a row in a window that meets the period and satisfies the condition given, with the resource-seconds asked and used in these windows, no more and no less; for a user without such a row it says so, with status 0.", "quantifier": "every accounting table, period, user and condition", "why_tests_cant": "any number of rows, projects, queues and windows, in any order of the database", "anchors": ["oar/lib/accounting.py:get_accounting_summary", "oar/cli/oarstat.py:print_accounting", "oar/cli/oarstat.py:gather_all_user_accounting"]}
{"id": "C227", "title": "The first and the last window shown are right", "statement": "The window starts and ends shown for a user are the earliest start and the latest end of the windows of the user in the period.", "quantifier": "every accounting table, period and user", "why_tests_cant": "every order of the groups; depends on which kind has more seconds", "anchors": ["oar/lib/accounting.py:get_accounting_summary", "oar/cli/oarstat.py:print_accounting"]}
{"id": "C228", "title": "The consumption by project adds up", "statement": "For a user, each project with a row in the period has one line, in the order of the names, with its asked and used resource-seconds; they add up to those of the user.", "quantifier": "every accounting table, period, user and condition", "why_tests_cant": "any number of projects, queues and windows", "anchors": ["oar/lib/accounting.py:get_accounting_summary_byproject", "oar/cli/oarstat.py:print_accounting"]}
{"id": "C229", "title": "Reports of consecutive periods add up", "statement": "The consumption shown for a period is the sum of those shown for two periods that follow each other and cover it.", "quantifier": "every accounting table, user and three dates", "why_tests_cant": "every alignment of windows and dates", "anchors": ["oar/lib/accounting.py:get_accounting_summary"]}
{"id": "C230", "title": "The report tells what the jobs used", "statement": "After the accounting table is built, the report of a period that contains all the finished jobs shows for each user the durations (used) and the walltimes (asked) of the finished jobs times their numbers of default resources.", "quantifier": "every job table, window size and order of the database", "why_tests_cant": "unbounded jobs and windows; composes the update and the report", "anchors": ["oar/lib/accounting.py:check_accounting_update", "oar/lib/accounting.py:get_accounting_summary", "oar/cli/oarstat.py:print_accounting"]}
{"id": "C231", "title": "The period of oarstat --accounting is read as written", "statement": "A text made of two dates YYYY-MM-DD separated by a comma is read as the period between their midnights; any other text is refused with a message and status 1.", "quantifier": "every text", "why_tests_cant": "texts of any length", "anchors": ["oar/cli/oarstat.py:print_accounting", "oar/lib/tools.py:sql_to_local"]}
{"id": "C232", "title": "The last Karma shown is that of the last job", "statement": "For each project of a user, the Karma shown is the one the scheduler wrote for the last job of the user in the project that started before the end of the period and has one.", "quantifier": "every job table, user, project and date", "why_tests_cant": "any history of jobs and messages", "anchors": ["oar/lib/accounting.py:get_last_project_karma", "oar/cli/oarstat.py:print_accounting", "oar/lib/job_handling.py:job_message"]}
{"id": "C233", "title": "oarstat -s shows the states of the jobs asked for", "statement": "oarstat -s with -j or --array shows each job asked for once, by id, with its state, as lines, JSON or YAML, and tells when a job asked for does not exist.", "quantifier": "every job table and list of ids or array", "why_tests_cant": "any number of jobs, repeated and unknown ids", "anchors": ["oar/cli/oarstat.py:print_state", "oar/lib/job_handling.py:get_jobs_state", "oar/lib/job_handling.py:get_array_job_ids"]}
{"id": "C234", "title": "oarstat -e shows the events of the jobs asked for", "statement": "oarstat -e shows all the events of the jobs asked for and no others, by job, then by date; JSON and YAML give for each job with events these events in the same order.", "quantifier": "every event table, list of ids or array, and order of events of the same date", "why_tests_cant": "any number of events, any order of the database", "anchors": ["oar/cli/oarstat.py:print_events", "oar/lib/event.py:get_jobs_events"]}
{"id": "C235", "title": "oarstat -p shows the resources of the jobs", "statement": "oarstat -p shows, for each job asked for, in the order given, one line for each resource assigned to it, by id, with its properties except those of the system.", "quantifier": "every job, assignment and resource table and list of ids or array", "why_tests_cant": "any tables, repeated ids, arrays", "anchors": ["oar/cli/oarstat.py:print_properties", "oar/lib/job_handling.py:get_job_resources_properties", "oar/lib/tools.py:check_resource_system_property"]}
{"id": "C236", "title": "The exit code shown tells how the job ended", "statement": "The exit status code shown for a job is the value its processes exited with, or the signal that killed them, and the user can tell which.", "quantifier": "every wait status", "why_tests_cant": "all the values, signals and core flags", "anchors": ["oar/lib/job_handling.py:convert_status_code", "oar/lib/job_handling.py:get_job_exit_status_code", "oar/cli/oarstat.py:cli"]}
{"id": "C237", "title": "The duration shown is the time on the resources", "statement": "oarstat shows for a job on its resources the time since its start, for a job that is over the time from start to end, as days, hours, minutes and seconds, and a dash for a job that has not begun.", "quantifier": "every job and date", "why_tests_cant": "every state, start, stop and date", "anchors": ["oar/cli/oarstat.py:get_table_lines_jobs", "oar/cli/oarstat.py:get_table_lines_fields"]}
{"id": "C238", "title": "The columns shown are those asked for", "statement": "With --specified-field, the table of oarstat has the columns given, in order, with their labels, and one line for each job; an unknown column is refused with a message.", "quantifier": "every list of fields and labels, and every job table", "why_tests_cant": "texts of any length, any number of columns and jobs", "anchors": ["oar/cli/oarstat.py:parse_field_label", "oar/cli/oarstat.py:get_table_lines_fields"]}
{"id": "C239", "title": "The request shown is the one made", "statement": "The request oarstat shows for a job gives each group of resources with its property and its levels, with a plus between groups.", "quantifier": "every request", "why_tests_cant": "any number of groups and levels", "anchors": ["oar/lib/tools.py:format_actual_request", "oar/lib/basequery.py:get_actual_requests", "oar/cli/oarstat.py:print_jobs"]}
{"id": "C240", "title": "oarstat does what its options say", "statement": "-j with --array is refused with status 1 and shows nothing; -e, -p and -s show events, properties and states; -f shows each job with the hosts of its resources, each once; -r shows the hosts in the table; a --gantt that is no period is refused.", "quantifier": "every combination of options and tables", "why_tests_cant": "all combinations of options, any tables", "anchors": ["oar/cli/oarstat.py:cli", "oar/cli/oarstat.py:print_jobs", "oar/lib/basequery.py:get_assigned_jobs_resources"]}
{"id": "C241", "title": "The basic scheduler chooses the earliest finish", "statement": "The basic scheduler gives each job, among its alternatives, the one that can finish first (of several, the first listed), at the first date it can start, with resources that are free for all its walltime and serve the request.", "quantifier": "every slot set, job and list of alternatives", "why_tests_cant": "any number of slots, alternatives and resources", "anchors": ["oar/kao/scheduling_basic.py:assign_resources_mld_job_split_slots", "oar/kao/scheduling_basic.py:find_first_suitable_contiguous_slots"]}
{"id": "C242", "title": "A job without resources is not scheduled", "statement": "The basic scheduler gives no date to a job that cannot be satisfied, and never prefers an alternative that cannot be satisfied to one that can.", "quantifier": "every slot set and request that no date can satisfy", "why_tests_cant": "unsatisfiable requests of any shape, over any slot set", "anchors": ["oar/kao/scheduling_basic.py:assign_resources_mld_job_split_slots", "oar/kao/scheduling_basic.py:find_first_suitable_contiguous_slots"]}
{"id": "C243", "title": "The basic scheduler books no resource twice", "statement": "After a cycle of the basic scheduler no resource is given to two jobs of the cycle at the same instant, nor given to a job when it was not free.", "quantifier": "every slot set and list of jobs", "why_tests_cant": "any number of jobs, in any order, each placed in the slot set left by those before", "anchors": ["oar/kao/scheduling_basic.py:schedule_id_jobs_ct", "oar/kao/kamelot_basic.py:schedule_cycle", "oar/kao/slot.py:SlotSet.split_slots"]}
{"id": "C244", "title": "A job that is too long does not stop the basic scheduler", "statement": "The basic scheduler schedules the other jobs when one of them asks for more time than the slot set has.", "quantifier": "every slot set, list of jobs and walltime", "why_tests_cant": "walltimes beyond the horizon, anywhere in the list", "anchors": ["oar/kao/scheduling_basic.py:find_first_suitable_contiguous_slots", "oar/kao/scheduling_basic.py:schedule_id_jobs_ct"]}
{"id": "C245", "title": "The basic scheduler serves all the groups of a request", "statement": "A job with several groups of resources is placed by the basic scheduler only with all of them, on different resources.", "quantifier": "every request with several groups", "why_tests_cant": "any number of groups and any free resources", "anchors": ["oar/kao/scheduling_basic.py:find_resource_hierarchies_job", "oar/kao/scheduling_basic.py:assign_resources_mld_job_split_slots"]}
{"id": "C246", "title": "The basic scheduler places inner jobs in their container", "statement": "A job of type inner is placed by the basic scheduler during its container and on its resources.", "quantifier": "every list of jobs with containers and inner jobs", "why_tests_cant": "any number and order of the jobs", "anchors": ["oar/kao/scheduling_basic.py:schedule_id_jobs_ct", "oar/kao/kamelot_basic.py:schedule_cycle"]}
{"id": "C247", "title": "A cycle of the basic scheduler keeps clear of what is scheduled", "statement": "A cycle of the basic scheduler gives a job only resources of the platform, not before now, not while a job already scheduled has them, not after the date until which they are available, and none to two jobs at the same instant.", "quantifier": "every platform, dates of availability, jobs already scheduled and waiting jobs", "why_tests_cant": "any number of jobs and dates, in any order", "anchors": ["oar/kao/kamelot_basic.py:schedule_cycle", "oar/kao/slot.py:SlotSet.split_slots_jobs", "oar/kao/scheduling_basic.py:schedule_id_jobs_ct"]}
{"id": "C248", "title": "A cycle of the basic scheduler gives a date to every waiting job", "statement": "After a cycle of the basic scheduler every waiting job has a date, not before now.", "quantifier": "every platform and list of waiting jobs", "why_tests_cant": "any number of jobs and alternatives", "anchors": ["oar/kao/kamelot_basic.py:schedule_cycle", "oar/kao/scheduling_basic.py:schedule_id_jobs_ct"]}
