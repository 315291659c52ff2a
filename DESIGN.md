# Formal model of oar3 in Rocq (Coq 8.16.1)

Sources read as text in /repo; nothing is executed. `rocq/theories/` holds, per area,
`XModel.v` (Gallina transcription of the Python, each definition citing file:lines),
`XSpec.v` (small independent specification vocabulary, where needed), `XProofs.v` (lemmas) and
`XProps.v` (only the property theorems, their non-vacuity examples and `Print Assumptions`).

## Conventions

* Python integers are `Z`. Python `ProcSet` (an external library, set of integers stored as
  intervals) is `gset Z` from std++: union, intersection, difference, emptiness, equality, `issubset`
  and `len` are the mathematical ones. The interval representation and the iteration order of ProcSet are not modelled.
* Python dicts are `gmap` (when order is irrelevant) or association lists (when insertion order matters).
* Exceptions are values: `res A := Ok a | Err e`, `e` being `EKey | EAssert | EIndex | EAttr | EName | EType | EFuel`.
  `EFuel` is the explicit out-of-fuel error of loops; theorems show that it does not occur, or exclude it explicitly.
* Mutable objects reached through a dict are updated in the dict.
* Database tables are lists of records; a SQL query is a `filter`/`map` over the list with the same predicate.
* Logging, metrics, e-mail, sockets, processes are not modelled, except as oracles (e.g. exit code of a child,
  "executor is alive") that the theorems quantify over.

## Properties: what is modelled and how it is proved

| id | model | proof |
|----|-------|-------|
| C01-C08, C10 | `Slot`/`SlotSet` as a `gmap` of linked slots; `split_at_before/after`, `split_slots`, `split_slots_jobs`, look-ups, traversals, transcribed branch by branch | refinement: a well-formed slot set represents a list of consecutive slots; each operation acts on the list; the content at every instant is characterised; induction over operation sequences |
| C09 | `intersec_ts_ph_itvs_slots` | refutation by witness, positive theorem for windows without empty prefix |
| C11-C14 | `hierarchy.py` | induction on level lists / depth |
| C15-C16 | `find_resource_hierarchies_job` | induction on groups; witness |
| C17-C21 | `scheduling.py` no-quota search, moldable choice, main loop | invariants over the job list |
| C22-C25 | `Quotas` counters, rule tree, check, window combination | induction on the job list / slots |
| C26-C27 | `Calendar` | witness; induction on the sorted periodicals |
| C28-C29 | `accounting.py` | induction on fuel = number of windows |
| C30 | `tools.py` duration functions | arithmetic |
| C31-C33 | job table + state log, `set_job_state`, `frag_job`, `hold_job`, `resume_job`, ... | invariants over request sequences |
| C34-C35 | walltime requests and their processing | invariant over request/processing sequences, witness |
| C36-C38 | `Sarko`, `Leon`, `NodeChangeState` decision logic | state machine induction, witnesses |
| C39 | `Almighty` automaton with oracle for clock, messages and exit codes | invariants over runs |
| C40-C41 | `BipbipCommander` loop with oracle for liveness of executors | invariants over runs |
| C42 | token revocation | case analysis |
| C43-C45, C79-C83 | Gantt tables, `gantt_flush_tables`, `handle_jobs_to_launch`, `handle_waiting_reservation_jobs`, `check_besteffort_jobs_to_kill` | list lemmas over tables, witnesses |
| C46-C47, C88-C93 | sorting of waiting jobs, karma, multifactor priority, queue groups | permutation/sortedness of a stable sort, exact rational arithmetic |
| C48, C94-C95 | `parse_resource_descriptions` on characters, `estimate_job_nb_resources` | a printer of requests and a round-trip theorem; induction on groups |
| C49-C56 | rest of `SlotSet` (time-sharing, placeholders, quota counters), `extract_scheduled_jobs`, containers, `schedule_cycle` | refinement to the list of slots |
| C57-C59 | calendar entries, accounting crash points | arithmetic modulo a week; crash points = prefixes of the list of commits |
| C60-C63 | `job_state_logs`, `set_job_state` commits, `Leon`, `check_end_of_job` | invariants over histories |
| C64-C67 | walltime change | invariants, witnesses |
| C68-C69 | `Almighty`, `BipbipCommander` | runs over oracles |
| C70-C72 | API: file names and the shell, proxy rules and locks, pages | a mini-specification of the shell's words; interleavings of two processes; arithmetic |
| C73-C78 | resources: state logs, `NodeChangeState`, `Finaud`, removal, API rights | invariants over histories of commands |
| C84-C87 | `check_reservation_jobs` | invariant over the reservations of a round |
| C96-C100 | `ResourceSet` numbering, conditions | bijection lemmas; an evaluator of AND/OR/parentheses |
| C101-C108 | `add_micheline_jobs`, `add_micheline_subjob`, `add_micheline_simple_array_job`, `get_data_jobs` | invariant over histories of submissions with crash points; refinement of the one-pass reading to the tables |
| C109-C116 | energy saving: `meta_schedule` sleep/wake-up lists, `greta.py` | invariants over cycles of requests, ends of processes and restarts |
| C117-C125 | `resubmit_job`, `NodeChangeState.run` event by event, end of a killed job | invariants over histories of events, resubmissions and other changes; the request tables are those of C101-C108 |
| C126-C135 | `BipBip.run`, `call_server_prologue`, `check_end_of_job`, `job_finishing_sequence`, `pingchecker`, `manage_remote_commands` (answers of nodes, scripts, client: arguments of the model) | traces of actions; case analysis of every path, induction over histories of requests and over the lines read |
| C136-C144 | end of `meta_schedule` (energy mode, resuming jobs, predictions, `toError`, `toAckReservation`, `toLaunch`), `update_gantt_visualization`, `call_external_scheduler`, placing of the running best-effort jobs | steps with exceptions that keep earlier commits; invariants over each loop, induction over rounds and over histories of cut copies |
| C145-C146 | `update_current_scheduler_priority` with its callers (`prepare_job_to_be_launched`, `set_job_state`, `oardel --besteffort`) | invariant over histories: priority = initial + sum of the weights of the active jobs |
| C147-C151 | `filter_jobs_for_user`, `get_jobs_for_user`, `get_assigned_jobs_resources`, API `index`/`show`/`get_resources`/`attach_nodes` | the union of the three SQL queries as a filter; exact characterisations of membership |
| C152-C160 | the delivered admission rules 01 to 15, `apply_admission_rules`, the part of `add_micheline_jobs` around them, how conditions are put together | each rule as a function on the parameters (None: refused), composed in order; one inversion lemma on accepted submissions; conditions as token lists related to the condition trees of C100 |
| C161-C169 | `oarnodesetting`, `set_maintenance`, `set_resources_properties`, `set_resources_property`, `add_resource`, `log_resource_maintenance_event`, `CommandReturns` | a command as a run over a table of resources and its log, with the list of its commits (kill points), exit values and waits; closure of invariants over the operations of a command, then induction over histories of dated commands |
| C170-C173 | `oar_phoenix` (clean_status, get_nodes_to_soft_reboot, get_nodes_to_hard_reboot, the reboots, main) | the status file as a dictionary, a run as a function of the rows told by the database, dates and durations; trace of reboots over histories of runs, induction with a three-state invariant per node, counting for progress |
| C174-C183 | `oarsub` (cli, connect_job), `POST /jobs`, `JobParameters`, `scan_script`, `job_key_management`, `check_reservation`, `add_micheline_jobs` | options and directives as texts, the regular expressions as functions on texts shown equal to a grammar of the lines; files, keys, admission and database as a world given; inversion of the command, induction over lines and jobs |
| C184-C189 | `Configuration` (load_file, constructor, get_namespace, get_sqlalchemy_uri), `try_convert_decimal` | texts as lists of characters; the parts of Decimal, int and float of Python that decide the type written as functions and shown equal to a grammar of numerals; floats are kept as their text; induction over lines and keys |
| C190-C197 | `CommandReturns`, `oarqueue`, `lib/queue.py`, `oarproperty`, `check_resource_property` | queues and columns as lists; oarproperty keeps the list of its durable states (the transaction of the columns and the commits of the session), so that a crash leaves one of them; invariants over the steps |
| C198-C205 | the file of quotas: `Calendar.__init__`, `periodical_fromJson`, `oneshot_fromJson`, `quotas_rules_fromJson`, `load_quotas_rules`, `enable`, `hms_str_to_duration`, the counts of `ResourceSet` | texts as strings, JSON values as a small type; a float is m * 2^e with m of 53 bits rounded to nearest even (compared with Python on 60 random products: the same integers); the weekly periods are then those of C57, the dates those of C183; induction on the texts and the lists of entries |
| C206-C210 | `kamelot_fifo.py` (the cycle and the command), `scheduling_basic.find_resource_hierarchies_job`, `get_waiting_jobs`, `save_assigns` | jobs as rows, resources as finite sets, the hierarchy of C11-C15; one invariant of the loop gives, for each job, the resources left by the jobs before |
| C211-C216 | `oardel.py`, `oarhold.py`, `oarresume.py`, `signal_oarexec` (the text), the routes of the API for signals and holds | the database of C26-C35, the jobs that an array or a condition selects, the hosts and the network are given; induction on the list of jobs, with the exit values of C190 |
| C217-C219 | `oarwalltime.py`, `walltime.get`, `kamelot.main` | the requests of C33-C35 and C66; the texts of hours are read back from their splitting; the date of kamelot is a float read exactly (C201) |
| C220-C225 | `oarnodes.py` without the layout, `get_events_for_hostname_from`, the options -e and -u without a value | the four tables as lists; counts and sorted lists compared with inductive specifications; induction on the command line |
| C226-C232 | the reports of `oarstat --accounting`: the two grouped queries, the dictionaries, the text of the period, the last Karma | dictionaries as folds of a grouping; sums over parts of the table; composition with the update of C28 |
| C233-C240 | the rest of `oarstat`: -s, -e, -p and their dictionaries, exit codes, durations, columns, requests, the order of the options | queries as filters and joins of tables with primary keys; folds of a grouping; texts cut at separators |
| C241-C246 | the basic scheduler (`scheduling_basic`, called by `kamelot_basic`): the search, the alternatives, the list of jobs | the slot sets of C01-C16 and the search of C17-C21: with one group the two searches agree; induction over windows, alternatives and jobs |
| C247-C248 | a whole cycle of the basic scheduler (`kamelot_basic.schedule_cycle`): the slot set built from the platform, the dates of availability and the jobs already scheduled, then the waiting jobs | composition of the loading (C06, C55) with C243; induction over the waiting jobs |

Where the code violates the property, a theorem `..._refuted` exhibits the witness on the faithful model and
the strongest true variant is proved beside it.

## Property by property

Generated by `tools/design.py` from the manifest. "partial" means: false as stated (the witness is a theorem
`..._refuted`, the true part is proved beside it) or proved under a restriction named in the last column.

<!-- table -->
| id | property | model | theorems in | status | what is missing or false |
|----|----|----|----|----|----|
| C01 | The slot set always partitions its time range | SlotModel | SlotProps | proved |  |
| C02 | Splitting a slot never changes what is available at any instant | SlotModel | SlotProps | proved |  |
| C03 | Inserting a job removes its resources during its whole window | SlotModel | SlotProps | proved |  |
| C04 | Inserting a job frees its resources again at start+walltime | SlotModel | SlotProps | partial | False as stated: when a slot ends exactly at start+walltime the whole slot is taken, one second too long (C04_end_refuted); exact otherwise (C04_end_partial). |
| C05 | Inserting a sorted list of jobs accounts for every job | SlotModel | SlotProps | proved |  |
| C06 | Inserting previously scheduled jobs works in any order | LoadModel, SlotModel | LoadProps | partial | False as stated: the table is ordered by jobs.start_time (0 for jobs not started), so the scheduler can crash or forget a job's window. Proved when the list is ordered by predicted start, and for one call per job. |
| C07 | Looking up the slot at a date | SlotModel | SlotProps | proved |  |
| C08 | A contiguous-window intersection is exactly what is free throughout | SlotModel | SlotProps | proved |  |
| C09 | A time-sharing or placeholder window never offers a busy resource | SlotModel | SlotProps | partial | False as stated (witness); holds when no slot of the window makes the accumulated set empty. |
| C10 | Candidate windows are long enough, minimal and complete | SlotModel | SlotProps | proved |  |
| C11 | Flat resource requests: n whole free blocks or nothing | HierarchyModel | HierarchyProps | proved |  |
| C12 | ALL / BEST / HALF_BEST requests | HierarchyModel | HierarchyProps | proved |  |
| C13 | Hierarchical requests are served exactly and from free resources only | HierarchyModel | HierarchyProps | proved | Exactness for nested levels; 'only free resources' without hypothesis. |
| C14 | Hierarchical search is complete | HierarchyModel | HierarchyProps | proved | For nested levels; C14_nesting_needed shows the hypothesis is necessary in the code. |
| C15 | A multi-group request gets every group, within its constraints | HierarchyModel | HierarchyProps | proved |  |
| C16 | Groups of a multi-group request get distinct resources | HierarchyModel | HierarchyProps | partial | False as stated: two groups with overlapping eligible resources get the same resources. Holds when the groups' eligible resources are disjoint. |
| C17 | No resource is ever promised to two jobs at the same time | HierarchyModel, LoadModel, QuotasModel, SchedModel, SlotModel | SchedProps | proved | Proved for slot sets of plain jobs, as stated. C17_timesharing_refuted shows that it does not extend to time-sharing jobs. |
| C18 | Each job gets the earliest possible slot | HierarchyModel, LoadModel, QuotasModel, SchedModel, SlotModel | SchedProps | proved |  |
| C19 | The search cache never changes the result | HierarchyModel, LoadModel, QuotasModel, SchedModel, SlotModel | SchedProps | partial | False as stated: a container of the round that reopens an existing slot set makes the cached positions stale. Proved when no container reopens an existing slot set. |
| C20 | A moldable job takes the alternative that finishes first | HierarchyModel, LoadModel, QuotasModel, SchedModel, SlotModel | SchedProps | proved |  |
| C21 | A job never starts before the jobs it depends on end | HierarchyModel, LoadModel, QuotasModel, SchedModel, SlotModel | SchedProps | partial | False as stated (dependency not placed, dependency treated later, dependency ending one second before the end of a slot). Proved when none of the three happens. |
| C22 | Quota counters equal what the running jobs consume | HierarchyModel, LoadModel, QuotasModel, SchedModel, SlotModel | QuotasProps | proved |  |
| C23 | A job is placed only where its quota rule holds | HierarchyModel, LoadModel, QuotasModel, SchedModel, SlotModel | QuotasProps | partial | Proved for rules on '*' or on a job type listed in Quotas.job_types, up to the placement by the scheduler; C23_unlisted_type_refuted: rules on other types are never enforced. |
| C24 | The applicable quota rule is found whenever one matches | HierarchyModel, LoadModel, QuotasModel, SchedModel, SlotModel | QuotasProps | partial | False as stated (no backtracking to '*', only the first job type looked at). Exact characterisation of the rule selected, and existence when every branch has its '*' rule. |
| C25 | Resource-hours quota counts each job once | HierarchyModel, LoadModel, QuotasModel, SchedModel, SlotModel | QuotasProps | partial | False as stated: a job spanning two slots of the window counts twice. Exact on one-slot windows; longer windows err on the safe side (C23). |
| C26 | Temporal quotas apply the rules of the period containing the date | CalendarModel, SlotModel | CalendarProps | partial | False as stated: the scan takes the first period beginning at or after the date, and the remaining duration ignores the period's beginning; the slot construction can stop with an AssertionError. Exact characterisation of what is selected; right at period starts and in the last period. |
| C27 | A calendar with a default covers the whole week | CalendarModel, SlotModel | CalendarProps | proved |  |
| C28 | Accounting never loses or duplicates a resource-second | AcctModel | AcctProps | proved | int(start/window) is a float division in Python, exact below 2^53. |
| C29 | Only finished jobs are marked as accounted | AcctModel | AcctProps | partial | False as stated: every job not accounted is marked, running ones included, which are then never charged. Proved: charged jobs are marked, never charged twice; exactness when all the unaccounted jobs are charged. |
| C30 | Durations survive conversion to hours:minutes:seconds | TimeModel | TimeProps | proved | The signed text is not readable back for negative durations (C30_signed_read_refuted), which is outside the property. |
| C31 | A finished job never comes back | JobModel | JobProps | proved | Over all the modelled actions (submission, state changes, deletion, hold/resume/checkpoint, Sarko, Leon, NodeChangeState, end of job). |
| C32 | The job state log is a faithful timeline | JobModel | JobProps | proved | Over any history of the modelled actions, from the empty database, with a clock that does not go back. Crashes: see C61. |
| C33 | Only the owner or an administrator can act on a job | JobModel, TimeModel, WalltimeModel | JobDelete, WalltimeProps | proved | Deletion, checkpoint, hold, resume, walltime changes. |
| C34 | Walltime changes keep the books balanced | JobModel, TimeModel, WalltimeModel | WalltimeProps | partial | False for a late job with a pending reduction (pending grows in magnitude). Balanced for every request; sign and magnitude kept for extensions, and for reductions of jobs that are not late. |
| C35 | The total extra time granted never exceeds the configured maximum | JobModel, TimeModel, WalltimeModel | WalltimeProps | partial | False as stated: a new request erases the granted amount; a pending reduction of a late job follows the clock. Proved: one accepted extension gives at most maximum - granted, over any number of rounds. |
| C36 | A job is killed for walltime only after it has run its walltime | JobModel | JobDelete | partial | False for jobs that were suspended once (the suspension time replaces the walltime). Proved, both ways, for jobs never suspended. |
| C37 | Job deletion always progresses to a final state | JobModel | JobDelete | partial | False as stated: the request of a job that ends by itself before Leon sees it stays LEON for ever. The moves and the finality of FRAGGED are proved for every history; progress for a live job. |
| C38 | Hold and resume do what the user asked | JobModel | JobDelete | partial | False for running jobs in both directions (the event types are swapped in NodeChangeState). Hold of a waiting job and resume are proved. |
| C39 | The server never loses a notification and never runs the scheduler too often | AlmightyModel | AlmightyProps | partial | Order, no loss, merging, spacing and memory hold for every run. 'Eventually' is false when the node changes keep asking for new rounds (C39_starvation_refuted), proved with a bound otherwise. |
| C40 | At most one executor per job and no lost launch command | CommanderModel | CommanderProps | proved | For every sequence of messages, timeouts and process ends. The bound is the configured maximum plus one (C69). |
| C41 | Commands of one job are executed in arrival order | CommanderModel | CommanderProps | partial | False when a process ends, or the maximum is reached, while the commander goes through its list. Proved when processes end only while it waits and the maximum is not below the number of jobs. |
| C42 | Revoked tokens are refused | ApiModel | ApiProps | partial | Proved for time zones whose clock is increasing (no summer time); false around the spring change (dates in UTC are read as local dates) and when the revocation file is broken. |
| C43 | Clearing the Gantt keeps accepted reservations and running jobs | GanttModel | GanttProps | partial | Proved when the resources of active jobs are Alive or Absent. False when one is down, and for held reservations. |
| C44 | Only due jobs with all resources up are launched | GanttModel | GanttProps | partial | A launch is sent at most once, after the predicted start, with no Absent resource. Other states of a resource do not prevent the launch; checkpointed best-effort jobs stop the round. |
| C45 | Resources are declared dead only after being down | JobModel, NodeModel | NodeProps | partial | False: resources that have been Alive for longer than the delay are declared dead too (the query does not look at the state). Proved: the delay, the option, and that nothing else is changed. |
| C46 | The sort of waiting jobs keeps every job once | PrioModel | PrioProps | proved | Exact rationals instead of floats; custom plugins not modelled. |
| C47 | Queues are served by decreasing priority | PrioModel | PrioProps | proved |  |
| C48 | ALL, BEST and HALF_BEST at one level only | HierarchyModel, ReqModel, TimeModel | ReqProps | partial | Two special levels are refused by the parser; one special level beside others is refused by the estimate when the request has one group only. |
| C49 | Time-sharing jobs leave their resources shareable | SlotModel | SlotShare | partial | False as stated: only the first job inserted under a given (user,name) is recorded as shareable. Proved for the first one, with the frame for all other records. |
| C50 | Placeholders reserve their resources for allowed jobs, once | SlotModel | SlotShare | partial | First half false when two placeholder jobs bear the same name (the second replaces the record); otherwise proved. Second half proved. |
| C51 | Quota counters of slots follow the jobs inserted | SlotModel | SlotShare | proved |  |
| C52 | A scheduled job is loaded with exactly its start, walltime and resources | LoadModel, SlotModel | LoadProps | proved |  |
| C53 | A suspended job releases its suspendable resources | LoadModel, SlotModel | LoadProps | partial | False as stated: only the last job of the list is treated. Proved for that one. |
| C54 | A container offers its resources only while it runs | LoadModel, SlotModel | LoadProps | partial | False for containers already running (window too long) and for time-sharing containers (crash). Proved for plain containers not yet started. |
| C55 | No resource is offered after its availability date | LoadModel, SlotModel | LoadProps | proved |  |
| C56 | One unschedulable job never prevents the others from being scheduled | HierarchyModel, LoadModel, QuotasModel, SchedModel, SlotModel | SchedProps | partial | False as stated: an unplaceable container or an unknown inner name stops the round with an exception. Proved for plain jobs without quotas or containers. |
| C57 | A periodical quota entry covers exactly its days and hours | CalendarModel, SlotModel | CalendarProps | partial | False for hours over midnight and for day intervals over the week-end with hours (they cover nothing). Proved otherwise. The reading of the text is C198. |
| C58 | An interrupted accounting update can be run again | AcctModel | AcctProps | partial | False as stated: creating a window commits, so a kill can double or cut a job's charge. Proved when all the windows exist already. |
| C59 | Re-initialised accounting depends only on the jobs | AcctModel | AcctProps | proved |  |
| C60 | Durations in states add up | JobModel | JobProps | proved |  |
| C61 | A state change survives a crash | JobModel | JobProps | partial | False: the state is committed before the log; a finished job's log is then never repaired. No positive part is claimed. |
| C62 | The end date of a finished job is final | JobModel | JobProps | partial | False: an extermination already decided moves the end date of a job that ended meanwhile. C31_requests_ignored is the part that holds (state changes). |
| C63 | Every job end is eventually recorded | JobModel | JobDelete | partial | False when the exit code's message names the first host of a job without hosts (IndexError). Proved otherwise. |
| C64 | An accepted walltime-change request is treated by the scheduler | JobModel, TimeModel, WalltimeModel | WalltimeProps | partial | False for every configuration ("YES" against "yes", and a call with one argument out of three). No positive part. |
| C65 | A walltime extension never runs into what is planned next | JobModel, TimeModel, WalltimeModel | WalltimeProps | proved |  |
| C66 | A walltime-change request records what was asked | JobModel, TimeModel, WalltimeModel | WalltimeProps | partial | False for a late job. Proved when the job is not past its end. |
| C67 | A walltime-change request never blocks the others | JobModel, TimeModel, WalltimeModel | WalltimeProps | partial | False for timesharing=user,* / name,* jobs and for inner jobs whose container is over. Proved otherwise. |
| C68 | No notification and no child process can stop the server | AlmightyModel | AlmightyProps | partial | False: null, a message without command, a text that is no regular expression, or a child killed by a signal stop the server. Proved for ordinary commands (known or not) and known exit codes. |
| C69 | No more executors than configured | CommanderModel | CommanderProps | partial | False by one, for every maximum; maximum + 1 is proved to be the bound. |
| C70 | File requests act on exactly the named file | ApiModel | ApiProps | partial | False for names with ';' (upload), with a space, comma, dollar or backquote (other requests), and for listings. Proved for plain names. |
| C71 | No proxy rule is lost | ApiModel | ApiProps | partial | False for two threads of one server process (POSIX locks belong to the process). Proved when each request is served by its own process. |
| C72 | Pages cover the whole answer | ApiModel | ApiProps | partial | Proved for database answers; the total of directory listings is false. |
| C73 | The state log of a resource is its history | JobModel, NodeModel | NodeProps | partial | Proved for every history on PostgreSQL with resources created by the tools; false on SQLite, for resources created through the API, and when the state of an unknown resource is set. |
| C74 | Requested states are applied | JobModel, NodeModel | NodeProps | partial | Proved when nothing is requested during the pass and the requested states exist; false otherwise. |
| C75 | A withdrawn resource stays withdrawn | JobModel, NodeModel | NodeProps | partial | False on nodes with resources in different states, and when a node is suspected. Proved for nodes all of whose resources are withdrawn. |
| C76 | Jobs of a withdrawn resource are deleted | JobModel, NodeModel | NodeProps | partial | Proved for requested changes; false for a change through the API. |
| C77 | Only administrators change resources through the API | JobModel, NodeModel | NodeProps | proved |  |
| C78 | Removing a resource harms nothing else | JobModel, NodeModel | NodeProps | partial | False for jobs that also run elsewhere. The rest is proved. |
| C79 | Jobs read back from the schedule hold their own resources | GanttModel | GanttProps | partial | Proved for resources in use; false for the others, which all count as the first one. |
| C80 | A reservation started late keeps its announced end | GanttModel | GanttProps | partial | The end is the announced one plus the security time. |
| C81 | A reservation with missing resources waits, then starts with the others | GanttModel | GanttProps | partial | False: missing resources are not noticed, or stop the round, or all resources are given up. |
| C82 | A reservation that cannot start expires | GanttModel | GanttProps | partial | Only expired reservations are put in error; one with no resource never expires. |
| C83 | Compatible time-sharing spares best-effort jobs | GanttModel | GanttProps | partial | False: the declaration is never seen. |
| C84 | An accepted reservation has its resources for its announced time | HierarchyModel, LoadModel, QuotasModel, ResvModel, SchedModel, SlotModel | ResvProps | partial | Proved for plain reservations within the horizon; the security time after a reservation is not kept. |
| C85 | The type no_quotas exempts from quotas | HierarchyModel, LoadModel, QuotasModel, ResvModel, SchedModel, SlotModel | ResvProps | partial | Proved for waiting jobs; false for reservations. |
| C86 | Accepted reservations respect the quotas | HierarchyModel, LoadModel, QuotasModel, ResvModel, SchedModel, SlotModel | ResvProps | partial | For rules on configured job types, as C23; false for rules on other types (C86_unlisted_type_refuted). |
| C87 | No reservation date stops the scheduler | HierarchyModel, LoadModel, QuotasModel, ResvModel, SchedModel, SlotModel | ResvProps | partial | False for a start after 2038-01-19. |
| C88 | Fair share serves first the users who consumed less | PrioModel | PrioProps | proved |  |
| C89 | A user's fair-share consumption is a fraction of the total | PrioModel | PrioProps | partial | False when an accounting window ends exactly at the time of the round; proved otherwise. |
| C90 | Targets given to users are honoured | PrioModel | PrioProps | partial | False: any target for a user with a waiting job makes the round fail (a text is divided by a number). |
| C91 | Older jobs gain priority | PrioModel | PrioProps | partial | False for the first seven days (max instead of min); the age never lowers the priority. |
| C92 | The documented factors of the priority act | PrioModel | PrioProps | partial | False: work has no effect above 1, and jobs of the database lack the attributes. |
| C93 | Every waiting job is considered | PrioModel | PrioProps | proved | With the order by id; jobs behind the limit are never considered. |
| C94 | A request is understood as written | HierarchyModel, ReqModel, TimeModel | ReqProps | partial | Proved for conditions without comma, plus and closing brace; false with a comma in a condition or a second comma. |
| C95 | A request the platform can never satisfy is refused at submission | HierarchyModel, ReqModel, TimeModel | ReqProps | partial | Proved for one group per instance; false with two groups. |
| C96 | Allocations are recorded on the resources meant | HierarchyModel, LoadModel, ResModel, SlotModel | ResProps | proved | Identifiers below 100000 (the size of the arrays). |
| C97 | A job receives only resources that satisfy its condition | HierarchyModel, LoadModel, ResModel, SlotModel | ResProps | partial | False when a resource satisfying the condition is Dead or Suspected: it stands for the first resource. |
| C98 | A running job occupies only its own resources in the schedule | HierarchyModel, LoadModel, ResModel, SlotModel | ResProps | partial | False when a resource of the job is Dead or Suspected: it stands for the first resource. |
| C99 | The levels of the hierarchy share out the usable resources | HierarchyModel, LoadModel, ResModel, SlotModel | ResProps | proved |  |
| C100 | All the conditions of a request apply |  | CondProps | partial | False with an OR outside parentheses in the job's or group's condition; the user's text is parenthesised before an administrator's condition. |
| C101 | What is asked is what the scheduler reads | HierarchyModel, SubmitModel | SubmitProps | partial | Proved when the database gives identifiers in the order of insertion (the code asks for no order) and for submissions one after the other; false otherwise. |
| C102 | A waiting job is fully described | HierarchyModel, SubmitModel | SubmitAny | proved | For any order in which the database gives identifiers back; concurrent sessions not modelled. |
| C103 | A submission cut short leaves nothing behind | HierarchyModel, SubmitModel | SubmitProps | partial | False; what is left incomplete is in state Hold. |
| C104 | The jobs of an array | HierarchyModel, SubmitModel | SubmitProps | proved | With identifiers read back in the order of insertion. |
| C105 | The type no_quotas is not for users | HierarchyModel, SubmitModel | SubmitProps | partial | False when the type is given twice (list.remove); proved for lists without repetition. |
| C106 | Errors of a submission are reported | HierarchyModel, SubmitModel | SubmitProps | partial | False for arrays; proved for single jobs. |
| C107 | Without condition, only resources of type default | HierarchyModel, SubmitModel | SubmitProps | partial | False when the condition is NULL (no -p option); proved for the empty text. |
| C108 | One broken job does not stop the others | HierarchyModel, SubmitModel | SubmitProps | partial | False: the reading or the placement raises. |
| C109 | Only long-idle nodes are put to sleep | EnergyModel | EnergyProps | partial | The exact set is proved; a resource never to be switched off is halted with its node if another resource of the node may be. |
| C110 | Nodes are woken up in time for waiting jobs | EnergyModel | EnergyProps | partial | The exact set is proved; both requests are possible if the wake-up time exceeds the sleep time; the code tests the sleep command to decide wake-ups. |
| C111 | A minimum of idle nodes is kept alive | EnergyModel | EnergyProps | partial | Proved when all the resources of a node have the same state and next state; false otherwise (the node counts twice). |
| C112 | One command at a time on a node | EnergyModel | EnergyProps | partial | Proved, except that a command that had to wait is launched again for ever: it is never taken off the list. |
| C113 | A node with a job is not halted | EnergyModel | EnergyProps | partial | False: a halt that had to wait is launched later whatever the node does then. |
| C114 | A node that was halted can be woken up | EnergyModel | EnergyProps | partial | False when the halt command fails, or when the manager restarts while one runs: the node is never commanded again. Proved when nothing is recorded as running on the node. |
| C115 | The energy manager goes on and reports failures | EnergyModel | EnergyProps | partial | Proved, except for unknown commands, which end the manager. |
| C116 | Wake-up timeouts follow the option | EnergyModel | EnergyProps | partial | Proved for well-formed options that give a value for 1; otherwise an exception. |
| C117 | A resubmitted job asks for the same thing | HierarchyModel, ResubModel, SubmitModel | ResubProps | partial | Proved, for the histories where rows come back in the order of insertion; but a walltime changed while the job ran is copied instead of the one asked for. |
| C118 | Resubmission keeps dependencies | HierarchyModel, ResubModel, SubmitModel | ResubProps | partial | The jobs that required it are proved; its own dependencies are never copied. |
| C119 | A resubmitted job is accounted | HierarchyModel, ResubModel, SubmitModel | ResubProps | partial | False: the mark 'accounted' is copied, so a job resubmitted after the accounting of the first run is never accounted. |
| C120 | Who may resubmit what | HierarchyModel, ResubModel, SubmitModel | ResubProps | partial | Exact condition proved; when the server resubmits, the keys of the owner's own jobs count as those of another user. |
| C121 | At most one automatic resubmission of a job | HierarchyModel, ResubModel, SubmitModel | ResubEvents | proved |  |
| C122 | Who is run again after an event | HierarchyModel, ResubModel, SubmitModel | ResubEvents | partial | Exact condition proved for jobs without key; deleted jobs, and jobs run to their end whose server epilogue timed out, are run again. |
| C123 | The nodes blamed by an event | HierarchyModel, ResubModel, SubmitModel | ResubEvents | proved |  |
| C124 | Every event is treated | HierarchyModel, ResubModel, SubmitModel | ResubEvents | partial | Proved if the jobs, keys and nodes of the events exist; a job without node blocks the treatment for ever, and events added meanwhile may be lost. |
| C125 | A failure of a server script stops the queues | HierarchyModel, ResubModel, SubmitModel | ResubEvents | proved |  |
| C126 | A job is started at most once | LaunchModel | LaunchProps | proved | Sequential requests; Commander runs one launcher per job at a time (C-claims on Commander). |
| C127 | No start after a failed server prologue | LaunchModel | LaunchProps | partial | The failure is recorded before the start, but the result of the prologue has no influence on the start. |
| C128 | A failed launch is never silent | LaunchModel | LaunchProps | partial | The only silent failures are identified: a reservation without alive node (TypeError) and a job without node whose executor fails (IndexError). |
| C129 | A job runs only inside its cpusets | LaunchModel | LaunchProps | partial | Proved when the cpuset command does not time out; after a timeout the job is started without cpuset. |
| C130 | The head node has passed the checks | LaunchModel | LaunchProps | partial | Proved except for reservations, which can be started on a node just found dead, or outside of their nodes. |
| C131 | The client of an interactive job is told, or the job is deleted | LaunchModel | LaunchProps | partial | The client is told in every case; a job whose client is lost keeps running: no deletion is requested. |
| C132 | Only the executor of a job ends it | LaunchModel | LaunchProps | proved | A report for a job still in toLaunch is treated as a launch request. |
| C133 | Exactly the silent nodes are suspected | LaunchModel | LaunchPing | partial | Proved for taktuk and nmap (distinct addresses); the other three methods never suspect any host. |
| C134 | The failures at the end of a job are recorded | LaunchModel | LaunchProps | partial | Proved unless the epilogue fails: then neither its failure nor the bad nodes are recorded. |
| C135 | The cpusets are removed | LaunchModel | LaunchProps | partial | Not removed when a node stops answering between the two checks, nor for noop jobs. |
| C136 | The waiting clients are given the verdict of the round | JobModel, RoundModel | RoundProps | proved |  |
| C137 | A round reaches its end exactly when no registered client address is malformed or required client missing | JobModel, RoundModel | RoundProps | proved | The consequences (unreachable client, API reservation, no resume script) are the _refuted theorems. |
| C138 | Launch orders are repeated until received, at most once per round | JobModel, RoundModel | RoundProps | proved |  |
| C139 | What the users are shown is the plan of some round, or nothing | JobModel, RoundModel | RoundProps | proved | A copy cut between its two commits shows nothing at all. |
| C140 | A lost interactive session is deleted, and only a lost one | JobModel, RoundModel | RoundProps | proved |  |
| C141 | A reservation about to start asks for another round | JobModel, RoundModel | RoundProps | proved |  |
| C142 | A failing external scheduler stops its queue, and only it | JobModel, RoundModel | RoundProps | proved | The logged status and signal are wrong (C142_log_refuted). |
| C143 | A job whose resume script fails is deleted with an event | JobModel, RoundModel | RoundProps | proved |  |
| C144 | Running best-effort jobs do not take resources from the others, but do from best-effort jobs when their queue is alone | LoadModel, SlotModel | RoundLoad | proved | Slot set with only the default container. |
| C145 | The priority of a resource tells what runs on it, and comes back to its value | SPrioModel | SPrioProps | proved |  |
| C146 | Ended jobs leave no trace in the priorities | SPrioModel | SPrioProps | partial | False: two changes of type, a type removed from a time-sharing job, a column changed meanwhile, a kill at the end. A launch killed before the update is harmless (C146_uncounted). |
| C147 | A list of jobs is in order, without doubles, and holds only what was asked | ListModel | ListProps | proved |  |
| C148 | A job can always be looked up by its identifier | ListModel | ListProps | partial | False: a job in Error that never had resources (a refused reservation) is shown to nobody. C148_by_id gives the exact condition. |
| C149 | The list without options shows the jobs that are not over | ListModel | ListProps | partial | False for toError. C149_default gives the exact condition. |
| C150 | The list of a period shows the jobs of that period | ListModel | ListProps | partial | False for waiting jobs submitted before the period, and when a state is asked for. Exact for ended jobs; everything listed concerns the period. |
| C151 | The API shows the resources and nodes of the job asked for, and says when it does not exist | ListModel | ListProps | partial | False: /jobs/ID/resources ignores ID; an unknown job is answered with 500. |
| C152 | Best effort jobs are put in the besteffort queue and only get resources open to best effort | AdmModel | AdmProps | partial | False when the condition of a group contains OR, or when parentheses of -p close those of the rules; proved otherwise. Types, queue and reservation: proved for all. |
| C153 | Only administrators submit to the admin queue or without quotas | AdmModel | AdmProps | proved |  |
| C154 | A user has at most two reservations waiting | AdmModel | AdmProps | partial | False: accepted reservations are not counted (the rule looks for Schedule, the state is Scheduled). Proved for those not yet examined. |
| C155 | Default walltime of two hours, at most twelve for interactive jobs | AdmModel | AdmProps | proved |  |
| C156 | Deployment jobs get whole nodes open to deployment | AdmModel | AdmProps | partial | False for deploy=standby and with OR in a group (C152_or_refuted); proved otherwise. |
| C157 | Administrative properties cannot be asked for as resources | AdmModel | AdmProps | proved |  |
| C158 | Only known types are admitted | AdmModel | AdmProps | partial | False: a type may end with a newline, and noop is refused. C158_types gives the exact set of admitted types. |
| C159 | Rules are applied in the order of their numbers | AdmModel | AdmProps | partial | Proved when all numbers have the same number of digits; 10_ comes before 2_, and files are glued without a newline. |
| C160 | No job runs on a drained resource, and the condition of the user is respected | AdmModel | AdmProps | partial | False with OR in a group or unbalanced parentheses in -p; proved otherwise. |
| C161 | Maintenance keeps the date a resource is available up to | NsetModel, ReqModel | NsetProps | partial | Proved for every history in which -p does not touch the two dates and no command is killed; false when available_upto is set by -p after a maintenance and -m off is given again, and when -m on is killed after its first commit. |
| C162 | The log of maintenance says when a resource was under maintenance | NsetModel, ReqModel | NsetProps | partial | Proved for complete commands; false when -m off is killed after closing the log. |
| C163 | The log of a property says the value it had at every date | NsetModel, ReqModel | NsetProps | partial | Proved for complete commands, at every date; false when a command is killed between its two commits. |
| C164 | oarnodesetting changes only its targets | NsetModel, ReqModel | NsetProps | partial | Proved unless -p id=... is given, which changes an identifier. |
| C165 | oarnodesetting waits for the jobs of what it sends away | NsetModel, ReqModel | NsetProps | partial | Proved for -r and for a single -h; of several hosts only the last is waited for, and hosts read from a file keep their newline. |
| C166 | oarnodesetting --add | NsetModel, ReqModel | NsetProps | partial | With several hosts only the last new resource gets the properties. |
| C167 | The exit value of oarnodesetting | NsetModel, ReqModel | NsetProps | partial | Unknown resources and hosts give 0. |
| C168 | An exit value of 0 means the properties are set | NsetModel, ReqModel | NsetProps | proved | For commands that do not name id or network_address. |
| C169 | The state asked for is recorded | NsetModel, ReqModel | NsetProps | proved |  |
| C170 | A broken node is rebooted once, softly then hard | PhxModel | PhxProps | partial | Proved for complete runs that list each node once; false when a node has two next states, when a run is killed, and a hard reboot may follow in the same run without a new report. |
| C171 | The number of simultaneous reboots is limited | PhxModel | PhxProps | partial | Proved for each kind separately and a limit of at least 1. |
| C172 | Every broken node is rebooted in the end | PhxModel | PhxProps | partial | Proved with a bound when the same nodes stay broken; nodes that break later can go first for ever. |
| C173 | A repaired node is left alone | PhxModel | PhxProps | proved |  |
| C174 | Options win over directives | AdmModel, FrontModel, ReqModel | FrontProps | partial | Proved for every option but -p, where the script wins. |
| C175 | Directives count | AdmModel, FrontModel, ReqModel | FrontProps | partial | Proved for the options other than -d, which the command line always gives, and -p, whose values are joined with AND without parentheses. |
| C176 | No directive is passed over | AdmModel, FrontModel, ReqModel | FrontProps | partial | Proved for lines not understood; --stagein is accepted and dropped, and a script that cannot be read is not noticed. |
| C177 | Size of arrays | AdmModel, FrontModel, ReqModel | FrontProps | partial | Proved when the submission succeeds; --array 0 makes a job, --array -2 and an empty file named in the script end with an exception, --array drops the file of the script. |
| C178 | Characters accepted | AdmModel, FrontModel, ReqModel | FrontProps | partial | Proved but for a final newline in the names of files and of the user. |
| C179 | Who may connect | AdmModel, FrontModel, ReqModel | FrontProps | partial | Who and where: proved. The exit value of ssh is lost, and a cosystem job without hosts raises. |
| C180 | Job keys | AdmModel, FrontModel, ReqModel | FrontProps | partial | Which key: proved. Options without -k are refused for single jobs only; -e writes an empty file or raises after the job is made. |
| C181 | Submission by the API | AdmModel, FrontModel, ReqModel | FrontProps | partial | The identifier is right and without key an error means no job; the reservation, the files of keys and workdir are dropped, comments make jobs, 200 may come with no job. |
| C182 | The user is told | AdmModel, FrontModel, ReqModel | FrontProps | partial | Proved for success, and for failure without -k. |
| C183 | Date of a reservation | AdmModel, FrontModel, ReqModel | FrontProps | partial | Proved, but dates out of the calendar end with an exception instead of a message. |
| C184 | The last assignment of a key in the configuration file wins | AdmModel, ConfModel, FrontModel, ReqModel | ConfProps | proved | Lines as texts; the separators of lines other than newline and characters beyond ASCII left out. |
| C185 | A setting is read as it is written | AdmModel, ConfModel, FrontModel, ReqModel | ConfProps | partial | Proved for texts without '#' and without quotes at their ends that are not numerals of Python; refuted in general: a '#' between quotes cuts the value, leading zeros, underscores and some texts (nan42, _1) are lost. |
| C186 | A configuration file that cannot be read changes nothing | AdmModel, ConfModel, FrontModel, ReqModel | ConfProps | proved |  |
| C187 | A configuration starts with the defaults and what it is given | AdmModel, ConfModel, FrontModel, ReqModel | ConfProps | partial | Refuted for the values given to the constructor: they are ignored. |
| C188 | A namespace has exactly the options with its prefix | AdmModel, ConfModel, FrontModel, ReqModel | ConfProps | partial | Proved unless two keys of the namespace differ by the case of their letters only: then one is lost. |
| C189 | The address of the database says what the configuration says | AdmModel, ConfModel, FrontModel, ReqModel | ConfProps | partial | Proved for PostgreSQL and parts without the separators of the address; refuted otherwise (nothing is quoted), and a password of digits loses its leading zeros. |
| C190 | The exit value of a command tells its errors | AdmModel, AdminModel, ConfModel, FrontModel, ReqModel | AdminProps | partial | Proved for the first question; asked again after 15, the answer is the first error. |
| C191 | Only oar and root manage queues | AdmModel, AdminModel, ConfModel, FrontModel, ReqModel | AdminProps | partial | Proved; but without USER in the environment the command fails even for oar. Who runs it is what the environment says. |
| C192 | oarqueue does what is asked to the queue that is named | AdmModel, AdminModel, ConfModel, FrontModel, ReqModel | AdminProps | partial | Proved for one option and a queue that is there; an unknown queue is not told, and of several options one is done without a word. |
| C193 | A queue is described by name,priority,policy | AdmModel, AdminModel, ConfModel, FrontModel, ReqModel | AdminProps | proved | NULL priorities and the lengths of texts left out. |
| C194 | The properties of OAR itself are never altered | AdmModel, AdminModel, ConfModel, FrontModel, ReqModel | AdminProps | proved | Includes a crash at any point. Names are compared as PostgreSQL does (case matters). |
| C195 | oarproperty adds and deletes the properties that are named | AdmModel, AdminModel, ConfModel, FrontModel, ReqModel | AdminProps | partial | Proved for deletions alone and additions alone, and exceptions; refuted for both in one command (the property is lost) and for a refusal after some deletions (exit value 0). |
| C196 | Renaming a property keeps the tables consistent | AdmModel, AdminModel, ConfModel, FrontModel, ReqModel | AdminProps | partial | Proved for one renaming without a crash; refuted for a crash between the two commits and for two renamings of the same property in one command. |
| C197 | Adding a property that is there | AdmModel, AdminModel, ConfModel, FrontModel, ReqModel | AdminProps | partial | The values are kept; the message about the type is wrong both ways. |
| C198 | A weekly period is read as written | AdmModel, CalendarModel, ConfModel, FrontModel, QfileModel, QuotasModel, ReqModel, SlotModel | QfileProps | proved | For hours within a day and ranges of days that do not go over the end of the week with hours (C57 says what happens otherwise). |
| C199 | A wrong weekly period is refused | AdmModel, CalendarModel, ConfModel, FrontModel, QfileModel, QuotasModel, ReqModel, SlotModel | QfileProps | partial | What is accepted is characterised; hours out of the day and what follows the seconds are accepted in silence. |
| C200 | Each instant of the week has the rules the file gives to it | AdmModel, CalendarModel, ConfModel, FrontModel, QfileModel, QuotasModel, ReqModel, SlotModel | QfileProps | proved | For entries that do not overlap (C56 and C57 are about the rest). |
| C201 | A limit is the number in the file | AdmModel, CalendarModel, ConfModel, FrontModel, QfileModel, QuotasModel, ReqModel, SlotModel | QfileExp, QfileProps | partial | Whole numbers and decimals: proved; a fraction of an hour is lost, and the documented single number raises. |
| C202 | A share of ALL is that share of the resources | AdmModel, CalendarModel, ConfModel, FrontModel, QfileModel, QuotasModel, ReqModel, SlotModel | QfileProps | partial | Within one unit, exact for fractions over a power of two; 0.29*ALL of 100 is 28, ALL is not known in the rules of periods, and with another counting mode ALL is at most 1 (an assignment instead of an addition in ResourceSet). |
| C203 | A one-shot period is read as written | AdmModel, CalendarModel, ConfModel, FrontModel, QfileModel, QuotasModel, ReqModel, SlotModel | QfileProps | partial | Proved for entries with a description; without one the program stops. |
| C204 | One-shot periods do not need weekly ones | AdmModel, CalendarModel, ConfModel, FrontModel, QfileModel, QuotasModel, ReqModel, SlotModel | QfileProps | partial | Refuted: a file with one-shot periods alone is accepted, and then no round can be made. |
| C205 | The slots use the rules of the file | AdmModel, CalendarModel, ConfModel, FrontModel, QfileModel, QuotasModel, ReqModel, SlotModel | QfileProps | partial | Proved for sets that are not empty; with an empty set the default rules apply. |
| C206 | The FIFO scheduler gives free resources, what was asked for | FifoModel, HierarchyModel, SchedModel | FifoProps | partial | Free, disjoint, within the condition and as many as the first number: proved. The level, the levels below and the other groups are not looked at, and ALL leaves a resource. |
| C207 | First in, first out | FifoModel, HierarchyModel, SchedModel | FifoProps | proved |  |
| C208 | The FIFO scheduler spares the jobs that have resources already | FifoModel, HierarchyModel, SchedModel | FifoProps | partial | Refuted: a running job makes every cycle fail (attribute res_itvs does not exist), and the jobs in other states are not looked at. |
| C209 | The FIFO scheduler with the hierarchy serves the whole request | FifoModel, HierarchyModel, SchedModel | FifoProps | partial | Proved for one group; a group that cannot be served is dropped, and groups share their resources. |
| C210 | An external scheduler serves the queue it is called for | FifoModel, HierarchyModel, SchedModel | FifoProps | partial | What is written is what was decided; but the arguments are ignored and only the queue default is served. |
| C211 | oardel deletes exactly what it may | CmdModel, JobModel | CmdProps | proved | The right exit status needs that the server answers; which of two different errors wins is C190. |
| C212 | oardel acts on what was selected | CmdModel, JobModel | CmdProps | partial | Proved when the array or the condition selects something; identifiers given beside are dropped, and a selection of nothing is a success. |
| C213 | Signals and checkpoints reach the right jobs | CmdModel, JobModel | CmdProps | partial | Proved for the command; the events call every signal a checkpoint, and the API cannot send a signal. |
| C214 | The text of a signal is only a signal | CmdModel, JobModel | CmdProps | partial | Refuted: the text of the user is part of a shell command run on the host by oar. |
| C215 | The options of administrators | CmdModel, JobModel | CmdProps | partial | Proved for jobs that exist (-b: not listed twice); an unknown job is an exception after the first changes, and -b on a job that does not run is a silent success. |
| C216 | oarhold and oarresume | CmdModel, JobModel | CmdProps | partial | What is recorded is characterised for every list; requests before a refusal are recorded without telling the server, and the API takes any word for hold. |
| C217 | oarwalltime asks for the change that is written | ConfModel, FrontModel, JobModel, QfileModel, ReqModel, TimeModel, WalltimeModel, WcmdModel | WcmdProps | proved | The configuration has a largest increase for the queue; unique identifiers of jobs, of moldables and one change per job. For a job that is not past its end (the others: C66_overdue_refuted). |
| C218 | oarwalltime shows where a change is | ConfModel, FrontModel, JobModel, QfileModel, ReqModel, TimeModel, WalltimeModel, WcmdModel | WcmdProps | partial | Proved that nothing is changed, and for unknown jobs and jobs without a walltime; refuted for every job that has one: the command ends with an exception. |
| C219 | The command kamelot runs the cycle it is asked for | ConfModel, FrontModel, JobModel, QfileModel, ReqModel, TimeModel, WalltimeModel, WcmdModel | WcmdProps | partial | Proved without quotas, for dates below 2^53; with QUOTAS=yes the command always raises. |
| C220 | The summary of oarnodes is right | NodesModel | NodesProps | partial | Lines, counts and jobs are proved; the state is that of the first resource of the host, right when all have the same. |
| C221 | oarnodes shows the resources asked for | NodesModel | NodesProps | partial | Proved for hosts alone, for nothing, and for identifiers and conditions; hosts given with -r or --sql are ignored, and --sql with -S shows nothing. |
| C222 | The status of oarnodes tells unknown hosts | NodesModel | NodesProps | partial | Refuted: the status is always 0. |
| C223 | oarnodes -s shows the states | NodesModel | NodesProps | partial | Proved by identifier and for JSON or YAML; the display of the hosts shows Absent for Standby. |
| C224 | oarnodes -e shows the events of the hosts | NodesModel | NodesProps | proved | The date is already a number (C30 to C32 are about dates as texts). |
| C225 | Options with or without a value | NodesModel | NodesProps | partial | Proved: the arguments are kept and each such option gets a value; an empty argument raises IndexError, and oarnodes -e host takes the host for a date. |
| C226 | oarstat --accounting shows the consumption of the period | AcctModel, AcctRepModel, AdmModel, FrontModel, LaunchModel, ReqModel | AcctRepProps | proved | The database returns the groups in the order of their seconds, ties in any order; -S is a predicate on rows. A window that ends exactly at the first second of the period is not of the period, as in the code. |
| C227 | The first and the last window shown are right | AcctModel, AcctRepModel, AdmModel, FrontModel, LaunchModel, ReqModel | AcctRepProps | partial | The windows are those of the kind with the most seconds; right when used windows are asked ones and less was used than asked; refuted for a job that went past its end into another window. |
| C228 | The consumption by project adds up | AcctModel, AcctRepModel, AdmModel, FrontModel, LaunchModel, ReqModel | AcctRepProps | partial | Proved without -S; with -S the projects ignore the condition. |
| C229 | Reports of consecutive periods add up | AcctModel, AcctRepModel, AdmModel, FrontModel, LaunchModel, ReqModel | AcctRepProps | partial | Proved when no window straddles the common date; refuted where midnight is not a multiple of a day since 1970. |
| C230 | The report tells what the jobs used | AcctModel, AcctRepModel, AdmModel, FrontModel, LaunchModel, ReqModel | AcctRepProps | proved | The accounting table is empty before the update, and the period contains the finished jobs and their walltimes. |
| C231 | The period of oarstat --accounting is read as written | AcctModel, AcctRepModel, AdmModel, FrontModel, LaunchModel, ReqModel | AcctRepProps | partial | Proved for texts that begin with two dates of the calendar and for those that do not; what follows is not read, and dates out of the calendar raise an exception. |
| C232 | The last Karma shown is that of the last job | AcctModel, AcctRepModel, AdmModel, FrontModel, LaunchModel, ReqModel | AcctRepProps | partial | Which of several jobs that start together is not said. Refuted for a Karma written with an exponent. |
| C233 | oarstat -s shows the states of the jobs asked for | AcctRepModel, AdmModel, ConfModel, FrontModel, ReqModel, StatModel, TimeModel | StatProps | partial | Proved for the jobs that exist, in the lines and in the dictionary of JSON and YAML; refuted for an id that is no job: nothing is said and the status is 0. |
| C234 | oarstat -e shows the events of the jobs asked for | AcctRepModel, AdmModel, ConfModel, FrontModel, ReqModel, StatModel, TimeModel | StatProps | proved | The database returns the events by job, then by date, those of the same date in any order. |
| C235 | oarstat -p shows the resources of the jobs | AcctRepModel, AdmModel, ConfModel, FrontModel, ReqModel, StatModel, TimeModel | StatProps | partial | Proved for -j with distinct ids and for an array; a job given twice has its resources shown twice. |
| C236 | The exit code shown tells how the job ended | AcctRepModel, AdmModel, ConfModel, FrontModel, ReqModel, StatModel, TimeModel | StatProps | partial | The value of exit and the signal are each shown right; which of the two it was cannot be told. |
| C237 | The duration shown is the time on the resources | AcctRepModel, AdmModel, ConfModel, FrontModel, ReqModel, StatModel, TimeModel | StatProps | partial | Proved for jobs on their resources, over or not begun; refuted for a suspended job, which shows a dash. |
| C238 | The columns shown are those asked for | AcctRepModel, AdmModel, ConfModel, FrontModel, ReqModel, StatModel, TimeModel | StatProps | partial | Proved for known columns, each given once; an unknown column raises KeyError, and one given twice is shown once under its last label. |
| C239 | The request shown is the one made | AcctRepModel, AdmModel, ConfModel, FrontModel, ReqModel, StatModel, TimeModel | StatProps | partial | Proved for one group, and for groups each with a property, different from that before; refuted otherwise: two groups read as one. |
| C240 | oarstat does what its options say | AcctRepModel, AdmModel, ConfModel, FrontModel, ReqModel, StatModel, TimeModel | StatProps | partial | Proved but for the two options: a badly written --gantt raises AttributeError, and -r without -f changes nothing. |
| C241 | The basic scheduler chooses the earliest finish | BasicModel, FifoModel, HierarchyModel, LoadModel, QuotasModel, SchedModel, SlotModel | BasicProps | partial | Proved when every alternative has one group and can be satisfied some day; C242 and C245 refute the rest. |
| C242 | A job without resources is not scheduled | BasicModel, FifoModel, HierarchyModel, LoadModel, QuotasModel, SchedModel, SlotModel | BasicProps | partial | Refuted: a job that can never be satisfied is given a date and no resource, and such an alternative is preferred to one that could be satisfied when it is shorter. |
| C243 | The basic scheduler books no resource twice | BasicModel, FifoModel, HierarchyModel, LoadModel, QuotasModel, SchedModel, SlotModel | BasicProps | proved | For every list of distinct jobs, with or without time-sharing and placeholders: each receives only what is free, and nothing twice. |
| C244 | A job that is too long does not stop the basic scheduler | BasicModel, FifoModel, HierarchyModel, LoadModel, QuotasModel, SchedModel, SlotModel | BasicProps | partial | Refuted: one alternative longer than the slot set raises NameError and no job of the cycle is scheduled; C241 gives the totality without such alternatives. |
| C245 | The basic scheduler serves all the groups of a request | BasicModel, FifoModel, HierarchyModel, LoadModel, QuotasModel, SchedModel, SlotModel | BasicProps | partial | Each group receives what it asks for or nothing; refuted: a missing group does not prevent the placement, and two groups can be given the same resources. |
| C246 | The basic scheduler places inner jobs in their container | BasicModel, FifoModel, HierarchyModel, LoadModel, QuotasModel, SchedModel, SlotModel | BasicProps | partial | Refuted: a cycle with a job inside a container fails, since containers open no slot set. |
| C247 | A cycle of the basic scheduler keeps clear of what is scheduled | BasicModel, CycleModel, FifoModel, HierarchyModel, LoadModel, QuotasModel, SchedModel, SlotModel | CycleProps | partial | Proved when the jobs already scheduled come by start; the query sorts them by another date, see C06. The very last second of the horizon is excepted for the dates of availability, see C55. |
| C248 | A cycle of the basic scheduler gives a date to every waiting job | BasicModel, CycleModel, FifoModel, HierarchyModel, LoadModel, QuotasModel, SchedModel, SlotModel | CycleProps | partial | Proved for requests of one group shorter than the time there is, when the jobs already scheduled come by start; refuted otherwise by C244, C246 and C06. |
<!-- end of table -->

## Trusted base

* Coq 8.16.1 kernel, and its `vm_compute` for witnesses.
* std++ (definitions of `gmap`, `gset`, ...). Loading std++ loads ssreflect's `ssrunder`, whose module type fields
  a scan of the environment lists (`Coq.ssr.ssrunder.Under_rel.*`); no theorem depends on them.
* `Print Assumptions` of every property theorem, at the end of each `XProps.v`, prints
  "Closed under the global context": no axiom, not even of the standard library.
* The transcription itself, made by reading; each definition cites its source lines and states its simplifications.

## Not modelled

* ProcSet's interval representation and iteration order; numpy; SQLAlchemy itself (identity map, flushing, empty inserts).
* Floating point: priorities, karma and accounting use exact rationals or integers.
* Concurrency between sessions of the database, except where a property is about it (proxy rules, C101 witness).
* Plug-ins: `job.find`, `job.assign`, custom sorting, extra metascheduling; admission rules (a parameter of the submission model).
* The calendar inside the slot search; parsing of the text of calendar entries beyond days and hours; `set_jobs_cache_keys` as strings.
* Regular expressions: hand-written recognisers, without the case of a newline at the end; `int()` without blanks and underscores.
* Sockets, processes, mail, JWT and toml libraries; time zones (`mktime` is a parameter).
* The shell is only the word-splitting and quoting of the mini-specification in the API area.
* Submission: checks of names and files (submission.py:1367-1395), job keys, challenges, messages.
* Slot traversal messages, events of the Gantt area, containers/inner in reservations.
