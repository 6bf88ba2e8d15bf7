{
 "claims": [
  {
   "property": "C01",
   "status": "proved",
   "theorems": [
    "C01_ring_is_bounded_queue",
    "C01_order_and_suffix",
    "C01_overflow_keeps_newest",
    "C01_oversized_message_refuted"
   ],
   "note": "Refinement to a bounded queue for every operation sequence. A single message longer than the capacity keeps its first bytes (refuted theorem); no caller sends one."
  },
  {
   "property": "C02",
   "status": "proved",
   "theorems": [
    "C02_no_out_of_bounds",
    "C01_ring_is_bounded_queue"
   ],
   "note": "Every access is bounds-checked in the model; asserts are evaluated."
  },
  {
   "property": "C03",
   "status": "proved",
   "theorems": [
    "C03_no_loss_below_capacity"
   ],
   "note": "Every kernel write result, partial writes and EINTR included."
  },
  {
   "property": "C04",
   "status": "proved",
   "theorems": [
    "C04_replay_shows_last_bytes"
   ],
   "note": "For every history without a shutdown of the log (see C05)."
  },
  {
   "property": "C05",
   "status": "partial",
   "theorems": [
    "C05_replay_safe_partial",
    "C05_empty_replay_refuted",
    "C05_stale_replay_refuted"
   ],
   "note": "Safe in production builds for logs never shut down; refuted: debug builds abort on an empty log, and stale bytes appear after a shutdown."
  },
  {
   "property": "C06",
   "status": "proved",
   "theorems": [
    "C06_typed_bytes_arrive"
   ],
   "note": "Client and server composed; every chunking. Relative order with commands: see C07."
  },
  {
   "property": "C07",
   "status": "partial",
   "theorems": [
    "C07_stream_decoded_partial",
    "C07_relative_order_single_bytes",
    "C07_relative_order_refuted"
   ],
   "note": "Data stream and command stream are each exact for every chunking; refuted: a command overtakes data that precedes it in the same read."
  },
  {
   "property": "C08",
   "status": "partial",
   "theorems": [
    "C08_keyboard_partial",
    "C08_doubled_escape_sends_one",
    "C08_letter_escape_refuted",
    "C08_high_escape_refuted"
   ],
   "note": "Exact for every escape character below 128 that is no command letter; refuted for command letters and for characters above 127."
  },
  {
   "property": "C09",
   "status": "partial",
   "theorems": [
    "C09_chunk_independent_partial",
    "C09_data_and_replies",
    "C09_any_stream",
    "C09_reconnect_refuted"
   ],
   "note": "Exact for every stream and chunking whose subnegotiations contain no 0xFF (see C11); refuted: the state is carried over to the next connection."
  },
  {
   "property": "C10",
   "status": "proved",
   "theorems": [
    "C10_one_refusal_at_most",
    "C10_reply_is_correct",
    "C10_replies_are_not_answered",
    "C10_announcements"
   ],
   "note": ""
  },
  {
   "property": "C100",
   "status": "partial",
   "theorems": [
    "C100_programs",
    "C100_nobody_else",
    "C100_reset_refuted",
    "C100_foreground_refuted"
   ],
   "note": "True of programs of process consoles and a detached daemon. Reset commands have process groups of their own and are not signalled; a daemon in the foreground signals nobody. Processes that a program itself starts are not modelled."
  },
  {
   "property": "C101",
   "status": "partial",
   "theorems": [
    "C101_once_partial",
    "C101_thread_refuted"
   ],
   "note": "Proved when no thread serves a new connection at that time; such a thread uses released memory."
  },
  {
   "property": "C102",
   "status": "partial",
   "theorems": [
    "C102_reaped",
    "C102_reactions",
    "C102_calm_partial",
    "C102_last_child_refuted"
   ],
   "note": "Proved while at least one child goes on running. When the last child ends, waitpid() in the handler fails and errno becomes ECHILD: a failing call of the interrupted thread is then misjudged, which may end the daemon. The tests of errno after a call are taken to happen at once."
  },
  {
   "property": "C103",
   "status": "partial",
   "theorems": [
    "C103_listens_partial",
    "C103_or_ends",
    "C103_port_refuted"
   ],
   "note": "Numbers above 65535 are accepted, announced, and cut to 16 bits."
  },
  {
   "property": "C104",
   "status": "partial",
   "theorems": [
    "C104_nofile",
    "C104_allowed",
    "C104_late_refuted",
    "C104_negative_refuted",
    "C104_told_partial",
    "C104_told_refuted",
    "C104_core_off",
    "C104_core_on",
    "C104_core_refuted"
   ],
   "note": "The limits are set as configured when that is allowed. Too high a number of files ends the daemon after success was reported; other negative numbers mean -1; the message prints 32 bits only; COREDUMP=on needs an infinite hard limit or privilege."
  },
  {
   "property": "C105",
   "status": "partial",
   "theorems": [
    "C105_shows",
    "C105_tells",
    "C105_syslog_partial",
    "C105_syslog_refuted"
   ],
   "note": "The facility of the kernel (number 0) is shown but not used."
  },
  {
   "property": "C106",
   "status": "partial",
   "theorems": [
    "C106_signals_partial",
    "C106_pipe_refuted"
   ],
   "note": "SIGPIPE is ignored in started programs."
  },
  {
   "property": "C107",
   "status": "proved",
   "theorems": [
    "C107_explained",
    "C107_unresolved",
    "C107_unreachable",
    "C107_no_answer",
    "C107_long_message_refuted",
    "C107_negative_code_refuted",
    "C107_log_end_refuted"
   ],
   "note": "For every stream, schedule and failing call; shown in _refuted: a message over 1013 characters loses its end, a non-positive code aborts a debugging build, an error leaves the log without its last line."
  },
  {
   "property": "C108",
   "status": "proved",
   "theorems": [
    "C108_end_to_end",
    "C108_hint_refuted",
    "C108_long_name_refuted"
   ],
   "note": "Client and daemon composed (names of fewer than 1023 characters). Shown in _refuted: the advice for a monitor that matches several consoles cannot be followed; a name of 1023 characters ends the client with status 1."
  },
  {
   "property": "C109",
   "status": "partial",
   "theorems": [
    "C109_safe",
    "C109_file",
    "C109_reopened",
    "C109_terminal",
    "C109_syslog",
    "C109_threads_partial",
    "C109_alone",
    "C109_failed_write_refuted",
    "C109_failed_reopen_refuted",
    "C109_threads_refuted",
    "C109_threads_null_refuted"
   ],
   "note": "Proved for every history of messages, reopenings and failures in one thread, and for any number of threads while nothing is reopened. Shown in _refuted: one failed write or one failed reopening ends the log until the next request, and the first tells a syslog that is not configured; a thread that logs while the main thread reopens the log writes to a freed or null stream."
  },
  {
   "property": "C11",
   "status": "partial",
   "theorems": [
    "C11_subnegotiation_hidden_partial",
    "C11_escaped_iac_refuted"
   ],
   "note": "Holds for payloads without 0xFF; refuted for others."
  },
  {
   "property": "C110",
   "status": "proved",
   "theorems": [
    "C110_relay",
    "C110_nothing_lost",
    "C110_room",
    "C110_one_source",
    "C110_meant",
    "C110_session",
    "C110_telnet_session",
    "C110_logged",
    "C110_log",
    "C110_log_room",
    "C110_drains"
   ],
   "note": "Input sent to a telnet console is interleaved with the daemon's answers (C110_relay), so for such a console the exact sequence of keys is claimed while nothing it says calls for an answer. For the log file the claim is stated for a queue that does not overflow: C67_burst_refuted shows that it can."
  },
  {
   "property": "C111",
   "status": "proved",
   "theorems": [
    "C111_fed",
    "C111_given",
    "C111_log"
   ],
   "note": "The history must run: C33 has the histories that crash the daemon. When a log's buffer is overrun: C67; when its file is reopened: C88. C111_log takes a log that is at the start of a line, as it is when opened and after each message."
  },
  {
   "property": "C112",
   "status": "proved",
   "theorems": [
    "C112_event",
    "C112_history",
    "C112_bytes",
    "C112_sources"
   ],
   "note": "The converse, that what is due does arrive: C68, C110. The specification due in SeenSpec.v lists, for each event, the operations on a queue that are allowed; the contents of the reset and reopen messages are the event's. Logs: C111."
  },
  {
   "property": "C113",
   "status": "partial",
   "theorems": [
    "C113_stamp",
    "C113_clock",
    "C113_order",
    "C113_long",
    "C113_short",
    "C113_long_zone_refuted"
   ],
   "note": "Proved but for zone names of more than eleven characters, with which the program ends when it opens a log (refuted). Which local time belongs to which instant is the C library's."
  },
  {
   "property": "C114",
   "status": "partial",
   "theorems": [
    "C114_line",
    "C114_refused",
    "C114_timestamp",
    "C114_timestamp_among",
    "C114_defaults",
    "C114_unitless_refuted",
    "C114_logfile_refuted",
    "C114_logdir_comma_refuted",
    "C114_unit_refuted",
    "C114_interval_refuted"
   ],
   "note": "Every setting and every refusal is proved but these, which are refuted: LOGFILE with an unknown priority and TIMESTAMP with an unknown unit replace what was in force, a comma in LOGDIR, an interval that overflows, TIMESTAMP without a unit before another setting. TIMESTAMP is proved on a line of its own and at any place among other settings (C114_timestamp_among)."
  },
  {
   "property": "C115",
   "status": "partial",
   "theorems": [
    "C115_programs",
    "C115_main",
    "C115_alone",
    "C115_standard",
    "C115_accept_refuted",
    "C115_thread_refuted",
    "C115_inherited_refuted"
   ],
   "note": "Proved but for three things, which are refuted: the socket of a client that was accepted and is not yet marked, a descriptor that another thread is just opening, and what the daemon itself was started with."
  },
  {
   "property": "C116",
   "status": "proved",
   "theorems": [
    "C116_nonblocking",
    "C116_objects",
    "C116_program_refuted"
   ],
   "note": "For the descriptors of the daemon. That the program of a process console gets a nonblocking end as well is C116_program_refuted."
  },
  {
   "property": "C117",
   "status": "proved",
   "theorems": [
    "C117_none_lost",
    "C117_own",
    "C117_distinct",
    "C117_closed_stdin_refuted"
   ],
   "note": "With standard input, output and error open at the start, which the last theorem shows to be needed. No two threads work on one object at a time."
  },
  {
   "property": "C118",
   "status": "partial",
   "theorems": [
    "C118_line",
    "C118_refused",
    "C118_every",
    "C118_console",
    "C118_console_every",
    "C118_shared_refuted"
   ],
   "note": "Proved but for one thing, which is refuted: a percent sign that stands for itself before N or D is taken for the name of the console, so that all consoles may get the same default log. Lines are written with one space between settings and values in quotes; words in upper case; no NUL."
  },
  {
   "property": "C119",
   "status": "proved",
   "theorems": [
    "C119_separate",
    "C119_undisturbed",
    "C119_memory",
    "C13_allocator"
   ],
   "note": "The calls run on one memory with all lists and the linked free nodes (PoolModel); the calls of different threads are atomic, as their mutexes make them. C119_separate: results and contents for every pattern of failures; C119_undisturbed: the same as alone; C119_memory: no node lost, at most nine more than the peak."
  },
  {
   "property": "C12",
   "status": "partial",
   "theorems": [
    "C12_bytes_sent_partial",
    "C12_not_encoded_refuted",
    "C12_break"
   ],
   "note": "Refuted for 0xFF: outgoing data is not telnet-encoded."
  },
  {
   "property": "C120",
   "status": "proved",
   "theorems": [
    "C120_break",
    "C120_buffers",
    "C120_watcher",
    "C120_typed",
    "C120_overtakes_refuted",
    "C120_silent_refuted"
   ],
   "note": "C120_break: each console written to gets its bytes or its device call exactly once, nobody else anything, and the log tells exactly of the failures; C120_buffers: the same change of the buffers as in the session model; C120_watcher: no write access, no effect; C120_typed: the two typed bytes do just this. Refuted: order with respect to waiting keystrokes on a serial line (C120_overtakes_refuted), notice for console types without breaks (C120_silent_refuted)."
  },
  {
   "property": "C121",
   "status": "proved",
   "theorems": [
    "C121_count",
    "C121_hosts",
    "C121_threads",
    "C121_running",
    "C121_stopped",
    "C121_told_refuted"
   ],
   "note": "C121_count, C121_hosts: by induction over the definitions; C121_threads: least number of threads and the text of the message; C121_running, C121_stopped: over every run of server.c:147-164. Refuted: a failure to start the engine is not reported (C121_told_refuted)."
  },
  {
   "property": "C122",
   "status": "proved",
   "theorems": [
    "C122_symmetric",
    "C122_no_dangling",
    "C122_alone",
    "C122_linked",
    "C122_detached",
    "C122_stolen_refuted",
    "C122_hangup_refuted"
   ],
   "note": "Invariant over every interleaving of single list operations of any number of threads, each client being in the hands of at most one thread; C122_alone by simulation of the thread running alone. Refuted where two threads handle the same client: C122_stolen_refuted, C122_hangup_refuted."
  },
  {
   "property": "C123",
   "status": "partial",
   "theorems": [
    "C123_polled",
    "C123_released",
    "C123_closed",
    "C123_noted_partial",
    "C123_noted_refuted",
    "C123_stolen_refuted",
    "C123_suspended_partial",
    "C123_suspended_refuted"
   ],
   "note": "Invariant over every interleaving of any number of threads. The polling of pending output and the release of the lock hold without restriction. C123_noted_partial needs that no write passes the end of the buffer and C123_suspended_partial that no write is under way when the client suspends: otherwise the code violates the property (C123_noted_refuted, C123_suspended_refuted), and C123_stolen_refuted shows a marked client that is never closed."
  },
  {
   "property": "C13",
   "status": "proved",
   "theorems": [
    "C13_behaves_as_sequence",
    "C13_destroy",
    "C13_allocator"
   ],
   "note": "Heap of nodes with pointer-to-pointer fields; every call sequence."
  },
  {
   "property": "C14",
   "status": "partial",
   "theorems": [
    "C14_each_element_once",
    "C14_remove_current_partial",
    "C14_current_forgotten_refuted"
   ],
   "note": "Every element present throughout a traversal is delivered exactly once and in order; refuted: an iterator forgets its current element when somebody else removes the successor, and removing through it then does nothing."
  },
  {
   "property": "C15",
   "status": "proved",
   "theorems": [
    "C15_sort"
   ],
   "note": "Every comparison function; sorted and stable for preorders."
  },
  {
   "property": "C16",
   "status": "proved",
   "theorems": [
    "C16_lexer_total",
    "C16_progress",
    "C16_high_bytes_refuted"
   ],
   "note": "Every text, with the C library's behaviour for negative arguments of isalpha() and the like; under ISO C's own rules 7-bit text only, and refuted for other text."
  },
  {
   "property": "C17",
   "status": "proved",
   "theorems": [
    "C17_quoted_round_trip",
    "C17_conditions_refuted"
   ],
   "note": "Both quotes, any following text; each condition shown necessary."
  },
  {
   "property": "C18",
   "status": "proved",
   "theorems": [
    "C18_keyword_lookup",
    "C18_tables_sorted",
    "C18_keyword_token",
    "C18_tables_words",
    "C18_token_numbers"
   ],
   "note": ""
  },
  {
   "property": "C19",
   "status": "proved",
   "theorems": [
    "C19_line_numbers"
   ],
   "note": ""
  },
  {
   "property": "C20",
   "status": "partial",
   "theorems": [
    "C20_request_partial",
    "C20_sends",
    "C20_any_input",
    "C20_conditions_refuted"
   ],
   "note": "Proved for every request whose patterns are non-empty 7-bit strings of at most 1023 characters without line ends, over every schedule of partial transfers; oversized requests are refused. Refuted for other patterns: the client does not refuse them, and the server understands something else."
  },
  {
   "property": "C21",
   "status": "proved",
   "theorems": [
    "C21_ok",
    "C21_error",
    "C21_sends",
    "C21_sends_error",
    "C21_any_input",
    "C21_code_overflow_refuted"
   ],
   "note": "Names and messages as console names and the daemon's messages are: 7-bit, at most 1023 characters, no line ends. Sent whole or not at all. A hostile server can make atoi() overflow."
  },
  {
   "property": "C22",
   "status": "proved",
   "theorems": [
    "C22_greeting",
    "C22_any_input"
   ],
   "note": "Non-empty 7-bit names of at most 1023 characters without line ends; the reply is understood by the client."
  },
  {
   "property": "C23",
   "status": "proved",
   "theorems": [
    "C23_read_line",
    "C23_read_line_error",
    "C23_read_n",
    "C23_write_n"
   ],
   "note": "all streams, schedules of interruptions, partial transfers and failures, and buffer sizes"
  },
  {
   "property": "C24",
   "status": "partial",
   "theorems": [
    "C24_order",
    "C24_at_most_once",
    "C24_at_least_once",
    "C24_dispatched",
    "C24_wait_partial",
    "C24_far_timer_refuted"
   ],
   "note": "Order, exactly-once and never-early for every history, clock and schedule. The length of the wait is proved for times within 24.8 days of the clock; refuted beyond, where the milliseconds do not fit an int and the loop spins."
  },
  {
   "property": "C25",
   "status": "proved",
   "theorems": [
    "C25_ids",
    "C25_distinct",
    "C25_cancelled",
    "C25_overflow_refuted"
   ],
   "note": "Every history with fewer than 2^31 - 2 timers set; the next one overflows a signed counter."
  },
  {
   "property": "C26",
   "status": "partial",
   "theorems": [
    "C26_interest",
    "C26_is_set_partial",
    "C26_return",
    "C26_create",
    "C26_safe",
    "C26_growth_refuted",
    "C26_is_set_refuted",
    "C26_return_refuted",
    "C26_debug_read_refuted",
    "C26_create_refuted"
   ],
   "note": "The polled set is proved for every schedule. What is_set reports is proved unless another thread withdraws descriptors during a poll(), and refuted then. Growth of the table during a poll() is refuted: the kernel writes to freed memory."
  },
  {
   "property": "C27",
   "status": "proved",
   "theorems": [
    "C27_no_lost_wakeup"
   ],
   "note": "Every interleaving; a pipe byte or an up-to-date poll() at every moment."
  },
  {
   "property": "C28",
   "status": "proved",
   "theorems": [
    "C28_links_consistent",
    "C28_starts"
   ],
   "note": "For every configuration and every interleaving of client threads, main loop events and device failures."
  },
  {
   "property": "C29",
   "status": "partial",
   "theorems": [
    "C29_request_partial",
    "C29_only_by_asking",
    "C29_race_refuted",
    "C31_monitor_command_refuted"
   ],
   "note": "Proved: a request whose thread runs without interruption is refused if a console is busy, and in every interleaving only a client's own request or command links it. Refuted: two interleaved requests both pass the busy check; a monitoring client becomes a second writer with the monitor command."
  },
  {
   "property": "C30",
   "status": "partial",
   "theorems": [
    "C30_forced_connect_partial",
    "C30_steal_any_time_partial",
    "C30_quiet_victim_refuted"
   ],
   "note": "Proved: sole writer, former writers detached from everything and marked for disconnection, with the announcement pending. Refuted: a victim in quiet mode has nothing pending, so nothing triggers its disconnection."
  },
  {
   "property": "C31",
   "status": "partial",
   "theorems": [
    "C31_read_only_partial",
    "C31_monitor_command_refuted"
   ],
   "note": "Proved for every history in which the client sends none of the three switching commands. Refuted: the monitor command makes it a writer."
  },
  {
   "property": "C32",
   "status": "proved",
   "theorems": [
    "C32_hears_nothing",
    "C32_input_to_each"
   ],
   "note": "In every reachable state."
  },
  {
   "property": "C33",
   "status": "partial",
   "theorems": [
    "C33_survives_partial",
    "C33_stolen_client_refuted",
    "C33_hasty_client_refuted"
   ],
   "note": "Proved: every event in every reachable state is handled, except in the situations named by fragile. Refuted: a client whose console was stolen sends a force, join or monitor command (NULL dereference); a client hangs up while its thread is linking it (use after free)."
  },
  {
   "property": "C34",
   "status": "partial",
   "theorems": [
    "C34_no_dangling",
    "C34_marked",
    "C34_flushed_then_removed",
    "C34_closed_then_removed",
    "C34_suspended_lingers_refuted"
   ],
   "note": "Refuted: a suspended client with output left is never removed after its connection ends."
  },
  {
   "property": "C35",
   "status": "proved",
   "theorems": [
    "C35_sanitized",
    "C35_documented_form"
   ],
   "note": "every history of console reads and messages, any clock text"
  },
  {
   "property": "C36",
   "status": "proved",
   "theorems": [
    "C36_lines_stamped",
    "C36_lines_unique"
   ],
   "note": "every history; the lines are those of an independent grammar of CR, LF, CR LF with NUL padding, which splits every stream in exactly one way; empty lines are stamped too"
  },
  {
   "property": "C37",
   "status": "proved",
   "theorems": [
    "C37_chunk_independence"
   ],
   "note": "every two ways of cutting the same stream, with the i-th timestamp fixed"
  },
  {
   "property": "C38",
   "status": "proved",
   "theorems": [
    "C38_no_overrun",
    "C38_no_stamp_dropped"
   ],
   "note": "every input and work buffer of at least 25 bytes, timestamps of at most 21 characters"
  },
  {
   "property": "C39",
   "status": "proved",
   "theorems": [
    "C39_backoff",
    "C39_doubles",
    "C39_bounds",
    "C39_stable",
    "C39_watched",
    "C39_declared",
    "C39_asked"
   ],
   "note": "For every history of events of any number of consoles of all kinds; handlers run one at a time (IPMI: split at its mutex)."
  },
  {
   "property": "C40",
   "status": "partial",
   "theorems": [
    "C40_one_timer",
    "C40_retrying_partial",
    "C40_kept",
    "C40_attempted",
    "C40_alone",
    "C40_serial_refuted",
    "C73_race_refuted"
   ],
   "note": "Proved for all kinds but serial, handlers running one at a time (C40_alone: a thread that is not disturbed is such a handler; C73_race_refuted: two threads leave two timers): exactly one pending retry, at most 30 minutes ahead, kept until it fires, and then an attempt is made. Refuted: a serial console that cannot be opened has no timer and stays down until a client connects."
  },
  {
   "property": "C41",
   "status": "partial",
   "theorems": [
    "C41_spacing",
    "C41_one_shell",
    "C41_timer",
    "C41_kills_partial",
    "C41_spares",
    "C41_request",
    "C41_safe",
    "C41_background_refuted",
    "C41_reuse_refuted"
   ],
   "note": "Proved: resets of a console are at least a minute apart, one shell at a time, a request while the timer is pending is ignored, the timeout kills the whole group and only descendants of the reset while its shell runs. False in general: a background process of a command whose shell has ended is not killed (C41_background_refuted), and when the number of the ended shell has been reused an unrelated process group is killed (C41_reuse_refuted)."
  },
  {
   "property": "C42",
   "status": "partial",
   "theorems": [
    "C42_expansion_partial",
    "C42_unique",
    "C42_no_separator",
    "C42_dangling_refuted",
    "C42_dangling_leaks_refuted"
   ],
   "note": "Proved for every format that does not end inside a specifier. False for the others: a format ending in a single '%' is read past its terminator (C42_dangling_refuted) and whatever string follows in memory is appended (C42_dangling_leaks_refuted)."
  },
  {
   "property": "C43",
   "status": "partial",
   "theorems": [
    "C43_rejected_partial",
    "C43_literal_partial",
    "C43_opened",
    "C43_same_format_refuted",
    "C43_needless_refuted"
   ],
   "note": "Proved: names without specifiers never clash, and a console is rejected exactly when its expanded name is the unexpanded name of an earlier log. False with specifiers: the earlier name is compared unexpanded, so two consoles with the same format share a file (C43_same_format_refuted) and a console can be rejected needlessly (C43_needless_refuted). Aliases of a path (double slashes, links) are not considered by the code."
  },
  {
   "property": "C44",
   "status": "proved",
   "theorems": [
    "C44_strlcpy",
    "C44_strlcat",
    "C44_strlcat_unterminated"
   ],
   "note": "Destination inside any larger block; any source string."
  },
  {
   "property": "C45",
   "status": "partial",
   "theorems": [
    "C45_append_partial",
    "C45_last_result",
    "C45_unterminated_refuted"
   ],
   "note": "Proved for every terminated destination; for a destination without terminator, which the code means to handle, the byte after the buffer is read."
  },
  {
   "property": "C46",
   "status": "proved",
   "theorems": [
    "C46_substitute"
   ],
   "note": "Any source, replacement, destination size; dstlen is taken not to exceed INT_MAX."
  },
  {
   "property": "C47",
   "status": "partial",
   "theorems": [
    "C47_first_word_partial",
    "C47_words_partial",
    "C47_lone_quote_refuted"
   ],
   "note": "Proved for every string not ending in a quote that begins a word; refuted for those: the quote itself becomes a word instead of an error."
  },
  {
   "property": "C48",
   "status": "partial",
   "theorems": [
    "C48_time_delta_partial",
    "C48_clock_set_back_refuted"
   ],
   "note": "Proved for every non-negative difference; refuted after the clock was set back."
  },
  {
   "property": "C49",
   "status": "proved",
   "theorems": [
    "C49_dirname",
    "C49_create_dirs"
   ],
   "note": "all paths, destination sizes, file systems and kernel refusals; one process acts on the file system"
  },
  {
   "property": "C50",
   "status": "partial",
   "theorems": [
    "C50_key",
    "C50_total",
    "C50_password_nul_refuted"
   ],
   "note": "Key parsing is proved exact and in bounds; the claim fails for passwords, whose bytes after a NUL are dropped although the key was accepted."
  },
  {
   "property": "C51",
   "status": "partial",
   "theorems": [
    "C51_lines_partial",
    "C51_process_lines_partial",
    "C51_unknown_line",
    "C51_blank_line",
    "C51_errors_kept",
    "C51_timestamp_refuted",
    "C51_nul_refuted",
    "C51_errno_refuted",
    "C51_char_255_refuted"
   ],
   "note": "Lines are independent in every file without NUL whose first part does not end with TIMESTAMP=n without unit; refuted in general: such a TIMESTAMP swallows the next line, a NUL hides the rest of the file, a stale ERANGE rejects a later TESTOPTS, byte 255 starts a new directive."
  },
  {
   "property": "C52",
   "status": "partial",
   "theorems": [
    "C52_command_line_port",
    "C52_command_line_pid",
    "C52_first_port_partial",
    "C52_first_line_port",
    "C52_first_line_pid",
    "C52_first_line_settings",
    "C52_first_line_timestamp",
    "C52_default_port",
    "C52_no_pid",
    "C52_settled",
    "C52_same_line_refuted"
   ],
   "note": "Command line wins for every file; the default is used if there is no PORT; the first line with PORT or PIDFILE wins, and on it the last one (C52_first_line_port, C52_first_line_pid; within a line the first does not win: C52_same_line_refuted). C52_first_line_settings: with any other settings on that line, and with an error after it; C52_first_line_timestamp: with TIMESTAMP on it as well. Missing: errors in the syntax of that line before the PORT."
  },
  {
   "property": "C53",
   "status": "partial",
   "theorems": [
    "C53_serial",
    "C53_serial_range",
    "C53_serial_ignored",
    "C53_test_options",
    "C53_test_too_long",
    "C53_test_range",
    "C53_test_init",
    "C53_test_output",
    "C53_test_cycle",
    "C53_test_errno_refuted",
    "C53_test_overflow_refuted"
   ],
   "note": "Proved for every string and every sequence of random numbers; refuted in two points: a stale errno rejects valid test options, and the interval computation can overflow. What is done to the serial device is C93."
  },
  {
   "property": "C54",
   "status": "partial",
   "theorems": [
    "C54_glob",
    "C54_none",
    "C54_all",
    "C54_regex_partial",
    "C54_regex_rejected",
    "C54_sorted",
    "C54_regex_split_refuted"
   ],
   "note": "Selection by shell patterns proved for every configuration and pattern list; with regular expressions under the POSIX leftmost-longest rule for an engine given as a parameter, and refuted for patterns that are only acceptable once joined. The answer is in order for names whose only digits are a trailing int; for others see C63."
  },
  {
   "property": "C55",
   "status": "proved",
   "theorems": [
    "C55_verdict"
   ],
   "note": "The verdict on every request in every reachable state."
  },
  {
   "property": "C56",
   "status": "proved",
   "theorems": [
    "C56_each_once",
    "C56_notification_text",
    "C56_notice_text"
   ],
   "note": "Who gets a notification, in every reachable state, and its text, for every length."
  },
  {
   "property": "C57",
   "status": "partial",
   "theorems": [
    "C57_no_output_requested_partial",
    "C57_toggle",
    "C57_same_turn_refuted",
    "C34_suspended_lingers_refuted"
   ],
   "note": "Proved: while suspended, output is never requested; resuming keeps what is pending and requests output. Refuted: the turn of the main loop that handles the suspend command still sends; a suspended client that disconnects is not cleaned up."
  },
  {
   "property": "C58",
   "status": "proved",
   "theorems": [
    "C58_safe",
    "C58_registered",
    "C58_kept",
    "C58_removed",
    "C58_watches",
    "C58_delivered",
    "C58_only_if_created",
    "C58_alias_refuted",
    "C58_recreated_refuted",
    "C58_init_failure_refuted"
   ],
   "note": "All histories of registrations, removals, creations, deletions of directories and reads. The kernel side of inotify is part of the model (watch descriptors not reused, no queue overflow). Refuted: two paths leading to one directory (only the first registration is told), a directory that is deleted and made again, and a debug build when inotify_init fails."
  },
  {
   "property": "C59",
   "status": "proved",
   "theorems": [
    "C59_first",
    "C59_interval",
    "C59_no_logs",
    "C59_message",
    "C59_huge_interval_refuted",
    "C59_burst_refuted"
   ],
   "note": "For every time zone given as an offset that depends on the time; mktime is taken to use the offset (tm_isdst) that localtime returned. Intervals within 1440 of INT_MAX overflow (refuted). After a jump of the clock the missed timestamps are written in one burst."
  },
  {
   "property": "C60",
   "status": "partial",
   "theorems": [
    "C60_text_partial",
    "C60_complete",
    "C60_cut_refuted",
    "C60_injection_refuted"
   ],
   "note": "Proved: the exact text for every length, within the buffer, ended by a newline unless the format has its own. Refuted: a newline in an argument (a user name sent by a client) splits the line; a format ending in a newline loses it when cut (no caller has such a format)."
  },
  {
   "property": "C61",
   "status": "proved",
   "theorems": [
    "C61_copy",
    "C61_address",
    "C61_name",
    "C61_cname_refuted"
   ],
   "note": "The copy is modelled cell by cell in a byte-addressed buffer for every pointer size; it fails exactly if the buffer is too small. The two lookups the programs rely on are proved to stay within their buffers. Refuted for host_name_to_cname: a result with 16-byte addresses is copied into a 4-byte address."
  },
  {
   "property": "C62",
   "status": "proved",
   "theorems": [
    "C62_environment",
    "C62_variables"
   ],
   "note": "Building the array and the strings in one block of memory is modelled cell by cell and read back as execv does; for every environment, content of fresh memory and pointer size."
  },
  {
   "property": "C63",
   "status": "partial",
   "theorems": [
    "C63_numeric",
    "C63_plain",
    "C63_stems",
    "C63_antisymmetric",
    "C63_preorder_partial",
    "C63_cycle_refuted",
    "C63_equal_refuted",
    "C63_overflow_refuted"
   ],
   "note": "The comparison is characterised completely and is a preorder for names whose only digits are a trailing int. Refuted in general: it has cycles, equates different names, and is undefined for longer numbers."
  },
  {
   "property": "C64",
   "status": "proved",
   "theorems": [
    "C64_read",
    "C64_written",
    "C64_none_left",
    "C64_removed",
    "C34_closed_then_removed"
   ],
   "note": "One pass of the main loop against arbitrary actions of handlers and client threads on the descriptors. An object is excused only if another handler or thread acted on its descriptor earlier in the same pass (closed it, or cancelled its events); events are then no longer its own. The table of tpoll is abstracted to functions of the descriptor."
  },
  {
   "property": "C65",
   "status": "partial",
   "theorems": [
    "C65_flush_scheduled_partial",
    "C65_reopen_refuted"
   ],
   "note": "Holds until a console is reopened with pending input; refuted for that case."
  },
  {
   "property": "C66",
   "status": "proved",
   "theorems": [
    "C66_local_echo_fits",
    "C66_two_control_characters_refuted"
   ],
   "note": ""
  },
  {
   "property": "C67",
   "status": "partial",
   "theorems": [
    "C67_log_complete_partial",
    "C67_history_partial",
    "C67_burst_refuted"
   ],
   "note": "Proved: exactly the formatted text is appended if it fits behind the backlog. Refuted: one read of newlines with timestamps yields more text than the log buffer holds."
  },
  {
   "property": "C68",
   "status": "proved",
   "theorems": [
    "C68_output_to_each_reader"
   ],
   "note": "In every reachable state; what the log file makes of the data is C35-C38, C67."
  },
  {
   "property": "C69",
   "status": "partial",
   "theorems": [
    "C69_own_child_partial",
    "C69_one_child",
    "C69_alone",
    "C69_spares_partial",
    "C69_struck",
    "C69_race_refuted",
    "C69_two_refuted",
    "C69_reuse_refuted",
    "C69_sibling_refuted"
   ],
   "note": "Proved for handlers running one at a time, as an undisturbed thread does (C69_alone), with any other processes beside, as long as no new process gets a number that a console still remembers (C69_spares_partial). Refuted: for two threads, kill(-1) and two children; when the number of a program that has ended is used again, a stranger or the program of another console is killed."
  },
  {
   "property": "C70",
   "status": "partial",
   "theorems": [
    "C70_kept_partial",
    "C70_created_refuted"
   ],
   "note": "Proved for every event but the creation of a UNIX domain socket file, which cuts off a live connection (refuted)."
  },
  {
   "property": "C71",
   "status": "partial",
   "theorems": [
    "C71_turns_partial",
    "C71_truthful_partial",
    "C71_made",
    "C71_serial_refuted"
   ],
   "note": "Proved for all kinds but serial. Refuted: the loss of a serial device is not announced."
  },
  {
   "property": "C72",
   "status": "partial",
   "theorems": [
    "C72_waits",
    "C72_ipmi_drop_refuted"
   ],
   "note": "Proved: an attempt not due is prompted by a client, the file system, or (IPMI, serial) the device. Refuted as a limit: an IPMI console that comes up and drops is retried any number of times at once."
  },
  {
   "property": "C73",
   "status": "partial",
   "theorems": [
    "C73_survives_partial",
    "C73_only_sockets",
    "C73_socket_refuted",
    "C73_serial_refuted",
    "C73_race_refuted"
   ],
   "note": "Proved: every history is handled unless socket() fails for a telnet console, which ends the daemon (refuted); so does a serial device that disappears while it is opened, and a client that connects while a telnet console is reconnected (refuted)."
  },
  {
   "property": "C74",
   "status": "partial",
   "theorems": [
    "C74_interrupts_partial",
    "C74_wait_partial",
    "C74_wait_asked_partial",
    "C74_terminates_partial",
    "C74_errno_refuted",
    "C74_missed_refuted"
   ],
   "note": "Interrupted calls are retried without effect as long as no handler changes errno; the SIGCHLD handler does when the last child is reaped, so a healthy connection may be given up or the daemon may end. A termination signal delivered between the test of the flag and poll() is not noticed until the next event."
  },
  {
   "property": "C75",
   "status": "partial",
   "theorems": [
    "C75_ipmi_range",
    "C75_ipmi_init",
    "C75_ipmi_fields",
    "C75_ipmi_option",
    "C75_ipmi_positional",
    "C75_log_options",
    "C75_log_rejected",
    "C75_truncated_refuted"
   ],
   "note": "Range, order and log options proved; numbers outside the range of an int are truncated and accepted. The validity checks of the IPMI library are parameters."
  },
  {
   "property": "C76",
   "status": "partial",
   "theorems": [
    "C76_device_partial",
    "C76_unambiguous",
    "C76_refused",
    "C76_ipmi_digits_refuted",
    "C76_directory_refuted",
    "C76_port_refuted",
    "C76_empty_host_refuted"
   ],
   "note": "Proved for every device string with a meaning in the sense of ConfSpec.means. Refuted: ipmi:<digits> is a terminal server called ipmi, a directory earlier in EXECPATH hides a program, a port beyond INT_MAX is undefined behaviour, an empty host fails an assertion in debug builds."
  },
  {
   "property": "C77",
   "status": "partial",
   "theorems": [
    "C77_defined_partial",
    "C77_taken",
    "C77_too_long",
    "C77_unmatched",
    "C77_incomplete",
    "C77_consistent",
    "C77_kept",
    "C77_log_taken_alone",
    "C77_log_taken_refuted",
    "C77_same_port_refuted"
   ],
   "note": "Refuted part: a line reported because its log is in use still defines its console, without log. Terminal server ports may be shared."
  },
  {
   "property": "C78",
   "status": "proved",
   "theorems": [
    "C78_default",
    "C78_builtin",
    "C78_setting",
    "C78_setting_builtin",
    "C77_kept",
    "C76_device_partial"
   ],
   "note": "C77_kept: consoles already defined are not touched; C76_device_partial: the device gets the defaults in force."
  },
  {
   "property": "C79",
   "status": "partial",
   "theorems": [
    "C79_signals",
    "C79_target",
    "C79_any_file",
    "C79_pidfile_in_file_refuted"
   ],
   "note": "Proved for the PID file given on the command line. Refuted: a PID file named in the configuration file is not consulted. The lock and the content of PID files are arguments here; how they come about is C86 and C99."
  },
  {
   "property": "C80",
   "status": "proved",
   "theorems": [
    "C80_settings",
    "C80_unique",
    "C80_exclusive",
    "C80_early",
    "C80_port",
    "C80_port_refuted"
   ],
   "note": "options as getopt() delivers them; numbers after a colon within the range of int (atoi's behaviour beyond it is undefined); refuted: a port beyond 65535 is cut to 16 bits instead of refused"
  },
  {
   "property": "C81",
   "status": "proved",
   "theorems": [
    "C81_file",
    "C81_defined",
    "C81_safe",
    "C81_long_line_refuted"
   ],
   "note": "without NULs and with lines that fit for the exact contents; any bytes for safety; refuted for longer lines: the end of a long comment is taken for a name"
  },
  {
   "property": "C82",
   "status": "proved",
   "theorems": [
    "C82_user",
    "C82_login",
    "C82_no_account"
   ],
   "note": "the password file, getlogin() and ttyname() are inputs"
  },
  {
   "property": "C83",
   "status": "proved",
   "theorems": [
    "C83_info",
    "C83_log",
    "C83_output",
    "C83_keys",
    "C83_status",
    "C83_query",
    "C83_query_refuted",
    "C83_blame_refuted"
   ],
   "note": "findings: names that do not fit end a query; an end of input or SIGTERM is reported as a termination by the server"
  },
  {
   "property": "C84",
   "status": "proved",
   "theorems": [
    "C84_terminal",
    "C84_no_terminal",
    "C84_ends",
    "C84_echo",
    "C84_early_refuted",
    "C84_fatal_refuted",
    "C84_echo_refuted"
   ],
   "note": "findings: a fatal error leaves the terminal raw; SIGTERM just before select() is not acted upon; echo and session disagree after a suspension"
  },
  {
   "property": "C85",
   "status": "proved",
   "theorems": [
    "C85_help_cut",
    "C85_help",
    "C85_double_refuted"
   ],
   "note": "finding: the doubled escape character is listed where it does something else or nothing"
  },
  {
   "property": "C86",
   "status": "proved",
   "theorems": [
    "C86_one",
    "C86_same_file",
    "C86_free",
    "C86_refused",
    "C86_target",
    "C86_target_live",
    "C86_target_pidfile",
    "C86_target_single",
    "C86_both_refused_refuted",
    "C86_two_refuted",
    "C86_kill_all_refuted",
    "C86_contender_refuted",
    "C86_replace_refuted"
   ],
   "note": "findings: two daemons that start together may both give up; a lock that cannot be traced to a process lets a second daemon start and makes -k signal every process; -k may signal a daemon that is giving up; replacing the file allows a second daemon"
  },
  {
   "property": "C87",
   "status": "proved",
   "theorems": [
    "C87_pidfile",
    "C87_clean",
    "C87_stale_refuted",
    "C87_replace_refuted"
   ],
   "note": "findings: a daemon that dies leaves its PID file, which -k then trusts; a daemon of a replaced configuration takes the PID file over"
  },
  {
   "property": "C88",
   "status": "proved",
   "theorems": [
    "C88_one",
    "C88_untouched",
    "C88_free",
    "C88_daemon_refuted",
    "C88_truncate_refuted"
   ],
   "note": "findings: reopening the same daemon log loses the lock; -z empties a log that another daemon has locked"
  },
  {
   "property": "C89",
   "status": "partial",
   "theorems": [
    "C89_any_client_partial",
    "C89_answered",
    "C89_accept_partial",
    "C89_too_long_refuted",
    "C89_gone_client_refuted",
    "C89_many_clients_refuted",
    "C89_blank_line_refuted"
   ],
   "note": "partial: assumes getpeername() succeeds, fewer descriptors in use than the limit, console names of the simple form and the C locale; findings: a client gone before the thread starts, and running out of descriptors, end the daemon; an OK that does not fit is not sent"
  },
  {
   "property": "C90",
   "status": "proved",
   "theorems": [
    "C90_served",
    "C90_told",
    "C90_glob"
   ],
   "note": "the client's sender, the daemon and the client's receiver composed; the case of an OK line that is too long is part of the statement"
  },
  {
   "property": "C91",
   "status": "proved",
   "theorems": [
    "C91_status",
    "C91_ends",
    "C91_text",
    "C91_killed_refuted",
    "C91_late_refuted",
    "C91_close_refuted",
    "C91_read_refuted"
   ],
   "note": "the failures of the start-up's own calls; what it does not cover is listed as findings: a crash, failures after the detachment, failures of the pipe itself"
  },
  {
   "property": "C92",
   "status": "proved",
   "theorems": [
    "C92_descriptors",
    "C92_session",
    "C92_no_stdin_refuted",
    "C92_none_open_refuted"
   ],
   "note": "started with 0, 1 and 2 open; findings: with standard input closed the wake-up pipe is lost, with all three closed the configuration's lock is"
  },
  {
   "property": "C93",
   "status": "partial",
   "theorems": [
    "C93_configured_partial",
    "C93_transparent_partial",
    "C93_parity_refuted",
    "C93_transparent_refuted",
    "C93_unsupported_refuted"
   ],
   "note": "proved for devices that take the settings and whose settings from before are without CMSPAR resp. IGNCR, INLCR, PARMRK; findings: those are kept, and unsupported settings are ignored in silence"
  },
  {
   "property": "C94",
   "status": "partial",
   "theorems": [
    "C94_given_back_partial",
    "C94_hangup_refuted",
    "C94_stopped_refuted",
    "C94_fatal_refuted"
   ],
   "note": "proved for a console that was never shut down for an error; findings: after one the old settings are lost; a stopped line keeps the daemon from ending; a fatal error gives nothing back"
  },
  {
   "property": "C95",
   "status": "partial",
   "theorems": [
    "C95_locked",
    "C95_distinct_partial",
    "C95_refused",
    "C95_alias_refuted"
   ],
   "note": "proved where different names lead to different devices; finding: names are compared as text, so that a link gives one device two consoles and takes its lock away"
  },
  {
   "property": "C96",
   "status": "proved",
   "theorems": [
    "C96_safe",
    "C96_nothing_lost",
    "C96_order",
    "C96_where",
    "C96_content",
    "C96_emptied_once",
    "C96_rotation",
    "C96_disk_full_refuted",
    "C96_not_retried_refuted"
   ],
   "note": "The last part is false: a write that fails once, or a log that can not be opened once, ends logging until the next SIGHUP. The rest is proved for all histories in which writing keeps up with the text (at most the buffer's capacity waits). Names are one directory level; the log's name does not change between openings of the rotation theorem, although C96_where allows it."
  },
  {
   "property": "C97",
   "status": "proved",
   "theorems": [
    "C97_accounted",
    "C97_stopped",
    "C97_stop_loses_refuted"
   ],
   "note": "Accounting is proved for texts no longer than the buffer's capacity each, which is what the daemon's reads are. The last part is false: the daemon does not write what waits before it stops, it only says how much that is."
  },
  {
   "property": "C98",
   "status": "partial",
   "theorems": [
    "C98_prompt_partial",
    "C98_woken_partial",
    "C98_only",
    "C98_lost_refuted",
    "C98_unnoticed_refuted"
   ],
   "note": "Proved for a SIGHUP that arrives outside two windows. In one (an earlier request is being carried out) the request is lost, in the other (between the test and the waiting) it is not noticed until something else happens; both are proved as refutations."
  },
  {
   "property": "C99",
   "status": "partial",
   "theorems": [
    "C99_stops_partial",
    "C99_stop_unnoticed_refuted",
    "C99_pid_file",
    "C99_let_go",
    "C99_after",
    "C99_port_refuted",
    "C99_without_refuted"
   ],
   "note": "A SIGTERM that arrives after the test at the top of the loop is not noticed until something else happens. A daemon that starts while the other is stopping may fail and leave its PID file, or run without its logs and serial devices, because the lock on the configuration file is given back first."
  }
 ]
}