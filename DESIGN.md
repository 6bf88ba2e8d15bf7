# Formal model of ConMan (dun/conman) in Rocq/Coq 8.16.1

The code in `/repo` is read as text and modelled by hand in Gallina. Nothing is
extracted from the C sources and nothing is run. This file says what is modelled,
how each property of `properties.jsonl` is proved, and what has to be trusted.

## 1. Layout

Every area has these files in `rocq/theories/` (all listed in `_CoqProject`):

* `XxxModel.v`: computable definitions, function by function. Each definition has a
  comment with the file and lines it models and the simplifications made. No proofs.
* `XxxSpec.v`: the small specification the theorems refer to (abstract sequence,
  reference decoder, grammar, ...). It does not use the model's helpers, except for
  the types of its states and traces.
* `XxxProof.v` and further proof files: lemmas and proofs.
* `XxxProps.v`: the theorems (`Cnn_...`), `Example`s that show that the hypotheses are met
  by a concrete case, and `Print Assumptions` for every theorem.

Shared: `Base` (results and memory), `BaseProof`, `Mem` (lemmas about memory),
`Chars` (C characters and ctype), `Fmt` (printf of integers, atoi).

`tools/mkprops.py` and `tools/mkmanifest.py` write `properties.jsonl` and `MANIFEST.json`
(the latter checks that every theorem named exists). `tools/mkfindings.py` writes
section 5 of this file. `tools/mutate.py` runs the seeded bugs of `seeded/LOG.jsonl`.

## 2. Conventions of the model

* A byte is a `Z` between 0 and 255 (`byte_ok`); a C string or buffer is a `list Z`.
  `char` is signed, as on the supported platforms, where the code depends on it; where
  both matter there is a parameter `sgn`.
* C undefined behaviour, fatal `assert`s and `log_err` are a separate outcome `UB kind`
  (out of bounds, null dereference, failed assert, signed overflow, use after free, fatal
  exit). Memory accesses go through checked `get`/`put`/`slice`/`blit`; nothing is
  totalised by a default value. A "safety" theorem says the outcome is never `UB`.
* Assertions: production builds define `NDEBUG` unless configured with
  `--enable-debug`. `assert_` stands where the assertion is proved never to fail;
  `assert_if dbg` where a failure can be reached, and theorems then say for which
  build they hold.
* ctype functions: `ctype iso f c`. With `iso = true` a negative argument is UB as in ISO C;
  with `iso = false` it is handled as the usual C libraries do.
* Loops are structural recursion where possible; where fuel is used, running out is
  a `UB OutOfFuel` outcome, and the theorems exclude it for the fuel supplied.
* Sizes fixed by macros (`OBJ_BUF_SIZE`, `MAX_LINE`, ...) are parameters with the hypothesis
  actually needed (for example `1 < size`), so theorems cover the shipped values.
* System calls, the clock, the resolver, regular expressions and the IPMI library are
  oracles: explicit arguments over which the theorems quantify universally.
* Threads are interleavings of atomic steps, each step being what the code does
  under one lock (SessModel, TpollModel, MuxModel, the IPMI part of ReconnModel, ReconnRace).
* Where the code violates the property, the model keeps the violation, the theorem
  `..._refuted` exhibits a concrete execution, and the strongest true form is proved
  beside it, with the suffix `_partial` where it is weaker than the property.

## 3. Trusted base

* Coq 8.16.1's kernel (`coqc`, and `vm_compute` where used).
* Axioms: none. `Print Assumptions` at the end of each `*Props.v` says "Closed under the
  global context" for every theorem. (A listing of the axioms of all loaded modules also shows
  `Coq.ssr.ssrunder.*`, which come with standard library modules; no theorem depends on
  them.)
* The faithfulness of the hand-written model to the C text, under the simplifications
  in the comments; in particular: malloc never fails (the code aborts in that case), the C
  library functions behave as POSIX says, a mutex gives atomicity, and the platform has
  8-bit bytes, 32-bit `int`, 64-bit `long`/`time_t`.

### What is modelled

| Source | Functions | Where |
|--------|-----------|-------|
| `server-obj.c` | buffers: `write_obj_data`, `write_to_obj`; `format_obj_string`, `sanitize_file_string`, `compare_objs`, `find_trailing_int_str`; `write_notify_msg`, notices; `link_objs`, `unlink_objs`, `shutdown_obj`, `reopen_obj`, `read_from_obj` | Ring, Fname, Query, Msg, Sess, Mux |
| `server-esc.c` | `process_client_escapes` and all commands; telnet protocol; log replay; reset | Esc, Telnet, Ring, Sess, Reset |
| `server-sock.c` | greeting, request and response lines; console selection; busy check; linking | Proto, Query, Sess, Msg |
| `server-logfile.c` | `write_log_data`, options, names, creation, opening | Log, Opt, Fname |
| `server-serial.c`, `server-test.c`, `server-ipmi.c` | option strings; test console output; connection state | Opt, Reconn |
| `server-telnet.c`, `server-unixsock.c`, `server-process.c` | connection state, timers and backoff; device strings | Reconn, Conf |
| `server-conf.c` | configuration file, command line, PID file, signalling the daemon | Conf |
| `server.c` | main loop, signals, environment, periodic timestamps | Mux, Env, Sched |
| `client-tty.c`, `client-sock.c` | keyboard escapes, local echo; requests and responses | Esc, Proto |
| `client-conf.c` | identity, environment, command line, files with names | Cli |
| `client-tty.c`, `client-sock.c:display_consoles`, `util-file.c:get_tty_raw` | a session: the loop, terminal settings, messages, help, query output | Term |
| `server-conf.c` lock, PID file, signalling; `server.c:open_daemon_logfile`, `server-logfile.c:open_logfile_obj`; `util-file.c` locks | any number of daemons that share files, system call by system call | Inst |
| `server-sock.c:process_client` with everything it calls; `server.c:accept_client` | the whole handling of a new connection: bytes in, bytes out, who owns the descriptor and the request afterwards | Serve |
| `server.c:main` up to the main loop, `begin_daemonize`, `end_daemonize`; `log.c:log_err` | three processes, a pipe and a terminal in small steps; the descriptor table; session and process-group ids | Boot |
| `server-serial.c:set_serial_opts`, `create_serial_obj`, `open_serial_obj`; `common.c:get_tty_mode`, `set_tty_mode`; serial cases of `destroy_obj`, `shutdown_obj` | termios as bit sets, what a device takes as a function, record locks; a device may vanish before any call | Line |
| `server-logfile.c:open_logfile_obj`, `server.c:reopen_logfiles`; log cases of `write_to_obj`, `shutdown_obj`, `destroy_obj` | buffer of `Ring*.v`, a directory that others change, files with contents, outcomes of open and write as arguments | Rot |
| `server.c`: signal handlers' flags, `mux_io`'s loop, end of `main`; `server-conf.c:destroy_server_conf`, `server-obj.c:destroy_obj`, `tpoll.c:tpoll_destroy` | the loop as a machine with program counter and flags; memory and descriptors with use-after-free and double close as outcomes; two daemons' steps interleaved; processes with groups | Down |
| `server.c:setup_coredump`, `coredump_handler`, `setup_signals`, `sig_chld_handler`, `display_configuration`, `create_listen_socket`, `setup_nofile_limit`; `util.c:posix_signal`; the tests of errno in `mux_io`, `accept_client`, `read_from_obj`, `write_to_obj` | children with waitpid, errno as a variable the handler shares; rlimits with privilege as in setrlimit(2); dispositions of signals across exec; bind as argument | Init |
| `client.c:main` after the command line; `client-sock.c`: `connect_to_server`, `display_error`, `display_data`, `display_consoles` and the messages of `send_greeting`, `send_req`, `recv_rsp` | the functions of `Proto*.v` for the protocol; terminal, log and socket as lists with schedules; resolver, connect, shutdown and close as arguments | Run |
| `log.c`: `log_set_file`, `log_set_syslog`, `log_msg`, the end of `log_aux`; `server.c`: `main` (102, 130-140), `open_daemon_logfile`, end of `reopen_logfiles` | streams as numbers with what is written to them, use of a closed one as an outcome; outcomes of fopen, locks, fprintf and fclose as arguments; threads by their accesses to the stream in use | Diag |
| `server.c`: `mux_io`; `server-obj.c`: `read_from_obj`, `write_to_obj` over histories; `client-tty.c`: the keys | no new model: histories of Sess, composed with Ring, Esc and Telnet | Flow |
| the same, with the events of every kind: connections, steals, commands, failures, reopening | no new model: histories of Sess seen from one log | Rec |
| what each client and console is sent, and by whom | no new model: histories of Sess seen from one client or console | Seen |
| times as texts: strftime() with the formats in use, create_long_time_string, create_short_time_string | TimeModel; localtime_r is the C library's, its result is an argument | Time |
| what each SERVER setting does and what is refused | ConfModel (parse_server_directive); no new model | Set |
| which descriptors are open, marked, watched and closed, in which thread, and which of them programs get | every function that opens, marks, watches or closes one, as a program of system calls; threads interleave at each call; fork and exec | Desc |
| what each GLOBAL setting does, and which CONSOLE and GLOBAL lines are refused | ConfModel (parse_global_directive, parse_console_directive); no new model | Glob |
| the processes beside the daemon and their numbers, as far as a kill() of a console's program may hit them | KidSpec: any interleaving of what the consoles do (Reconn) with processes that begin and end | Kid |
| many lists on one memory, with the free nodes linked through their next pointers | the functions of List on a larger memory; calls are atomic | Pool |
| perform_serial_break, send_ipmi_break | device calls and log entries as events, on the heap of Sess; success of the calls is arbitrary, their duration is not modelled | Brk |
| ipmi_init, ipmi_fini, create_ipmi_obj, the end of main | objects as name and host; what is submitted to the engine is arbitrary | Eng |
| link_objs, unlink_objs, unlink_obj, shutdown_obj of a client | at the level of single list operations of many threads; no messages; the traversal in link_objs takes the first writer not yet had | Weave |
| write_obj_data, write_to_obj, the end of file in read_from_obj, gotEOF in unlink_objs, shutdown_obj of a client, perform_suspend | one client, at the level of single memory accesses, locks and tpoll calls of many threads; the number of pending bytes only; sequentially consistent memory | Wake |
| `tpoll.c` | all of it, with the threads that use it | Tpoll |
| `list.c`, `lex.c`, `util-str.c`, `util-file.c`, `util-net.c`, `log.c`, `inevent.c` | all functions that the programs use | List, Lex, Str, File, Host, Msg, Diag, Inev |

Not modelled: `getopt` and the client's usage message; privileges;
modem lines of serial ports; freeipmi's internals (only the results of its calls);
TCP wrappers; the `expect` scripts; the kernel beyond what the models of inotify, poll, pipes,
processes and files say.

## 4. How each property is proved

What is proved of each property, and what is missing, is in the notes of
`MANIFEST.json`.

| Id | Files | How it is proved |
|----|-------|------------------|
| C01-C05, C65 | `Ring*.v` | refinement of the circular buffer to a bounded queue; invariant over every operation sequence; induction over kernel write results |
| C06-C08, C66 | `Esc*.v` | round trip of stuffing and unstuffing over every chunking; equality with reference decoders |
| C09-C12 | `Telnet*.v` | equality with a reference decoder; chunk independence; reply table and absence of answers to replies |
| C13-C15 | `List*.v` | heap of nodes with pointer-to-pointer fields; refinement to sequences with cursors; sorting as stable permutation |
| C16-C19 | `Lex*.v` | progress and bounds of every call; round trip of quoted strings; binary search; line count invariant |
| C20-C22 | `Proto*.v` | round trips of request, response and greeting over the lexer, every schedule of partial transfers |
| C23, C49 | `File*.v` | induction over the results of read and write; file system as a function |
| C24-C27 | `Tpoll*.v` | small steps of all threads; sorted queue invariant, refinement to a map, wake-up invariant over every interleaving |
| C28-C34, C55-C57, C68 | `Sess*.v` | small steps of client threads, main loop and devices; link invariant; refutations by execution |
| C35-C38, C67 | `Log*.v` | equality with a transducer per byte; bounds; independent grammar of lines |
| C39, C40, C69-C73 | `Reconn*.v` | event machines of all kinds of consoles; invariants of timers, delays, announcements; two threads in small steps (`ReconnRace.v`), which alone refine to the events |
| C41 | `Reset*.v` | history of processes, groups and timers; invariants |
| C42, C43 | `Fname*.v` | relational specification of expansion; refutations of the duplicate check |
| C44-C48 | `Str*.v` | direct specifications; grammar of words |
| C50, C53, C75 | `Opt*.v` | strtok, strtol and strtoul from the C standard; declarative specifications of option strings |
| C51, C52, C76-C79 | `Conf*.v` | directives over the lexer; independence of lines; command line; device strings |
| C54, C63 | `Query*.v` | filter and order specification; characterisation of the comparison |
| C56, C60 | `Msg*.v` | text of messages for every length |
| C58 | `Inev*.v` | invariant over registrations and a model of inotify; delivery by induction over histories |
| C59 | `Sched*.v` | arithmetic of local time with an offset that depends on the time |
| C61 | `Host*.v` | memory cell by cell; the copy represents the original |
| C62 | `Env*.v` | memory cell by cell; environment read back as execv does |
| C80-C82 | `Cli*.v` | the last source that says anything decides; pointers into the line buffer; uid lookup |
| C83-C85 | `Term*.v` | invariant of the session loop over every history of events and system-call results; case analysis of the handlers against the help |
| C86-C88 | `Inst*.v` | small steps of all daemons over a table of POSIX locks; invariants of locks, stages, PID file and log descriptors; refutations by execution |
| C89, C90 | `Serve*.v` | invariants of a request through parsing, selection and validation; algebra of written pieces; composition of the client's sender, the daemon and the client's receiver |
| C91, C92 | `Boot*.v` | invariant of all interleavings, decreasing measure; the error text through both formattings; case analysis of the descriptor table |
| C93, C94, C95 | `Line*.v` | bit-wise equations of the settings; invariants over histories with devices that vanish at any call; locks |
| C96, C97 | `Rot*.v` | invariant over histories of the log's buffer, its descriptor and the directory; conservation of the text by induction; counting |
| C98-C101 | `Down*.v` | invariants of the loop over all interleavings with signals; ranking function for what is not noticed; invariant of two daemons' interleavings; induction over histories of processes |
| C102-C106 | `Init*.v` | invariant over deliveries of SIGCHLD; case analysis over all numbers and limits; injectivity of the printed summary |
| C107-C108 | `Run*.v` | case analysis over the run, with C21 (any input) and C23 (any schedule); composition with C90 (the daemon's side) |
| C109 | `Diag*.v` | invariant of the open streams over histories; induction over messages; a permutation invariant over interleavings; refutations by execution |
| C110 | `Flow*.v` | each event refines operations on the queues of all objects; induction over the history with the decoders' states; composition with the keyboard and the protocols |
| C111 | `Rec*.v` | invariant on the links of one log, kept by every event; each event amounts to log operations on that log (the console's data, messages, writes); induction over the history, then C36's text of a log |
| C112 | `Seen*.v` | relation `due` between an event, an object and an operation on its queue; every function of Sess changes the queue of one object by due operations only (the rest of the object set aside); induction over the history; bytes of a queue come from what was queued |
| C113 | `Time*.v` | expansion of the formats for every struct tm in range; lexicographic order of fixed-width numerals |
| C114 | `Set*.v` | settings as a map from names to values; one step per setting, lines by induction, on top of the line-by-line theorem of C51 |
| C115 | `Desc*.v` | every function is shown fine for what its thread holds (a logic of held descriptors); one invariant for all interleavings says who holds each descriptor; what a program has follows from it |
| C116 | `Desc*.v` | same invariant: watched implies held by a thread or an object, and nonblocking |
| C117 | `Desc*.v` | same invariant: every open descriptor has exactly one holder; idle threads hold none |
| C118 | `Glob*.v` | defaults as a record; one step per setting, lines by induction, one lemma for a line that is refused somewhere, on top of the line-by-line theorem of C51 |
| C119 | `Pool*.v` | frame lemma: each list function does the same in a larger memory; invariant: disjoint lists and a chain of free nodes; projection to one list; counting nodes |
| C120 | `Brk*.v` | link invariant of Sess (live, distinct readers); induction over the client's readers; same heap as SessModel's break_one |
| C121 | `Eng*.v` | induction over the definitions; arithmetic of the division; decomposition of the trace of a run |
| C122 | `Weave*.v` | invariant over all interleavings (who is half linked, who is being torn down), simulation of each thread running alone, bound on the loops of unlink_obj |
| C123 | `Wake*.v` | invariant over all interleavings (who holds the lock, who is going to ask for output), measure for the lock's release, monotonicity of gotEOF without wrap-around |
| C64, C74 | `Mux*.v` | one pass of the main loop against arbitrary other actions; retry loops |

## 5. Findings

<!-- findings -->
Executions of the modelled code that violate a property, each proved to be possible:

* `C01_oversized_message_refuted`: a single message that is longer than the capacity keeps its FIRST SZ-1 bytes, not its last ones (server-obj.c:990-992).
* `C05_empty_replay_refuted`: in a debug build replaying a log with nothing in it aborts (server-esc.c:360), e.g. right after the log was shut down on a write error.
* `C05_stale_replay_refuted`: shutdown_obj resets the positions but not the wrap flag, so after a shutdown the replay shows stale bytes that are not the last ones.
* `C07_relative_order_refuted`: ... but a command overtakes the data that precedes it in the same read: typing "x" and then the DEL escape can reach the console as DEL followed by "x" (the commands are performed while the buffer is scanned, server-esc.c:76-128; the data is written after that, server-obj.c:928-954).
* `C08_letter_escape_refuted`: an escape character that is also a command letter cannot be sent by doubling it; the second one performs the command (client-tty.c:183-210 precedes the test at 211).
* `C08_high_escape_refuted`: with an escape character above 127 (accepted by -e) no key is ever recognised as the escape character, so the session offers no escapes at all, not even close (signed char compared with unsigned char, client-tty.c:164-165,177).
* `C09_reconnect_refuted`: the protocol state survives a disconnection in the middle of a sequence: the first byte of the new connection is lost.
* `C11_escaped_iac_refuted`: a payload with an (escaped) 0xFF leaks: the 0xFF and everything after it is shown and logged as console output.
* `C12_not_encoded_refuted`: 0xFF is not doubled, so the peer takes it and what follows for a telnet command.
* `C14_current_forgotten_refuted`: when the element after the current one is removed by someone else, the iterator forgets its current element, and removing through it does nothing.
* `C16_high_bytes_refuted`: With ISO C's rules the claim is false for text with bytes above 127: they are passed to isalpha() as negative numbers (lex.c:208). And in practice the byte 255 is returned as the token that stands for an error.
* `C17_conditions_refuted`: None of the conditions on the string can be dropped: a character above 127 comes back changed, a line break ends the string, and characters beyond the limit are lost.
* `C20_conditions_refuted`: Without those conditions the client sends requests that mean something else: a pattern of more than 1023 characters is cut, one with a character above 127 changed, an empty one forgotten; after a line end the rest of the request is left over, as input for the console.
* `C21_code_overflow_refuted`: A server can send an error code that overflows atoi() in the client.
* `C24_far_timer_refuted`: Without the bound on how far ahead the timers lie (24.8 days), this fails: the loop does not sleep at all until the timer is within that bound.
* `C25_overflow_refuted`: The counter for timer ids overflows after 2^31 - 2 timers.
* `C26_growth_refuted`: A descriptor beyond the table, set by another thread while poll() is in progress, makes the kernel write to memory that has been freed.
* `C26_is_set_refuted`: A descriptor withdrawn by another thread while poll() is in progress, and later added again, is reported with the events of its former life; a debug build stops with a failed assertion instead.
* `C26_return_refuted`: A debug build also stops when the only ready descriptor is withdrawn before tpoll() looks at the result of poll(), ...
* `C26_debug_read_refuted`: and reads beyond the table when asked about a descriptor that it has no room for.
* `C26_create_refuted`: tpoll_create() writes beyond a table too small for the pipe's descriptor.
* `C29_race_refuted`: A request without force or join can still give a console a second writer: both threads look for writers before either of them becomes one.
* `C30_quiet_victim_refuted`: or was in quiet mode: it is detached, but nothing is pending for it and no output is requested, so it stays connected until it sends or closes.
* `C31_monitor_command_refuted`: The monitor command makes a client that only monitors a writer, besides the one there is.
* `C33_stolen_client_refuted`: A client whose console was stolen sends a force, join or monitor command.
* `C33_hasty_client_refuted`: A client that hangs up while its thread is still linking it to its consoles: the thread uses memory that the main loop has freed.
* `C34_suspended_lingers_refuted`: A suspended client with output left is never removed after its connection ended.
* `C40_serial_refuted`: A serial console whose device cannot be opened has no timer: it stays down until a client connects.
* `C41_background_refuted`: A reset command that leaves a process in the background: its shell ends at once, so nothing is killed at the timeout, and the next reset begins while the process of the first still runs, in the group of the first.
* `C41_reuse_refuted`: Process numbers are reused: the group of a process that has nothing to do with the daemon is killed.
* `C42_dangling_refuted`: A format that ends in a single '%' is read past its end, as soon as what comes before fits.
* `C42_dangling_leaks_refuted`: When another string happens to follow in memory, it becomes part of the result.
* `C43_same_format_refuted`: Two consoles that are given the same name with specifiers are both accepted, and log to the same file, whenever the name expands to the same text for both and this text is not the name itself.
* `C43_needless_refuted`: A console can also be rejected without need: "/log/%%N" names the file "/log/%N", which no one else uses.
* `C45_unterminated_refuted`: The function also has to cope with a buffer that has no terminator (it tries to: it stops after size bytes); but then it reads the byte after the buffer.
* `C47_lone_quote_refuted`: A quote at the very end opens a word that is never closed, but is returned as a word.
* `C48_clock_set_back_refuted`: The clock is not monotonic: after it was set back the elapsed time is negative. With assertions the daemon aborts; without, the text denotes no duration.
* `C50_password_nul_refuted`: A password is read back as a C string: one whose bytes include a NUL is accepted but only the part before the NUL is used.
* `C51_timestamp_refuted`: The line after a TIMESTAMP without unit is read as part of that line.
* `C51_nul_refuted`: What follows a NUL character in the file is silently left out.
* `C51_errno_refuted`: A number that is out of range makes a later, correct line be rejected.
* `C51_char_255_refuted`: Where characters are signed, the character 255 at the beginning of a line makes the rest of the line a new directive.
* `C52_same_line_refuted`: On one line it is the last that decides.
* `C53_test_errno_refuted`: A valid option is rejected if an earlier one, possibly of another console, was out of range: errno is not reset before it is tested.
* `C53_test_overflow_refuted`: Accepted delays can make the computation of the next one overflow.
* `C54_regex_split_refuted`: Joining the patterns by '\|' makes a request with two unacceptable patterns succeed.
* `C57_same_turn_refuted`: The suspend command and output in the same turn of the main loop: the client is sent its pending output although it is suspended.
* `C58_alias_refuted`: two paths that lead to the same directory: only the console registered first is told
* `C58_recreated_refuted`: a directory that is deleted and made again: the registration is gone
* `C58_init_failure_refuted`: a debug build stops when the kernel has no inotify
* `C59_huge_interval_refuted`: An interval close to the largest int, which the configuration file accepts, is not handled: the computation overflows, at the start or after the first timestamp.
* `C59_burst_refuted`: After a jump of the clock the missed timestamps are all written at once.
* `C60_cut_refuted`: A format that ends with a newline: a message that is too long loses it.
* `C60_injection_refuted`: A user name sent by a client, with a byte whose low seven bits are a newline: the daemon's log gets a line of the client's making (server-sock.c:295, 814).
* `C61_cname_refuted`: host_name_to_cname() does not check the length of the address: with a resolver that returns IPv6 addresses it writes 16 bytes into a struct in_addr of 4.
* `C63_cycle_refuted`: In general it is not an order at all: three names that are each before the next in a circle.
* `C63_equal_refuted`: Different names may compare equal.
* `C63_overflow_refuted`: A trailing number larger than an int is converted with atoi(), which is then undefined.
* `C65_reopen_refuted`: bytes typed while a console is down stay in the buffer, and when it is reopened nobody asks poll() for writability: they are held back until the next keystroke.
* `C66_two_control_characters_refuted`: It would not fit if both characters were control characters: the buffer has no room for the terminating NUL.
* `C67_burst_refuted`: C67 fails in general: with the timestamp option a single read of newlines, no longer than the daemon's read buffer, yields more log text than the log's output buffer holds, so log lines are lost although the file could be written at once.
* `C69_race_refuted`: but the main thread and a client's thread may both find the console up after its connection was lost: the second to arrive at the kill() has -1 for the process's number, which is every process that the daemon may signal.
* `C69_two_refuted`: Or both may find it down: then two processes are started, and the first is never killed.
* `C69_reuse_refuted`: The program of a console ends and is waited for, its number is given to a process that has nothing to do with the daemon, and only then the console's connection is found to be lost: that process is killed.
* `C69_sibling_refuted`: The number may also be given to the program of another console: then that console loses its program when the first is found to be lost.
* `C70_created_refuted`: A UNIX domain socket console is cut off although nothing is wrong with its connection, when its socket file is created again.
* `C71_serial_refuted`: The loss of a serial device is not announced.
* `C72_ipmi_drop_refuted`: An IPMI console that comes up and drops at once is tried again any number of times without a delay.
* `C73_socket_refuted`: When socket() fails for a telnet console the daemon ends.
* `C73_race_refuted`: A telnet console: while the main thread connects it, a client's thread fails to, and leaves a timer that is forgotten. The console has two timers, and when the forgotten one falls due the console is connected: the message that should end the daemon lacks its first argument, so that the state is taken for the address of a string, and the daemon crashes (server-telnet.c:263-266).
* `C73_serial_refuted`: A serial device that disappears while it is opened, between two of the calls, ends the daemon with all its consoles: tcgetattr() or tcsetattr() fails, and log_err() is called.
* `C74_errno_refuted`: The handler of SIGCHLD does change it: a read that found nothing to read, with the signal of the last child process delivered before errno is looked at, gives up a healthy connection; an interrupted poll() likewise ends the daemon.
* `C74_missed_refuted`: There it is missed: the daemon sleeps, however long, until something else wakes it.
* `C75_truncated_refuted`: Numbers that do not fit an int are truncated instead of being rejected.
* `C76_ipmi_digits_refuted`: An IPMI host whose name consists of digits is taken for a terminal server called "ipmi".
* `C76_directory_refuted`: A directory of the same name, earlier in EXECPATH, hides a program.
* `C76_port_refuted`: A port with too many digits is undefined behaviour, and so is an empty host where assertions are compiled in.
* `C76_empty_host_refuted`: An empty host fails an assertion where assertions are compiled in.
* `C77_log_taken_refuted`: A line that is reported because its log is in use defines its console nevertheless.
* `C77_same_port_refuted`: Two consoles may be connected to the same terminal server port.
* `C79_pidfile_in_file_refuted`: So a PID file named only in the configuration file is of no use: a daemon that has lost its lock, and was started with the very same arguments, is not found.
* `C80_port_refuted`: A port beyond 65535 is not refused: the client connects to the port with the same last 16 bits, while its messages name the one that was asked for.
* `C81_long_line_refuted`: A comment line that is longer than the buffer is read in pieces: what does not fit is taken for the name of a console. Here the file is one line, a comment.
* `C83_query_refuted`: ... but the client gives up at the first name that does not fit its buffer, although the server accepts and lists such names.
* `C83_blame_refuted`: the session is said to be terminated by the server when it is not: e.g. at the end of the input (the terminal has gone, or Ctrl-D where it is not raw), or on SIGTERM.
* `C84_early_refuted`: ... but a signal that arrives just before the client waits is not acted upon: the session goes on until something else happens.
* `C84_fatal_refuted`: any error on the way (e.g. a reset of the connection by the server's host) leaves the user with a raw terminal: at any time in any session.
* `C84_echo_refuted`: ... but after a stop the echo is off while the session says it is on; the next use of the echo sequence then turns it on and says it is off.
* `C85_double_refuted`: the help says that the doubled escape character sends it, in a read-only session too, where nothing is sent; and if the escape character is a command letter, what it lists twice performs the command.
* `C86_both_refused_refuted`: Two daemons that start together can each see the other and both give up.
* `C86_two_refuted`: If another program has an open-file-description lock on the configuration, F_GETLK gives -1 for it, or may, although a daemon has its lock there too: the check is `> 0', so a second daemon of the same file starts.
* `C86_kill_all_refuted`: With such a lock there `conmand -k' sends its SIGTERM to the pid -1, that is, to every process it may signal.
* `C86_contender_refuted`: What `conmand -k' signals may be a daemon that is only starting and about to give up, although one runs.
* `C86_replace_refuted`: Once the file has been replaced, as editors do when they save, a second daemon starts, and `conmand -k' no longer finds the first.
* `C87_stale_refuted`: A daemon that dies, be it by a fatal error of its own, leaves its PID file, and with -P `conmand -k' then signals whatever process has that pid.
* `C87_replace_refuted`: After the file is replaced a second daemon takes the PID file over although the first is up; if it then fails, as it must if it wants the same port, the file names nobody.
* `C88_daemon_refuted`: When the daemon reopens its own log and it is the same file, as on a SIGHUP without log rotation, it loses its lock on it: the lock is taken through the new descriptor, and closing the old one then drops it. Another daemon can then have the file too.
* `C88_truncate_refuted`: With -z a daemon empties a log before it finds that another has it locked.
* `C89_gone_client_refuted`: A client that has gone before its thread asks for its address ends the daemon.
* `C89_many_clients_refuted`: As many clients as there are descriptors left, and one more, end the daemon: the error EMFILE of accept() is fatal.
* `C89_blank_line_refuted`: The line about a writer may be followed by an empty one: buf[1022] is set to LF even if the text ends just there.
* `C89_too_long_refuted`: A query may go unanswered: a hundred and forty consoles with long names fill more than the daemon's buffer, and the connection is closed after the OK to the greeting.
* `C91_killed_refuted`: A daemon that crashes or is killed while it starts: `conmand' says nothing and exits with 0.
* `C91_late_refuted`: What fails after the daemon has detached itself - the limit of open files (server.c:711) - is not told either.
* `C91_close_refuted`: Nor is a failing close() of the pipe: log_fd_daemonize is already -1.
* `C91_read_refuted`: A read() of the parent that fails: the status is 1, but the daemon is up.
* `C92_no_stdin_refuted`: Started with standard input closed, as `conmand <&-', the daemon replaces the pipe that wakes tpoll() by /dev/null: the first wake-up reads an EOF, which is fatal (tpoll.c:808).
* `C92_none_open_refuted`: With all three closed it replaces its configuration, too, and with that gives up the lock which keeps a second daemon away.
* `C93_parity_refuted`: A line that had mark or space parity (CMSPAR) keeps it: with even parity configured it is then space parity.
* `C93_transparent_refuted`: Settings from before that translate characters on input are kept: with INLCR, every newline of the console arrives as a carriage return; with IGNCR every carriage return is lost; with PARMRK the byte 255 arrives twice.
* `C93_unsupported_refuted`: A speed that the device does not support is ignored in silence: the console is open, at another speed than configured.
* `C94_hangup_refuted`: After an end of file or an error on the device, the settings from before are lost: shutdown_obj() closes the descriptor without setting them, and open_serial_obj() takes the raw settings for those from before.
* `C94_stopped_refuted`: A device with output that cannot leave (stopped by the other side) keeps the daemon from ending: destroy_obj() sets the old settings with TCSAFLUSH, which waits for the output, before it discards the output. The devices that follow are not given back.
* `C94_fatal_refuted`: After a fatal error no device is given back.
* `C95_alias_refuted`: Names of devices are compared as text: "/dev/ttyS0" and "/dev/../dev/ttyS0", or a link, are two consoles on one device. Both open it, since a process's own lock does not stop it, and each sets it as configured for itself; when one of them is shut down, the process loses its lock, and another program can lock the device although the other console still has it open.
* `C96_disk_full_refuted`: A write that fails once, because the disk is full for a moment, ends logging: however much text follows and however often the log could be written, nothing is written until the daemon gets SIGHUP.
* `C96_not_retried_refuted`: Also when the log can not be opened again, even if only because the disk was full or another process held a lock at that moment: nothing is written until the next SIGHUP.
* `C97_stop_loses_refuted`: Stopping the daemon loses what waits, although the log could be written: whatever comes between the last time the log was written and the signal is not in the file.
* `C98_lost_refuted`: A SIGHUP that arrives while an earlier one is carried out is lost: a log that has been opened already is not opened again, however long the daemon runs. Its file, if it was renamed in the meantime, is written on under the new name.
* `C98_unnoticed_refuted`: A SIGHUP that arrives between the test and the waiting is not noticed until something else happens: the daemon waits with the request unheeded.
* `C99_stop_unnoticed_refuted`: One that arrives later in the turn is not noticed until something else happens: the daemon goes on and waits, however much time it is given.
* `C99_port_refuted`: A daemon that starts as soon as it can have the configuration file may fail, because the old one still listens; its PID file is left behind.
* `C99_without_refuted`: Or it runs, and when the old one has stopped everything is free, but the new one is without all of its logs and serial devices, and its own log.
* `C100_reset_refuted`: Reset commands are left running, and nobody enforces their time limit any more.
* `C100_foreground_refuted`: In the foreground no program is signalled.
* `C101_thread_refuted`: But a thread that serves a new connection at that time uses the released configuration.
* `C102_last_child_refuted`: When the last child ends at such a moment, errno is no longer that of the call: an interrupted poll() or an accept() with nothing to accept ends the daemon, and a read or a write that would have been repeated later is taken for a broken connection.
* `C103_port_refuted`: Greater numbers are accepted too; the daemon announces them and listens on another port, with 65536 on an arbitrary one.
* `C104_late_refuted`: A number that an unprivileged daemon may not have ends it. By then conmand has already reported success (server.c:148, 155).
* `C104_negative_refuted`: Every other negative number means the same as -1.
* `C104_told_refuted`: No limit is reported as -1.
* `C104_core_refuted`: COREDUMP=on does not start at all without privilege, if the hard limit is finite.
* `C105_syslog_refuted`: SYSLOG="kern" is accepted and shown, but nothing is written to syslog.
* `C106_pipe_refuted`: SIGPIPE is ignored in all of them: a pipeline in a console's program or in a reset command whose reader has ended goes on, instead of being ended by its first write.
* `C107_long_message_refuted`: A long message loses its end: neither a full stop nor the ends of line are shown, and what follows comes right after it.
* `C107_negative_code_refuted`: A server may make a client that is built for debugging abort: an error code of zero or less fails an assertion.
* `C107_log_end_refuted`: A client's log has a last line after a query, but none after an error.
* `C108_hint_refuted`: The user of a monitor that matches several consoles is advised to broadcast, but no option makes the daemon grant this: monitoring concerns one console only, whether broadcasting or not.
* `C108_long_name_refuted`: A console may have a name of 1023 characters: a query that matches it shows nothing of it and ends with status 1.
* `C109_failed_write_refuted`: One write to the log that fails, as on a full disk, ends it: later messages are in no log, however important and though writing would work again, until somebody asks the daemon to reopen; and the system's log is told of it, though that is not where messages were to go.
* `C109_failed_reopen_refuted`: A log that can not be opened again, though it may be for a moment only: the daemon gives up the one it has, and its messages are in no log until the next request.
* `C109_threads_refuted`: A client is served, or turned away, while the daemon is asked to reopen its log: the thread has read which stream to write to, the main thread closes it, and the thread writes to what has been freed.
* `C109_threads_null_refuted`: Or the log can not be opened again: the thread has found that there is a log, the main thread takes it away, and the thread writes to no stream at all.
* `C113_long_zone_refuted`: With a longer one (TZ may name it at will), the program ends when it opens a log.
* `C114_unitless_refuted`: Without its unit, TIMESTAMP is accepted at the end of a line only: before another setting it is reported, the timestamps are switched off and the rest of the line is ignored.
* `C114_logfile_refuted`: A file name with a priority that does not exist is reported, but the name takes the place of the one that was in force.
* `C114_logdir_comma_refuted`: With a comma in the name of the directory for logs, a file name without priority is rejected and the log goes elsewhere.
* `C114_unit_refuted`: An interval with an unknown unit is reported, but switches the timestamps off.
* `C114_interval_refuted`: An interval that does not fit in an int once it is in minutes is undefined behaviour.
* `C115_accept_refuted`: The socket of a client is marked by the client's own thread, and only when its request has been read and is a connection to consoles: a reset command, or the program of a process console, that is started before that has the socket. (The program then keeps the client's connection open after the daemon closed it, and it can read and write it.) server.c:975-1017; server-obj.c:117-118
* `C115_thread_refuted`: A client's thread that opens a console again has the descriptor unmarked for a moment, and so has the main thread: a program that the other thread starts at that moment keeps the console's connection. server-sock.c:905-976; server-telnet.c:197-220
* `C115_inherited_refuted`: What the daemon was started with and is not marked is there in every program: the daemon closes none but the standard three. server.c:281-320
* `C116_program_refuted`: The pair of sockets is made nonblocking at both ends: the program of a process console has nonblocking standard input, output and error. A program that does not expect it fails with EAGAIN when there is no input yet or when it writes faster than the daemon reads. server-process.c:323-324
* `C117_closed_stdin_refuted`: If the daemon is started with standard input closed then the pipe that wakes its main loop has that number, and /dev/null is put in its place before the daemon is ready: the end of the pipe is lost. (/dev/null is always readable, and the end of file that is then read from it is a fatal error.) tpoll.c:162-176, 797-808; server.c:296-309
* `C118_shared_refuted`: A default log has to name a log of its own for each console. But a percent sign that stands for itself, before N, is taken for that: the line is accepted and all consoles have the same log, without a report.
* `C120_overtakes_refuted`: A break to a serial line overtakes what was typed before it: the line is broken while earlier keystrokes still wait in the console's buffer.
* `C120_silent_refuted`: A break to a console of a type that knows no breaks (test, Unix socket) does nothing, and neither the user nor the log is told.
* `C121_told_refuted`: A daemon whose engine cannot be started ends after it has reported success.
* `C122_stolen_refuted`: A client may be stolen from while it is still being linked: client 2 broadcasts to consoles 0 and 1, and client 3 forces console 0 when 2 is half linked to console 1. Client 2 loses all its links but one: console 1 still lists it as a writer, although it lists nothing. Hence its destruction leaves that entry behind, and whatever visits the writers of console 1 next uses freed memory.
* `C122_hangup_refuted`: A client is put on the server's list before it is linked; if its connection ends at once, the main loop tears it down while its own thread goes on linking: both the console's writers and its readers then hold a destroyed client.
* `C123_noted_refuted`: gotEOF and gotBufWrap are bits of one word, gotBufWrap is set with the buffer's lock held and gotEOF without it. When another thread's message passes the end of the buffer while the main loop notes that the client hung up, the note is lost: the client's descriptor is polled for nothing any more and the session stays.
* `C123_stolen_refuted`: a client whose console is stolen is sent a message and then marked to be closed when its buffer is empty. If the main loop sends the message before the mark is set, nothing closes the client: no message and no other session wakes it.
* `C123_suspended_refuted`: a message being written while the client suspends its output is sent to it although the suspension is in force.
