#!/usr/bin/env python3
"""Regenerates /verif/properties.jsonl from the table below (one JSON object per line)."""
import json, os
P = []
def p(id, title, statement, quantifier, why, *anchors):
    P.append(dict(id=id, title=title, statement=statement, quantifier=quantifier,
                  why_tests_cant=why, anchors=list(anchors)))

p("C01", "Buffered output is the most recent suffix of what was written",
  "Whatever sequence of messages is queued for a client, console or log file, the bytes still pending for it are always the last (buffer size - 1) bytes of everything not yet written out: when a slow reader overflows its buffer only the oldest bytes are dropped, never a byte in the middle, and the surviving bytes keep their order.",
  "every buffer state, every sequence of queued messages of every length, every placement of the read/write positions in the ring, every buffer size",
  "The ring has a different wrap position after every history; a test visits a handful of alignments out of 16384^2.",
  "src/server-obj.c:write_obj_data", "src/server-obj.c:write_to_obj", "src/server-obj.c:num_bytes_buffered")
p("C02", "Ring-buffer accesses stay inside the object's buffer",
  "Queuing and flushing output never reads or writes outside the object's fixed-size buffer and keeps both positions inside it, whatever sizes are queued and however the descriptor accepts partial writes.",
  "every interleaving of queue and flush operations, every message length, every partial-write result",
  "An off-by-one shows only at the exact wrap position; memory errors may not be observable.",
  "src/server-obj.c:write_obj_data", "src/server-obj.c:write_to_obj")
p("C03", "No loss and no duplication below capacity",
  "As long as a descriptor never falls behind by more than the buffer capacity, the concatenation of all bytes handed to write() is exactly the concatenation of all messages queued, in order, whatever partial writes, interrupted writes and would-block results occur.",
  "every history of queue operations and kernel write results that keeps the backlog within capacity",
  "Quantifies over every schedule of partial writes.",
  "src/server-obj.c:write_obj_data", "src/server-obj.c:write_to_obj")
p("C04", "Log replay shows the most recent log output",
  "The log-replay escape sends the requesting client exactly the last min(replay length, bytes logged) bytes that were queued to the console's log file, in order, framed by the begin/end messages; bytes that were not logged are never shown.",
  "every history of log writes, every ring position, wrapped or not",
  "Depends on the ring position and the wrap flag after an unbounded history.",
  "src/server-esc.c:perform_log_replay", "src/server-obj.c:write_obj_data")
p("C05", "Log replay is safe on every log state",
  "Requesting a log replay never aborts the daemon and never shows stale bytes, including when nothing has been logged since the log file was (re)opened.",
  "every state of the log buffer reachable through opening, reopening, closing and writing the log",
  "The failing states need a particular history (nothing logged yet, or a shutdown after wrap-around).",
  "src/server-esc.c:perform_log_replay", "src/server-obj.c:shutdown_obj")
p("C06", "Typed bytes reach the console unchanged",
  "Every byte sequence typed by the user that contains no local escape sequence arrives at the console byte for byte, including 0xFF bytes (the protocol's own escape), no matter how the bytes are split into reads on either side.",
  "every byte string, every chunking at the client and at the server",
  "Escaping bugs hide in specific byte pairs straddling read boundaries.",
  "src/client-tty.c:read_from_stdin", "src/server-esc.c:process_client_escapes")
p("C07", "Escape commands are decoded exactly",
  "On the client-to-server stream every two-byte escape triggers exactly the command it names, once, in stream order, none of its bytes reach the console, unknown escapes are dropped, and the result does not depend on how the stream is cut into reads.",
  "every byte stream and every chunking",
  "The escape state is carried across reads; the chunkings are exponentially many.",
  "src/server-esc.c:process_client_escapes")
p("C08", "Local escape character handling at the client terminal",
  "Typing the escape character twice sends it once; the escape character followed by a character that is not a command sends both; a command is performed exactly once and sends neither byte to the console.",
  "every escape character, every typed byte sequence, every session mode",
  "256 escape characters x every following byte x session modes x history.",
  "src/client-tty.c:read_from_stdin")
p("C09", "Telnet consoles: data is delivered unchanged and independent of packet boundaries",
  "For a stream received from a telnet console, the bytes passed on are exactly the application data of the telnet stream (commands and option negotiation removed, doubled IAC reduced to one), and neither the data nor the negotiation replies depend on how TCP cuts the stream into reads.",
  "every received byte stream and every chunking",
  "IAC sequences split across reads, in every decoder state.",
  "src/server-telnet.c:process_telnet_escapes", "src/server-telnet.c:process_telnet_cmd")
p("C10", "Telnet negotiation cannot loop",
  "The daemon answers each WILL/DO request with at most one reply, never replies to WONT/DONT, and supports only the options it announced, so negotiation with any peer that answers by the same rules terminates; and replies are the correct refusal or acceptance for the option.",
  "every received option byte and command, every sequence of them",
  "Negotiation loops need an interaction of two state machines over unbounded traffic.",
  "src/server-telnet.c:process_telnet_cmd", "src/server-telnet.c:send_telnet_cmd")
p("C11", "Telnet subnegotiation content never reaches the user",
  "Bytes between IAC SB and IAC SE are protocol data and must not appear in the console output or log, whatever they are.",
  "every subnegotiation payload, including payloads containing escaped 0xFF bytes",
  "Needs a payload with an escaped 0xFF.",
  "src/server-telnet.c:process_telnet_escapes")
p("C12", "Bytes sent to a telnet console are telnet-encoded",
  "A byte 0xFF sent by a user to a telnet console is received by the remote telnet peer as that data byte.",
  "every byte string sent by a client",
  "0xFF is rarely typed in tests.",
  "src/server-obj.c:read_from_obj", "src/server-obj.c:write_obj_data", "src/server-telnet.c:process_telnet_escapes")
p("C13", "List operations behave as a mathematical sequence",
  "Creating a list and applying any sequence of append, prepend, push, pop, enqueue, dequeue, peek, find_first, delete_all, count and is_empty gives the same results as the same operations on an abstract sequence; the count is always the number of elements; destroying the list gives every element to the destructor exactly once; the shared node allocator never hands out a node in use.",
  "every operation sequence on lists of every length",
  "Pointer structure corruption appears only after particular operation sequences.",
  "src/list.c:list_append", "src/list.c:list_prepend", "src/list.c:list_pop", "src/list.c:list_dequeue", "src/list.c:list_delete_all", "src/list.c:list_node_create", "src/list.c:list_node_destroy")
p("C14", "List iterators survive concurrent modification",
  "With any number of iterators open on a list, inserting or deleting through one iterator (or the list itself) never makes another iterator skip, repeat or dereference a removed element: each iterator continues to deliver, in order, exactly the elements that are after its position.",
  "every number of iterators, every interleaving of next/insert/find/remove/delete/reset through any of them and of list-level operations",
  "The mux loop, the client threads and config code all iterate the same list while others add and delete; interleavings are unbounded.",
  "src/list.c:list_next", "src/list.c:list_insert", "src/list.c:list_remove", "src/list.c:list_delete", "src/list.c:list_node_create", "src/list.c:list_node_destroy")
p("C15", "Sorting a list",
  "list_sort terminates, returns a permutation of the list, and, for a comparison that is a total preorder, a sorted and stable one; the list's count and tail are correct afterwards.",
  "every list and every comparison function",
  "Universally quantified over the comparison function.",
  "src/list.c:list_sort")
p("C16", "The lexer is total and confined to its input",
  "On every NUL-terminated input, repeated calls to lex_next reach end-of-file after finitely many tokens, each call makes progress, no byte past the terminating NUL is read and the token text never overruns its buffer; after EOF the lexer keeps returning EOF.",
  "every input byte string",
  "Quantifies over all inputs; termination cannot be tested.",
  "src/lex.c:lex_next")
p("C17", "Quoted strings survive encoding",
  "For every 7-bit string without line breaks up to the token limit, encoding it, placing it between quotes, lexing it and decoding the token text gives the string back, including quotes and backslashes inside it.",
  "every string over the stated alphabet",
  "All placements of quotes in all strings.",
  "src/lex.c:lex_encode", "src/lex.c:lex_decode", "src/lex.c:lex_next")
p("C18", "Keyword lookup",
  "A word is recognised as a keyword exactly when it equals, ignoring case, an entry of the sorted keyword table, and the token returned is that entry's; for the protocol and configuration tables every keyword is recognised.",
  "every word, every sorted table",
  "Binary search errors show on specific table sizes and positions.",
  "src/lex.c:lookup_token", "src/common.c:proto_strs", "src/server-conf.c:server_conf_strs")
p("C19", "Line numbers in diagnostics",
  "The line number reported for a token is one plus the number of line ends before it in the input (continuation lines included).",
  "every input",
  "All combinations of CR/LF, comments, continuations and quotes.",
  "src/lex.c:lex_next", "src/lex.c:lex_line")
p("C20", "Requests are understood as sent",
  "For every request whose fields are representable, the server parses the line produced by the client into the same command, options and list of console patterns, in order; otherwise the client refuses to send.",
  "every command, option set and list of console names",
  "Round trip over unbounded lists of arbitrary strings.",
  "src/client-sock.c:send_req", "src/server-sock.c:recv_req", "src/server-sock.c:parse_cmd_opts")
p("C21", "Responses are understood as sent",
  "For every list of console names and every error, the client recovers from the server's response the same names in the same order, or the same error number and text; a response that does not fit is not sent at all rather than truncated.",
  "every list of console names, every error code and message",
  "Round trip over unbounded data; truncation boundary.",
  "src/server-sock.c:send_rsp", "src/client-sock.c:recv_rsp", "src/client-sock.c:parse_rsp_ok", "src/client-sock.c:parse_rsp_err")
p("C22", "Greeting is understood as sent",
  "The user name and terminal recorded by the server are those the client sent.",
  "every user and terminal name",
  "Round trip over arbitrary strings.",
  "src/client-sock.c:send_greeting", "src/server-sock.c:recv_greeting", "src/server-sock.c:parse_greeting")
p("C23", "Line and block I/O over sockets",
  "read_line returns exactly the bytes up to and including the first newline (or the size limit or EOF), NUL-terminated and within the buffer, consuming nothing beyond; write_n and read_n transfer exactly the requested bytes in order across partial transfers and interrupts or report failure.",
  "every stream, buffer size and schedule of partial transfers and EINTR",
  "Every segmentation of the stream.",
  "src/util-file.c:read_line", "src/util-file.c:read_n", "src/util-file.c:write_n")
p("C24", "Timers fire in order, exactly once and never early",
  "Every timer set with tpoll fires at most once, no earlier than its expiration time, in order of expiration (ties in the order set), and a call that waits sleeps long enough that no due timer is missed and at most about one millisecond too long.",
  "every set of timers and every sequence of set/cancel/dispatch with any clock readings",
  "All orders of insertion, all sub-millisecond remainders.",
  "src/tpoll.c:tpoll_timeout_absolute", "src/tpoll.c:tpoll", "src/tpoll.c:_tpoll_diff_timeval")
p("C25", "Cancelled timers never fire; ids identify timers",
  "Cancelling a pending timer by the id returned when it was set removes exactly that timer; a cancelled timer never fires; ids of simultaneously pending timers are distinct.",
  "every history of timer operations",
  "Id reuse after wrap-around needs 2^31 timers.",
  "src/tpoll.c:tpoll_timeout_cancel", "src/tpoll.c:tpoll_timeout_absolute")
p("C26", "Descriptor interest set",
  "The set of descriptors and events polled is exactly the one obtained by applying the tpoll_set/tpoll_clear calls in order, after any growth of the table; is_set reports exactly the events returned for that descriptor.",
  "every sequence of set/clear on every descriptor number",
  "Table growth and max-fd shrinking on particular sequences.",
  "src/tpoll.c:tpoll_set", "src/tpoll.c:tpoll_clear", "src/tpoll.c:tpoll_is_set", "src/tpoll.c:_tpoll_grow")
p("C27", "No lost wake-ups between threads",
  "If another thread changes the timers or the interest set while the main loop is (about to be) blocked in poll(), the loop wakes up and takes the change into account; it never sleeps on stale data.",
  "every interleaving of the polling thread with any number of modifying threads",
  "Race windows between unlock and poll().",
  "src/tpoll.c:tpoll", "src/tpoll.c:_tpoll_signal_send", "src/tpoll.c:_tpoll_signal_recv")
p("C28", "Reader/writer links are always symmetric",
  "At every moment a console lists a client (or log file) as its reader if and only if that object lists the console as a writer, each link at most once, through every connect, steal, join, escape toggle, disconnect and device failure; log files never write to consoles.",
  "every history of session operations on any number of clients and consoles",
  "Invariant over unbounded histories.",
  "src/server-obj.c:link_objs", "src/server-obj.c:unlink_objs", "src/server-obj.c:unlink_obj", "src/server-obj.c:shutdown_obj")
p("C29", "Exclusive access",
  "Without the force and join options a connect request is refused if any requested console has a writer, so a console never gets a second writer without someone having asked for it.",
  "every set of sessions, every request, every interleaving of concurrent requests",
  "Depends on interleavings of the check and the link in different threads.",
  "src/server-sock.c:check_busy_consoles", "src/server-sock.c:perform_connect_cmd", "src/server-obj.c:link_objs")
p("C30", "Stealing a console",
  "After a forced connect the stealing client is the only writer of each requested console, and every client that was writing to one of them has been detached from every console it used and will be disconnected.",
  "every link graph",
  "Unbounded number of writers, broadcast sessions spanning several consoles.",
  "src/server-obj.c:link_objs", "src/server-obj.c:unlink_obj")
p("C31", "Monitoring is read-only",
  "A client that was given a monitor (read-only) session never causes bytes to be sent to the console and never becomes a writer unless it asks to force or join.",
  "every byte sequence sent by a monitoring client",
  "Any byte sequence a hostile or modified client may send.",
  "src/server-sock.c:perform_monitor_cmd", "src/server-esc.c:perform_console_writer_linkage", "src/server-esc.c:process_client_escapes")
p("C32", "Broadcast is write-only",
  "A broadcast session with several consoles never receives console output, and its input goes to each of its consoles in order.",
  "every history",
  "Invariant over unbounded histories.",
  "src/server-sock.c:perform_connect_cmd", "src/server-obj.c:read_from_obj")
p("C33", "No client input can bring down the daemon",
  "Whatever bytes a connected client sends, in whatever session state (including after its console was stolen), processing them never hits an assertion, a NULL dereference or another fatal error.",
  "every client state reachable by session operations and every byte sequence",
  "Requires a steal racing with an escape.",
  "src/server-esc.c:process_client_escapes", "src/server-esc.c:perform_console_writer_linkage", "src/server.c:mux_io")
p("C34", "Closed sessions are cleaned up",
  "When a client disconnects or is stolen from, its pending output is flushed (if possible) and then it is removed from every console and from the master list; no object keeps a reference to a destroyed object.",
  "every history",
  "Dangling references depend on histories.",
  "src/server-obj.c:shutdown_obj", "src/server-obj.c:destroy_obj", "src/server.c:mux_io")
p("C35", "Sanitized logs contain only printable text",
  "With the sanitize option, everything derived from console output in the log file is 7-bit printable ASCII or CR/LF line ends, with control and high-bit characters shown in their documented escaped form.",
  "every byte stream from the console",
  "All byte values in all line states and chunkings.",
  "src/server-logfile.c:write_log_data")
p("C36", "Every logged line gets one timestamp",
  "With the timestamp option, each non-empty line of log output starts with exactly one timestamp and no timestamp appears inside a line.",
  "every byte stream and chunking",
  "Line-state machine across reads.",
  "src/server-logfile.c:write_log_data")
p("C37", "Log content does not depend on read boundaries",
  "The bytes logged for a console stream do not depend on how the stream was split into reads (for a fixed clock).",
  "every stream and chunking",
  "Exponentially many chunkings.",
  "src/server-logfile.c:write_log_data")
p("C38", "Log formatting never overruns its buffer",
  "Formatting console output for the log never writes outside its work buffer and never drops a timestamp for lack of room.",
  "every input length and content",
  "Worst-case expansion at each buffer position.",
  "src/server-logfile.c:write_log_data", "src/util-str.c:write_time_string")
p("C39", "Reconnect delays",
  "The delay before reconnecting a failed console starts at the minimum for its kind, doubles on every failure up to the maximum for its kind and never exceeds it. It starts afresh only after the connection has stayed up for the required time (then the first retry of a telnet or process console is immediate), or when a client connects to a telnet console that is down, or when connecting fails right after the socket file was created.",
  "every sequence of connection successes, failures and timer events for telnet, process, unix-socket and IPMI consoles",
  "Unbounded event sequences.",
  "src/server-telnet.c:disconnect_telnet_obj", "src/server-process.c:open_process_obj", "src/server-unixsock.c:disconnect_unixsock_obj", "src/server-ipmi.c:fail_ipmi_connect")
p("C40", "A down console is always being retried, by one timer",
  "At every moment each console has at most one pending timer, and a console that is not connected (or connecting) always has a pending retry.",
  "every sequence of events",
  "Liveness bookkeeping over unbounded event sequences.",
  "src/server-telnet.c:connect_telnet_obj", "src/server-process.c:open_process_obj", "src/server-unixsock.c:connect_unixsock_obj", "src/server-ipmi.c:connect_ipmi_obj", "src/server-serial.c:open_serial_obj")
p("C41", "Reset command bookkeeping",
  "At most one reset command runs per console at a time; its process group is killed at the latest after the timeout, and only that process group is.",
  "every sequence of reset escapes, process exits and timer events",
  "Unbounded histories and pid reuse.",
  "src/server-esc.c:perform_reset", "src/server-esc.c:kill_reset_cmd")
p("C42", "Log file name expansion",
  "Expanding the %-specifiers of a file name produces exactly the documented text or reports truncation, never writes past the destination, never reads past the format, and characters coming from the console name or device can never introduce a path separator.",
  "every format string, console name, device and buffer size",
  "All formats including malformed ones.",
  "src/server-obj.c:format_obj_string", "src/server-obj.c:sanitize_file_string")
p("C43", "Two consoles never share a log file",
  "A configuration in which two consoles would log to the same file is rejected for the second console.",
  "every pair of console definitions",
  "Needs specific names whose expansions collide.",
  "src/server-logfile.c:create_logfile_obj", "src/server-obj.c:format_obj_string")
p("C44", "Bounded string copy and append",
  "strlcpy and strlcat never write outside the destination, always terminate it when it has room, keep the longest fitting prefix, and return the length that would have been needed.",
  "every source, destination content and size",
  "All boundary sizes.",
  "portable/strlcpy.c:strlcpy", "portable/strlcat.c:strlcat")
p("C45", "Formatted append and truncation reporting",
  "Appending formatted text keeps the existing text, reports the new length exactly when everything fitted, and once truncation has happened every later append also reports truncation, so checking the last result is enough.",
  "every sequence of appends to a buffer of every size",
  "Boundary lengths in sequences.",
  "src/util-str.c:append_format_string")
p("C46", "Substitution of %-tokens in command strings",
  "substitute_string replaces every occurrence of the token by the text and copies everything else, or reports truncation with a terminated result; it never writes outside the destination.",
  "every source, substitution and size",
  "All boundary sizes and overlapping % signs.",
  "src/util-str.c:substitute_string")
p("C47", "Splitting a device string into arguments",
  "The device string is split into its whitespace-separated words, quotes grouping words and being removed; words are returned in order, and an unterminated quote is an error.",
  "every string",
  "All combinations of quotes and blanks.",
  "src/util-str.c:parse_string")
p("C48", "Idle-time display",
  "The displayed duration denotes exactly the elapsed number of seconds, each unit within its range.",
  "every pair of times",
  "Unbounded arithmetic.",
  "src/util-str.c:create_time_delta_string")
p("C49", "Directory name and creation",
  "The directory part of a path is computed as POSIX dirname does for every path or an error is reported if it does not fit; creating a directory creates every missing ancestor from the root down, succeeding only if every component is then a directory.",
  "every path and every file-system state",
  "All slash patterns.",
  "src/util-file.c:get_dir_name", "src/util-file.c:create_dirs")
p("C50", "Key parsing for IPMI",
  "A hexadecimal key string denotes exactly its bytes, other strings denote themselves, keys that do not fit are rejected, and nothing is written outside the destination.",
  "every key string and destination size",
  "Odd lengths and boundaries.",
  "src/server-ipmi.c:parse_key", "src/util-str.c:toint")
p("C51", "Configuration directives are independent lines",
  "Each SERVER, GLOBAL or CONSOLE directive affects only the settings on its own line: an error in one line, or any option on it, never causes another line to be dropped or reinterpreted.",
  "every configuration file",
  "Combinations of directives on adjacent lines.",
  "src/server-conf.c:process_config", "src/server-conf.c:parse_server_directive", "src/server-conf.c:parse_global_directive", "src/server-conf.c:parse_console_directive")
p("C52", "Command line overrides configuration",
  "A port or PID file given on the command line is never overridden by the configuration file; otherwise the file's value is used, else the default.",
  "every command line and configuration file",
  "All orders of directives.",
  "src/server-conf.c:process_cmdline", "src/server-conf.c:parse_server_directive", "src/server-conf.c:process_config")
p("C53", "Serial and test device options",
  "Parsing device options either fails leaving the options unchanged or yields options inside their documented ranges; the speed is the largest supported one not above the requested one; the test device emits only printable characters in the documented cyclic order, the configured number per burst.",
  "every option string, every burst length",
  "Unbounded input strings and sequences.",
  "src/server-serial.c:parse_serial_opts", "src/server-serial.c:int_to_bps", "src/server-test.c:process_test_opt", "src/server-test.c:read_test_obj")
p("C54", "Console matching",
  "The consoles selected by a request are exactly those matching at least one pattern, each once, in sorted order; an empty pattern list selects all consoles only for queries.",
  "every configuration and list of patterns",
  "Unbounded lists.",
  "src/server-sock.c:query_consoles", "src/server-sock.c:query_consoles_via_globbing", "src/server-sock.c:query_consoles_via_regex")
p("C55", "Requests affecting several consoles",
  "A monitor request, or a connect request without broadcast, succeeds only with exactly one matching console; a broadcast that matches one console becomes an ordinary session.",
  "every request and configuration",
  "All combinations of options and counts.",
  "src/server-sock.c:validate_req", "src/server-sock.c:check_too_many_consoles", "src/server-sock.c:query_consoles")
p("C56", "Informational messages",
  "A notification about a console is delivered once to each client reading from it and once to each client only writing to it (and to its log), always terminated by a line end however long it is, and clients in quiet mode get none.",
  "every link graph and message length",
  "Unbounded link graphs and truncation boundary.",
  "src/server-obj.c:write_notify_msg", "src/server-obj.c:notify_console_objs", "src/server-obj.c:write_obj_data")
p("C57", "Suspend and resume",
  "While suspended a client receives nothing; on resume it receives the most recent buffered output, in order, and a suspended client that disconnects is cleaned up.",
  "every history",
  "Needs a disconnect while suspended with pending data.",
  "src/server-esc.c:perform_suspend", "src/server-obj.c:read_from_obj", "src/server-obj.c:write_to_obj", "src/server-obj.c:write_obj_data")
p("C58", "File-creation events",
  "When a watched path is created the callback registered for that path runs; a directory watch is dropped only when no remaining registration needs it.",
  "every set of registrations and event sequence",
  "Aliased paths and shared directories.",
  "src/inevent.c:inevent_add", "src/inevent.c:inevent_remove", "src/inevent.c:inevent_process")
p("C59", "Periodic log timestamps",
  "The first scheduled timestamp is the earliest multiple of the interval since midnight that lies in the future, and later ones follow at exactly the interval.",
  "every interval and start time",
  "All times and intervals.",
  "src/server.c:schedule_timestamp")
p("C60", "Daemon log lines",
  "Every daemon log message is written within its buffer and as one newline-terminated line, truncated only at the end, whatever the message length.",
  "every message and error text",
  "Truncation boundary.",
  "src/log.c:log_aux")
p("C61", "Host entry copies",
  "Copying a resolver result either fails or yields an equal result entirely inside the caller's buffer.",
  "every host entry and buffer size",
  "All sizes.",
  "src/util-net.c:copy_hostent")
p("C62", "Sanitized environment",
  "Commands run by the daemon see exactly the fixed variables plus DEBUG and TZ if they were set, whatever the daemon's own environment.",
  "every environment",
  "Unbounded environments.",
  "src/server.c:get_sane_env")
p("C63", "Console ordering",
  "The order in which consoles are listed is a total order on names that sorts numbered names numerically.",
  "every three names",
  "Transitivity quantifies over triples.",
  "src/server-obj.c:compare_objs", "src/server-obj.c:find_trailing_int_str")
p("C64", "Main loop serves every ready object",
  "In each iteration of the main loop every object with a reported event is serviced, and an object is removed from the master list only after its descriptor has been closed and its links removed.",
  "every set of objects and poll results",
  "Event accounting over arbitrary lists modified while iterating.",
  "src/server.c:mux_io", "src/server-obj.c:read_from_obj", "src/server-obj.c:write_to_obj")

p("C65", "Pending output is always going to be flushed",
  "Whenever output is pending for an object whose descriptor is open and which is not a suspended client, the main loop is waiting for that descriptor to become writable, so the output does not depend on later activity to be sent.",
  "every history of writes, flushes, suspends, shutdowns and reopens",
  "A missed wake-up only shows in particular orders of reopen and write.",
  "src/server-obj.c:write_obj_data", "src/server-obj.c:write_to_obj", "src/server-obj.c:shutdown_obj", "src/server-esc.c:perform_suspend")

p("C66","Local echo of escape sequences stays in its buffer",
  "Echoing an escape sequence on the user's terminal never writes outside the client's small work buffer, whatever escape character is configured.",
  "every escape character and every command letter",
  "an overrun by one byte depends on the particular escape character configured and is invisible unless the neighbouring stack byte matters",
  "src/client-tty.c:locally_echo_esc","src/client-tty.c:write_esc_char")
p("C67","No console output is lost on its way to the log",
  "As long as the log file can be written, everything a console sends reaches its log file: the formatted text of one read fits the log's output buffer.",
  "every read of every length and content, every set of log options",
  "The growth of the text under sanitizing and time-stamping depends on the content; a loss needs a burst of short lines.",
  "src/server-logfile.c:write_log_data","src/server-obj.c:read_from_obj","src/server-obj.c:write_obj_data")
p("C68","Console output reaches every reader exactly once",
  "Whatever a console sends is queued, once, unchanged and in order (after removal of telnet options on a telnet console), for every client reading from it, and logged by its log file; nobody else gets any of it.",
  "every reachable state of the daemon, every read of every length and content",
  "Depends on the links made and removed by the whole history of connections, steals and escapes.",
  "src/server-obj.c:read_from_obj","src/server-obj.c:link_objs","src/server-obj.c:write_obj_data")
p("C69","Closing a process console signals only its own child",
  "When the daemon closes the connection of a process console it kills the process it started for that console and nothing else, and it never starts a second one before the first is killed.",
  "every sequence of events and every interleaving of the main thread with client threads",
  "A wrong kill needs two threads at particular points or a reused process number.",
  "src/server-process.c:disconnect_process_obj","src/server-process.c:connect_process_obj","src/server-sock.c:check_console_state")
p("C70","A live console connection is closed only when it broke",
  "An established connection to a device is not closed by timers, by clients connecting, or by file system events, but only after a read or write on it failed or reported its end.",
  "every sequence of events in every reachable state",
  "Needs a stray timer or file event while connected.",
  "src/server-unixsock.c:open_unixsock_obj_via_inotify","src/server-telnet.c:open_telnet_obj","src/server-ipmi.c:open_ipmi_obj")
p("C71","Connects and disconnects are announced in turn",
  "For each console the messages connected and disconnected alternate, beginning with connected, and the last one tells whether the console is connected now.",
  "every sequence of events",
  "A message too many or too few only shows in particular orders of events.",
  "src/server-telnet.c:disconnect_telnet_obj","src/server-serial.c:open_serial_obj","src/server-obj.c:shutdown_obj")
p("C72","No attempt to connect before its time",
  "After a retry was scheduled, the next attempt is made no earlier than that, unless a client connects, the socket file is created, or the device itself reports.",
  "every sequence of events",
  "A device that connects and drops at once would be hammered; only long histories show it.",
  "src/server-telnet.c:connect_telnet_obj","src/server-ipmi.c:open_ipmi_obj","src/server-process.c:open_process_obj")
p("C73","Connection trouble does not stop the daemon",
  "Whatever name lookups, socket creation, connecting and process creation return for one console, the daemon goes on serving the others.",
  "every sequence of events and system call results",
  "Needs resource exhaustion at a particular moment.",
  "src/server-telnet.c:connect_telnet_obj","src/server-process.c:connect_process_obj","src/server-unixsock.c:connect_unixsock_obj","src/server-ipmi.c:connect_ipmi_obj")
p("C75", "Option strings of IPMI consoles and logs",
  "An IPMI option string is either rejected as a whole or every setting it makes is terminated, inside its buffer and acceptable to the IPMI library; its fields take effect one after the other, each setting what its letter (or, in the older form, its position) says and leaving the rest alone; numbers outside the range of the setting are rejected. In a log option string the last word about each setting decides and unknown words change nothing.",
  "every option string, buffer size and set of values the library accepts",
  "Unbounded strings, sequences of fields and validity rules.",
  "src/server-ipmi.c:parse_ipmi_opts", "src/server-ipmi.c:process_ipmi_opt", "src/server-logfile.c:parse_logfile_opts")

p("C74", "Signals do not disturb service",
  "However many signals arrive and whenever they arrive, reads, writes and waiting for events give the same result as without them, and a termination signal ends the main loop promptly.",
  "every sequence of interrupted system calls, every point between two steps of the main thread at which a signal may be delivered",
  "Windows of a few instructions between a system call and the test of its result, or between testing a flag and going to sleep, are not hit by tests.",
  "src/server.c: sig_chld_handler, exit_handler, mux_io", "src/server-obj.c: read_from_obj, write_to_obj")

p("C76", "Device strings",
  "The device string of a console denotes exactly one kind of device: a Unix domain socket (unix:path), a terminal server (host:port), a character device, a program found along EXECPATH or from the start directory, an IPMI host (ipmi:host) or the test device; the console is created for that device with the options on its line, else the defaults.",
  "every device string, file system, EXECPATH and option string",
  "The interpretations are tried in turn against the file system, for all strings.",
  "src/server-conf.c:process_console", "src/server-unixsock.c:is_unixsock_dev", "src/server-telnet.c:is_telnet_dev", "src/server-serial.c:is_serial_dev", "src/server-process.c:is_process_dev", "src/server-ipmi.c:is_ipmi_dev", "src/server-test.c:is_test_dev")
p("C77", "Console definitions",
  "A console line with an unused name and device adds exactly that console (and its log) and it remains, unchanged, in the final configuration whatever lines follow; a line with a name or device in use, or without name or device, is reported and adds nothing; at the end no two consoles share a name, socket, serial port or IPMI host.",
  "every configuration file",
  "All files, all orders of lines, including files with errors.",
  "src/server-conf.c:parse_console_directive", "src/server-conf.c:process_console", "src/server-obj.c:create_console_obj")
p("C78", "Defaults in force",
  "A default set by a GLOBAL line, and the keepalive, log directory and program path set by a SERVER line, apply to the consoles after it up to the next such line, whatever other lines are in between, and not to those before it.",
  "every configuration file",
  "All orders of lines.",
  "src/server-conf.c:parse_global_directive", "src/server-conf.c:parse_server_directive", "src/server-conf.c:process_console")
p("C79", "Signalling the running daemon",
  "With -k, -r or -q no daemon is started: the signal goes to the process that has the configuration file locked, or, if there is none, to the one recorded in the PID file; the content of the configuration file does not matter.",
  "every command line, configuration file, lock holder and PID file",
  "All orders of options, edited configuration files.",
  "src/server-conf.c:signal_daemon", "src/server-conf.c:process_cmdline", "src/server-conf.c:read_pidfile", "src/util-file.c:is_write_lock_blocked")
p("C80", "The last place that names a setting decides it",
  "For every environment and every list of options, the client's server, port, escape character, command and log file are those named by the last place that names them, in the order CONMAN_HOST, CONMAN_PORT, CONMAN_ESCAPE, options from left to right, and the built-in ones if none does; -f and -j never hold both; with -m neither they nor -b hold; the consoles are those of the -F files in order and then those of the arguments, which commas separate; without a console (unless it is a query) and with -h the client only prints its help; -L, -V and invalid options end it whatever follows.",
  "All environments, option lists, argument lists and files with names",
  "Precedence is a claim about all interleavings of options and environment variables.",
  "src/client-conf.c:process_client_env_vars", "src/client-conf.c:process_client_cmd_line", "src/client-sock.c:connect_to_server")
p("C81", "A file with console names gives the names on its lines",
  "For every file whose lines fit the buffer, -F adds one name for each line that is neither empty nor a comment, without the blanks around it and in the order of the file; for every file of any bytes and any line lengths the buffer is not overrun and each name added is not empty, not a comment and without blanks at its ends.",
  "All file contents and all buffer sizes",
  "The trimming loops move pointers through a fixed buffer; no set of sample files covers all lines and lengths.",
  "src/client-conf.c:read_consoles_from_file")
p("C82", "The user name a client gives is one of the caller's uid",
  "For every password file, login name and environment, the user name that the client sends belongs to an account with the caller's uid; among several, the login name (or USER, LOGNAME) is preferred if it is such an account; if there is none the client ends.",
  "All password files, login names and environments",
  "It must hold whatever an attacker puts into the environment.",
  "src/client-conf.c:create_client_conf")
p("C83", "A session shows and logs exactly the server's bytes",
  "For every interleaving of keys, server data, signals and failures of system calls, a client session puts exactly the bytes the server sent, in order, on standard output and in the log (a beginning of them if it ends by an error), beside its own messages; without failures the server gets exactly what the typed keys mean; the client's messages about the session are complete lines that fit their buffer; a query prints every name on its own line if it fits the line buffer.",
  "All histories of events, keys, data, signals and results of system calls; all console names",
  "The session is an endless loop driven by two descriptors and signals; only an invariant covers all histories.",
  "src/client-tty.c:connect_console", "src/client-tty.c:read_from_stdin", "src/client-tty.c:write_to_stdout", "src/client-tty.c:display_connection_msg", "src/client-sock.c:display_consoles")
p("C84", "The user's terminal is restored",
  "In every history of a client session the terminal is raw while the session waits, has its original settings whenever the client is stopped by the suspend sequence and when the session ends in order, whoever ends it; the end of the server's data, or SIGTERM while the client waits, always end it; until the client is stopped the terminal echoes exactly if the session's echo is on.",
  "All terminal settings, histories of events and results of system calls",
  "Terminal settings depend on the whole history of suspensions, resumptions and failures.",
  "src/client-tty.c:connect_console", "src/client-tty.c:perform_suspend_esc", "src/client-tty.c:perform_echo_esc", "src/util-file.c:get_tty_raw")
p("C85", "The help of the client tells the truth",
  "For every state of a session, the help lists, among the command letters, exactly the escape sequences that have an effect in that state, and its text is never cut.",
  "All sessions: read-only or not, broadcast or not, resettable or not, echo, quiet; all escape characters",
  "The help and the handlers are separate code; that they agree must hold in every state.",
  "src/client-tty.c:perform_help_esc", "src/client-tty.c:read_from_stdin")
p("C86", "One daemon for a configuration file",
  "However starts, stops, crashes and kills of daemons interleave, and whatever other programs do with locks that can be traced to a process, at most one daemon that has got past its check belongs to a configuration file. A daemon starts if nobody has the file locked; while one runs, another that starts gives up and changes nothing. The options -k, -q and -r find that daemon, and what they find through the lock is always a live conmand with the file open. If nobody has the file locked, they use the PID file given with -P, unless what it names is not above 1; they never signal a group of processes.",
  "All histories of system calls of any number of daemons and other programs, every choice that F_GETLK may make among several locks, replacement of the file",
  "Exclusion must hold for every interleaving of the lock, the check and the exit of several processes.",
  "src/server-conf.c:process_config", "src/server-conf.c:signal_daemon", "src/util-file.c:get_read_lock", "src/util-file.c:is_write_lock_blocked")
p("C87", "The PID file names the daemon",
  "While a daemon is up the PID file has its pid, and once it is leaving there is none. If no daemon dies without cleaning up, a PID file always means a daemon that is up.",
  "All histories of daemons that share a configuration and a PID file",
  "It depends on the order of the steps of several processes and on every point where one may die.",
  "src/server-conf.c:write_pidfile", "src/server-conf.c:destroy_server_conf")
p("C88", "A log belongs to one daemon",
  "However daemons open, reopen, write and close their logs, no two of them, and no two logs of one of them, have the same file; and nothing that other daemons do, except emptying files at start, changes a log that a daemon has or takes it away.",
  "All histories of any number of daemons with console logs and daemon logs; all files",
  "POSIX locks vanish when any descriptor of the file is closed; that this never happens to a log in use must hold for every history.",
  "src/server-logfile.c:open_logfile_obj", "src/server.c:open_daemon_logfile", "src/util-file.c:get_write_lock")
p("C89", "Any client is answered, and leaves nothing behind",
  "Whatever bytes a client sends and however its reads and writes end, the daemon's handling of the new connection ends without touching memory it may not, the client is told the lines of one well-formed conversation (all of them if no write fails), and the connection is closed and the request released exactly once - unless a session is granted, in which case the connection is kept, the client has been told so in full, and the session is that of a named user with consoles it may have.  Accepting survives interruptions and connections that are already gone.",
  "All byte streams, all schedules of partial and failing reads and writes, all sets of consoles and of clients on them, all stack contents",
  "The bytes come from an unauthenticated peer; no finite set of requests covers the parsing, the error paths and their clean-up.",
  "src/server-sock.c:process_client", "src/server-sock.c:recv_greeting", "src/server-sock.c:recv_req", "src/server-sock.c:validate_req", "src/server-sock.c:check_too_many_consoles", "src/server-sock.c:check_busy_consoles", "src/server-sock.c:perform_query_cmd", "src/server.c:accept_client")
p("C90", "Client and daemon agree on a request",
  "What a client sends for its user, terminal, command, options and console names is what the daemon acts upon; the client is then told the consoles selected and whether they may be reset, or the code and the reason of the refusal followed by the lines that name the consoles or their users; and a session starts for just these consoles exactly if the client was told so and asked for one.",
  "All users, terminals, commands, options and console names that the client can send; all consoles and sessions at the daemon; all partial and interrupted reads and writes on both sides",
  "The two ends are separate programs which must agree for every request and every split of the stream.",
  "src/client-sock.c:send_greeting", "src/client-sock.c:send_req", "src/client-sock.c:recv_rsp", "src/server-sock.c:process_client", "src/server-sock.c:query_consoles", "src/server-sock.c:send_rsp")
p("C91", "The exit status of conmand tells whether the daemon has started",
  "However the three processes of the start are scheduled and whichever of the start-up's calls fails, the command ends; if its status is 0 the daemon is up and nothing was printed; if it is 1 nothing is left running and the terminal shows the error that occurred, exactly once and as it was formatted, whether it was printed by the process that failed or reported over the pipe.",
  "All interleavings of parent, child and daemon; all sequences of start-up calls and all of their failures; all messages",
  "The parent's two reads race with the other processes' writes and exits, and a failure may come before or after the daemon leaves the terminal; tests see a few schedules.",
  "src/server.c:main", "src/server.c:begin_daemonize", "src/server.c:end_daemonize", "src/log.c:log_err")
p("C92", "The daemon is detached and keeps its own files",
  "Once it has started, the daemon's standard input, output and error are /dev/null, its log, socket, configuration and wake-up pipe are still the files it opened, no other descriptor was left open or closed; it has no controlling terminal and never gets one, and the process group it signals at its end is its own.",
  "All sets of descriptors that the daemon may inherit, with standard input, output and error among them; all process ids",
  "Which number a file gets depends on what is open at the start; the replacement of 0, 1 and 2 must not hit anything else, whatever was inherited.",
  "src/server.c:begin_daemonize", "src/server.c:end_daemonize", "src/server.c:main", "src/server-conf.c:process_config")
p("C93", "An open serial line is set as configured and passes every byte on",
  "While the daemon runs and the device of a serial console is open, the line has the speed, data bits, parity and stop bits of the configuration, and its terminal settings neither translate, drop, double nor interpret any byte in either direction: however often the console is closed and opened, and whatever happens to other consoles, clients and devices.",
  "for every history of clients coming, end of files and errors, devices taken away and put back at any system call, other programs' locks, and every setting from before",
  "the settings from before, the point at which a device disappears and the order of events are unbounded; tests see one device",
  "src/server-serial.c:set_serial_opts", "src/server-serial.c:open_serial_obj", "src/common.c:get_tty_raw", "src/common.c:set_tty_mode")
p("C94", "A serial device gets its old settings back",
  "When the daemon has ended by a signal, the device of a serial console has the settings that it had before the daemon opened it.",
  "for every history of all consoles up to the signal",
  "it is a property of whole histories with any number of consoles, not of one call",
  "src/server-obj.c:destroy_obj", "src/server-obj.c:shutdown_obj", "src/server-serial.c:open_serial_obj")
p("C95", "A serial device has one user",
  "No two consoles have the same name or the same device, and while a console's device is open no other program can lock it.",
  "for every configuration and every history of opening, closing, and locks of other programs",
  "the lock must hold in every interleaving of the consoles' and other programs' steps",
  "src/server-serial.c:create_serial_obj", "src/server-serial.c:open_serial_obj", "src/util-file.c:get_write_lock")
p("C96", "Rotating a log loses nothing",
  "If a console's log file is renamed and the daemon then gets SIGHUP, the renamed file and the new one together contain all the text for the log, in order, nothing missing and nothing twice; what is written goes to the file that the name stood for when the log was opened, opening again empties nothing, and a log that could not be written for a moment is written again.",
  "for every text and chunking, every outcome of writes and opens, and every interleaving of renaming, removing and creating files with them",
  "rotation happens at any point between the daemon's writes; tests rotate at a quiet moment",
  "src/server-logfile.c:open_logfile_obj", "src/server.c:reopen_logfiles", "src/server-obj.c:write_to_obj", "src/server-obj.c:shutdown_obj")
p("C97", "No byte of a log disappears in silence",
  "Every byte for a console's log is in a file, is still to be written, or is counted in a message about bytes that were lost; stopping the daemon loses nothing that was read and could be written.",
  "for every history of texts, writes, failures, reopenings, and every moment at which the daemon is stopped",
  "the loss depends on the moment of the failure and on how far writing has come",
  "src/server-obj.c:write_obj_data", "src/server-obj.c:shutdown_obj", "src/server-obj.c:destroy_obj")

p("C98", "A request to reopen the logs is carried out",
  "After a SIGHUP the daemon opens every log again before it waits for input again; it opens logs again on request only, each at most once for a request.",
  "for every interleaving of signals, of input and of the daemon's steps, any number of logs",
  "the signal may arrive between any two instructions of the daemon; tests deliver it while the daemon waits",
  "src/server.c:mux_io", "src/server.c:reopen_logfiles", "src/server.c:sig_hup_handler")
p("C99", "A daemon that is told to stop stops, and another can take its place",
  "After a SIGTERM the daemon ends its loop without waiting again. When it has stopped it holds no lock, no port and no PID file; a daemon that starts then gets everything it is configured for, and one that starts while the other is stopping keeps its PID file, and either gets everything or fails.",
  "for every interleaving of a stopping and a starting daemon's steps and of signals, any number of logs and devices",
  "the outcome depends on the interleaving of two processes",
  "src/server.c:main", "src/server.c:mux_io", "src/server-conf.c:destroy_server_conf", "src/server-conf.c:process_server_conf_file", "src/server.c:create_listen_socket")
p("C100", "Stopping ends the consoles' programs and nobody else",
  "When the daemon stops, every program and every reset command that it started and that still runs gets SIGTERM, and no other process does.",
  "for every history of programs and reset commands started and ended, and of other processes",
  "process numbers are used again and groups change; the claim is about all histories",
  "src/server.c:main", "src/server.c:begin_daemonize", "src/server-process.c:open_process_obj", "src/server-esc.c:exec_reset")
p("C101", "Stopping lets go of everything exactly once",
  "When the daemon stops, every descriptor it had is closed exactly once, all its memory is released exactly once, and nothing is used after it was released.",
  "for every set of objects and descriptors, and every interleaving with threads that serve new connections",
  "a second close or a use after release shows only when the number or the memory was taken again in between",
  "src/server-conf.c:destroy_server_conf", "src/server-obj.c:destroy_obj", "src/common.c:destroy_req", "src/tpoll.c:tpoll_destroy")

p("C102", "The end of a child disturbs nothing else",
  "Whenever programs that the daemon started end, all of them are waited for and no others, and what the daemon makes of its own system calls that fail at that time is what it would have made of them otherwise.",
  "for every set of children, and every moment at which any of them end, in particular between a system call and the test of its outcome",
  "the window is a few instructions wide; a test cannot hit it on purpose",
  "src/server.c:sig_chld_handler", "src/server.c:mux_io", "src/server.c:accept_client", "src/server-obj.c:read_from_obj", "src/server-obj.c:write_to_obj")
p("C103", "The daemon listens where it is told",
  "The daemon listens on the port it is told, on the loopback address only if and only if LOOPBACK is set; with port 0 it announces the port that it got; a port number that does not exist is refused; if it cannot listen it ends.",
  "for every port number, either address, and every behaviour of bind()",
  "all numbers and all outcomes, not a sample",
  "src/server.c:create_listen_socket", "src/server-conf.c:process_cmdline", "src/server-conf.c:parse_server_directive")
p("C104", "Resource limits are those of the configuration",
  "NOFILE sets the limit on open files: 0 leaves it, -1 means the hard limit, a positive number is the limit, other numbers are refused; the message names the limit. COREDUMP=off makes core files impossible, COREDUMP=on allows them and they go to COREDUMPDIR. A limit that cannot be had is reported when the daemon is started.",
  "for every number, every current limit, with and without privilege",
  "a test runs with one set of limits and one privilege",
  "src/server.c:setup_nofile_limit", "src/server.c:setup_coredump", "src/server.c:coredump_handler")
p("C105", "The summary tells the configuration",
  "What -v prints names exactly the options that are in effect, and the number of consoles: daemons with the same summary have the same of these settings.",
  "for every configuration",
  "512 combinations of options with any file name, interval and number of consoles",
  "src/server.c:display_configuration", "src/server.c:main")
p("C106", "Programs start with default handling of signals",
  "A program or reset command that the daemon starts handles every signal by default, but those that were ignored when the daemon was started.",
  "for every signal, every handling inherited by the daemon, detached or not",
  "what is inherited depends on how the daemon was started",
  "src/server.c:setup_signals", "src/util.c:posix_signal", "src/server-process.c:open_process_obj", "src/server-esc.c:exec_reset")

p("C107", "Every run of the client accounts for itself",
  "Whatever a server sends, provided that error codes in it are positive ints, and however the calls to the system end, a run of the client enters a session without having written anything, or shows the names of the consoles and exits with status 0 (only for a query), or shows one error message with what the server sent after it and exits with status 2, or exits with status 1 because of trouble on its own side. All of it is in its log. An unresolvable or unreachable host and a connection closed early are named as such.",
  "for every byte stream of the server, every request, user and terminal, every schedule of partial and interrupted reads and writes and every failure of a call",
  "a test sees one server and one schedule; status and output must agree for all",
  "src/client.c:main", "src/client-sock.c:connect_to_server", "src/client-sock.c:send_greeting", "src/client-sock.c:send_req", "src/client-sock.c:recv_rsp", "src/client-sock.c:display_error", "src/client-sock.c:display_data", "src/client-sock.c:display_consoles")
p("C108", "A user gets what the daemon decides",
  "When a user asks something with the client and nothing fails, the client shows just the consoles that the daemon selects, one on each line and in the daemon's order, and exits with status 0; or it is in a session with just those consoles that the daemon's session is for, starting with the daemon's first byte after the answer; or it shows the daemon's reason for the refusal, the consoles or users in the way and advice on what to do, and exits with status 2.",
  "for every configuration of consoles and users, every request, and every schedule of partial and interrupted reads and writes on both sides",
  "two programs with their own parsers and buffers; all names, requests and schedules",
  "src/client-sock.c:send_req", "src/client-sock.c:recv_rsp", "src/client-sock.c:display_error", "src/client-sock.c:display_consoles", "src/server-sock.c:process_client", "src/server-sock.c:recv_req", "src/server-sock.c:send_rsp")
p("C109", "The daemon's messages go where they are configured to go",
  "In the foreground every message of the daemon that is important enough is on the terminal, without the time, in order. As a daemon with a log file, that file gets, from the moment it is opened at the start or again on request, every message of at least the configured priority, one line each with the time, in order and nothing else, and the files before stay as they were; with SYSLOG the system's log gets the text of every message of any priority. No message is written to a file that was closed, and at most one is open. Threads that log at the same time do not lose or double messages.",
  "for every history of messages, of requests to reopen with every outcome, and of writes and closes that fail; for every number of threads and order of their steps",
  "histories and interleavings of logging with reopening are unbounded",
  "src/log.c:log_set_file", "src/log.c:log_set_syslog", "src/log.c:log_msg", "src/log.c:log_aux", "src/log.c:log_prefix", "src/server.c:main", "src/server.c:open_daemon_logfile", "src/server.c:reopen_logfiles")

p("C110", "A stretch of traffic gets through from end to end",
  "From any state the daemon can be in, while nobody connects, disconnects or sends a command and no connection fails: the daemon keeps running, nobody's connection or mode changes, and each client and each console is sent, in order, the decoded input of those that feed it, with the daemon's telnet answers, through a queue of the given capacity. If the queue does not overflow, nothing is lost, doubled or reordered, however the streams are cut into reads and writes. For a user connected alone to a console: the console gets exactly the keys typed, and the user exactly what the console said. The console's log file gets the lines of what the console said, sanitized and stamped as configured. Once the sources fall silent, everything waiting is sent within as many writes as there are bytes.",
  "for every reachable state, every number of clients and consoles, every sequence of reads and writes of every size and their interleaving, and every text typed without the escape character",
  "histories, interleavings and the ways to cut a stream are unbounded",
  "src/server.c:mux_io", "src/server-obj.c:read_from_obj", "src/server-obj.c:write_to_obj", "src/server-obj.c:write_obj_data", "src/server-esc.c:process_client_escapes", "src/server-telnet.c:process_telnet_escapes", "src/server-logfile.c:write_log_data", "src/client-tty.c:read_from_stdin")

p("C111", "A console's log holds what the console said, whatever else happens",
  "Each configured log is fed by one console, from start-up on and whatever happens: no client's input and no other console's output ever gets into it, even after writing to its file has failed. Over any history in which the log's own file is only written to, and written to without a failure, the log is given exactly what its console said, in order, with nothing between but the daemon's own messages about that console (clients coming and leaving, reconnections, resets, periodic timestamps): clients may connect, steal, join, monitor, type, send commands and disconnect, and consoles may fail, be reset and be reopened. If the log's buffer is not overrun, the file gets the lines of that, sanitized and stamped as configured.",
  "for every configuration, every reachable state and every history of events, any number of clients and consoles, every cutting of the output into reads and of the log into writes",
  "histories and interleavings are unbounded, and links between consoles, clients and logs change all the time",
  "src/server.c:mux_io", "src/server-obj.c:link_objs", "src/server-obj.c:unlink_obj", "src/server-obj.c:shutdown_obj", "src/server-obj.c:read_from_obj", "src/server-obj.c:write_notify_msg", "src/server-logfile.c:write_log_data", "src/server-esc.c:process_client_escapes")

p("C112", "Nobody is sent what is not meant for them",
  "From start-up on and whatever happens, every byte that is ever sent to a client or a console is part of a message that was due to it when it was queued: what a console says, to the clients linked with it at that time; what a client types and the keys its commands stand for, to the consoles it can write to; messages about a console, to those linked with it; answers to a client's own commands, and the replay of the log of a console whose output it sees; the daemon's telnet answers, to the console that asked. Nothing else ever gets into the queue, nothing is sent but from the queue, and users never get each other's input but by way of a console.",
  "for every configuration, every reachable state and every history of events, any number of clients and consoles",
  "links change with every connection, steal, join and escape command; a test looks at the intended receivers, not at all the others in all histories",
  "src/server.c:mux_io", "src/server-obj.c:write_obj_data", "src/server-obj.c:write_notify_msg", "src/server-obj.c:link_objs", "src/server-obj.c:read_from_obj", "src/server-esc.c:process_client_escapes", "src/server-esc.c:perform_log_replay", "src/server-sock.c:check_console_state")

p("C113", "Times in logs and messages",
  "Every log line that is stamped is stamped with the local time as YYYY-MM-DD HH:MM:SS, always 20 characters with the space after it, up to the year 9999; as texts the stamps sort in the order of the local times they show. The times in the messages about sessions and logs are complete and stay inside their buffers, and showing a time never ends the program.",
  "for every time from the year 1000 to the year 9999, every zone name, every buffer",
  "there are more times than can be tried, and zone names are the administrator's",
  "src/util-str.c:write_time_string", "src/util-str.c:create_long_time_string", "src/util-str.c:create_short_time_string", "src/server-logfile.c:open_logfile_obj", "src/server-obj.c:link_objs")

p("C114", "Settings of the daemon",
  "Each setting on a SERVER line (COREDUMP, COREDUMPDIR, EXECPATH, KEEPALIVE, LOGDIR, LOGFILE, LOOPBACK, NOFILE, PIDFILE, PORT, RESETCMD, SYSLOG, TCPWRAPPERS, TIMESTAMP) takes the meaning that conman.conf(5) gives it, changes nothing else, and is in force up to the next SERVER line; several on one line are taken one after the other. A setting that is not accepted is reported once and changes nothing; the settings before it on the line stay, those after it are ignored. A file without such lines leaves the documented defaults.",
  "every configuration file before and after the line, every list of settings on it, every value",
  "there are more lines, values and orders than can be tried",
  "src/server-conf.c:parse_server_directive", "src/server-conf.c:lookup_syslog_priority", "src/server-conf.c:lookup_syslog_facility", "src/server-conf.c:create_server_conf")

p("C115", "Programs get no descriptors of the daemon",
  "A program that the daemon starts (a reset command, the program of a process console) begins with its own three standard descriptors - its end of the console's pair of sockets, or /dev/null - and with no other descriptor of the daemon: no console, log, client, configuration file or listening socket.",
  "every interleaving of the main thread and the clients' threads, every failure of a system call, every moment at which a program is started, every number of consoles and clients",
  "whether a descriptor leaks depends on which thread is between opening and marking one when another forks",
  "src/util-file.c:set_fd_closed_on_exec", "src/server-process.c:connect_process_obj", "src/server-esc.c:perform_reset", "src/server.c:accept_client", "src/server-obj.c:create_client_obj")
p("C116", "Whatever is waited for never blocks the daemon",
  "Every descriptor in the set that the daemon waits for, and every descriptor that a console, log or client has, is open and nonblocking in every state, so that one peer that neither sends nor reads cannot hold up the others.",
  "every sequence of starts, connections, reconnections, failures and clients, in any interleaving of threads",
  "one descriptor in one state that was left blocking is enough, and it shows only if that peer stalls",
  "src/util-file.c:set_fd_nonblocking", "src/server.c:create_listen_socket", "src/server-telnet.c:connect_telnet_obj", "src/server-unixsock.c:connect_unixsock_obj", "src/server-serial.c:open_serial_obj", "src/server-logfile.c:open_logfile_obj")
p("C117", "No descriptor is lost or taken for another",
  "Whichever calls fail, when the daemon is between two jobs every open descriptor is a standard one, one it was started with, or one that a console, log, client or the daemon itself still has; and what each of them has is the very file or socket it opened, had by nobody else.",
  "every history of jobs and failures, in any interleaving of threads",
  "a descriptor that is lost on a failure exhausts the daemon only after a long history, and one closed twice hits a stranger only in one interleaving",
  "src/server-telnet.c:connect_telnet_obj", "src/server-process.c:connect_process_obj", "src/server-obj.c:destroy_obj", "src/server.c:begin_daemonize", "src/server.c:end_daemonize", "src/tpoll.c:tpoll_create")

p("C118", "Defaults for consoles, and CONSOLE lines that are rejected",
  "Each setting on a GLOBAL line (LOG, LOGOPTS, SEROPTS, IPMIOPTS, TESTOPTS) becomes the default for the consoles defined after it, changes no console defined before and no other setting, and is in force up to the next GLOBAL line; several on one line are taken one after the other. Every value is either accepted like that or reported once without any effect; then what was before it on the line stays and the rest is ignored. A default log names a log of its own for each console. A CONSOLE line with a word or a value that is not accepted anywhere on it is reported once and defines nothing, and the rest of the file is read as if it were not there.",
  "every configuration file before and after the line, every list of settings on it, every value",
  "there are more lines, values and orders than can be tried",
  "src/server-conf.c:parse_global_directive", "src/server-conf.c:parse_console_directive", "src/server-conf.c:parse_server_config")

p("C119", "Lists that share memory do not disturb each other",
  "All lists take their nodes from one store of free nodes and give them back to it. Whatever sequence of calls is made on any number of lists with their iterators, and whichever requests for memory fail, every call returns what it would return if its list were a plain sequence of its own; with enough memory, what is done to other lists makes no difference at all. A node is never in two lists, nor in a list and free; none is lost, memory is asked for only when no node is free, and there are never ten nodes more than the lists have had elements at one time. A call fails for want of memory only if no node is free and memory is refused, and then its list is as before.",
  "every number of lists and iterators, every sequence of calls on them (creating, destroying, inserting, removing, sorting, traversing), every pattern of failing allocations",
  "a node that is used by two lists shows only for particular orders of releasing and inserting, after any number of calls",
  "src/list.c:list_node_alloc", "src/list.c:list_node_free", "src/list.c:list_create", "src/list.c:list_destroy")

p("C120", "A serial break reaches the consoles the user writes to",
  "When a user types the break escape, every console they write to gets the break exactly once and in its own way: a program is sent &B, a serial line is broken, a connected terminal server is sent the telnet BREAK, a BMC is told to generate one. Nothing else changes: no console of another user, no log file, no other client; a user who only watches breaks nothing. If the break cannot reach a console (closed line, failing call, terminal server not connected, no IPMI context) the daemon's log says so once, and only then. (Refuted parts: on a serial line the break overtakes keystrokes that still wait to be written; consoles of type Unix socket and test ignore the break without a word.)",
  "every reachable state of clients, consoles and log files, every client, every outcome of the device calls",
  "which objects a client is linked to depends on the whole history of connects, steals, joins and resets; a test sees a few of them",
  "src/server-esc.c:perform_serial_break", "src/server-telnet.c:send_telnet_cmd", "src/server-ipmi.c:send_ipmi_break")

p("C121", "The IPMI engine runs while IPMI consoles need it",
  "Whatever consoles are configured, in whatever order and however many are refused, the daemon counts exactly its IPMI consoles, no two of which have the same host. If there are any it starts the engine once, with the least number of threads that leaves no thread more than 128 consoles (but no more than the library allows), and says so in its log with the right numbers; if there are none it never starts it. Every console handed to the engine finds it running, and at its end the daemon stops the engine before it releases the consoles the engine's threads use. (Refuted part: if the engine cannot be started, the daemon ends after having reported success to whoever started it.)",
  "every sequence of console definitions, every number of consoles, every limit of the library, every sequence of connection attempts",
  "the number of consoles is unbounded and a miscount or a wrong rounding shows only around multiples of 128 or after refused definitions",
  "src/server-ipmi.c:ipmi_init", "src/server-ipmi.c:ipmi_fini", "src/server-ipmi.c:create_ipmi_obj", "src/server.c:main")

p("C122", "Sessions set up and torn down at the same time do not corrupt each other",
  "However the single list operations of any number of threads that connect, disconnect and hang up clients are interleaved, as long as no two threads are busy with the same client: a client nobody is busy with lists exactly the consoles that list it, equally often; nothing ever refers to a destroyed client; what a thread does to its client is what it would do if it ran alone; a read-write session ends up linked once in each direction; detaching or hanging up takes at most six operations for each link plus three, after which nothing refers to the client. (Refuted parts, since the code does not keep two threads off the same client: a client that is stolen from while it is being linked, or that hangs up while it is being linked, leaves an entry for itself with a console when it is destroyed.)",
  "every number of threads, every sequence of connects, disconnects and hang-ups, every interleaving of their list operations",
  "the interleavings are unbounded and a bad one shows only as a rare use of freed memory",
  "src/server-obj.c:link_objs", "src/server-obj.c:unlink_objs", "src/server-obj.c:unlink_obj", "src/server-obj.c:shutdown_obj", "src/server-sock.c:perform_connect_cmd")

p("C123", "Output that several threads produce is never left waiting",
  "Whatever threads write to a client while the main loop flushes, suspends, resumes or closes it, and however their memory accesses are interleaved: when the main loop waits and nobody is in the middle of changing the client's buffer, a client that has output pending and is not suspended is polled for output; whoever holds the buffer's lock lets go after at most six steps of its own; a client marked to be closed stays so and is closed when its buffer has been sent; a suspended client is not polled for output. (Refuted parts: the mark is lost when another thread's write passes the end of the buffer at the same time; a stolen client whose last message is sent before the mark is set is never closed; a message that is being written when the client suspends is sent.)",
  "every number of threads, every sequence of writes, flushes, suspends, resumes and hang-ups, every interleaving of their steps",
  "the interleavings are unbounded, and the bad ones need a few instructions of two threads to overlap",
  "src/server-obj.c:write_obj_data", "src/server-obj.c:write_to_obj", "src/server-obj.c:read_from_obj", "src/server-obj.c:unlink_objs", "src/server-obj.c:shutdown_obj", "src/server-esc.c:perform_suspend", "src/server.h:base_obj")

out = os.path.join(os.path.dirname(os.path.dirname(os.path.abspath(__file__))), "properties.jsonl")
with open(out, "w") as f:
    for x in P:
        f.write(json.dumps(x) + "\n")
print(len(P), "properties")
