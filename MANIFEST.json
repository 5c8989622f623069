{
 "claims": [
  {
   "property": "C01",
   "status": "proved",
   "theorems": [
    "C01_reads_exact"
   ],
   "note": "Any run of user operations on a new device is explained by a history in which every delivered entry extends a subsequence of the accepted entries."
  },
  {
   "property": "C02",
   "status": "proved",
   "theorems": [
    "C02_exact_accounting",
    "C02_reports_recognizable"
   ],
   "note": "Index of a delivered entry among the accepted ones = entries received + drop counts reported."
  },
  {
   "property": "C03",
   "status": "proved",
   "theorems": [
    "C03_failed_read_consumes_nothing",
    "C03_no_data_changes_nothing"
   ],
   "note": ""
  },
  {
   "property": "C04",
   "status": "proved",
   "theorems": [
    "C04_faulting_write"
   ],
   "note": "For readers already open and readers opened afterwards."
  },
  {
   "property": "C05",
   "status": "proved",
   "theorems": [
    "C05_no_bad_access"
   ],
   "note": "Writes come from user space (iovec or single buffer iterators)."
  },
  {
   "property": "C06",
   "status": "proved",
   "theorems": [
    "C06_restricted_sees_own"
   ],
   "note": ""
  },
  {
   "property": "C07",
   "status": "proved",
   "theorems": [
    "C07_identity"
   ],
   "note": ""
  },
  {
   "property": "C08",
   "status": "proved",
   "theorems": [
    "C08_flush",
    "C08_flush_empties"
   ],
   "note": ""
  },
  {
   "property": "C09",
   "status": "proved",
   "theorems": [
    "C09_poll_exact"
   ],
   "note": ""
  },
  {
   "property": "C10",
   "status": "partial",
   "theorems": [
    "C10_next_len_refuted",
    "C10_next_len_partial"
   ],
   "note": "REFUTED as stated: with a drop report due the value is the size of the entry behind the report. The partial theorem gives exactness without report and a bound in general."
  },
  {
   "property": "C11",
   "status": "proved",
   "theorems": [
    "C11_log_len"
   ],
   "note": ""
  },
  {
   "property": "C12",
   "status": "proved",
   "theorems": [
    "C12_write_stored",
    "C12_split_irrelevant",
    "C12_write_succeeds"
   ],
   "note": ""
  },
  {
   "property": "C13",
   "status": "proved",
   "theorems": [
    "C13_no_unnecessary_loss"
   ],
   "note": ""
  },
  {
   "property": "C14",
   "status": "proved",
   "theorems": [
    "C14_independent",
    "C14_open_close"
   ],
   "note": ""
  },
  {
   "property": "C15",
   "status": "proved",
   "theorems": [
    "C15_set_version",
    "C15_layouts"
   ],
   "note": ""
  },
  {
   "property": "C16",
   "status": "proved",
   "theorems": [
    "C16_late_reader"
   ],
   "note": ""
  },
  {
   "property": "C17",
   "status": "proved",
   "theorems": [
    "C17_consistent",
    "C17_add",
    "C17_persistent",
    "C17_list",
    "C17_accepts",
    "C17_blanks"
   ],
   "note": "Lower-case letters are those of the kernel's Latin-1 ctype table."
  },
  {
   "property": "C18",
   "status": "proved",
   "theorems": [
    "C18_no_lost_wakeup",
    "C18_safe",
    "C18_mutex_released",
    "C18_delivers"
   ],
   "note": "For read and poll sleepers, any number of tasks, at the granularity of lock, wait-queue and critical-section steps; critical sections are those of Ring.v."
  },
  {
   "property": "C19",
   "status": "proved",
   "theorems": [
    "C19_payload_in_bounds",
    "C19_in_bounds"
   ],
   "note": "ulog_parse_buf itself does not check lengths: its statement assumes a buffer that holds what the header announces, as a successful read() guarantees."
  },
  {
   "property": "C20",
   "status": "proved",
   "theorems": [
    "C20_strings_terminated",
    "C20_raw_strings_terminated"
   ],
   "note": ""
  },
  {
   "property": "C21",
   "status": "proved",
   "theorems": [
    "C21_text_read_back"
   ],
   "note": "The names and the tag must fit in the payload with at least one message byte."
  },
  {
   "property": "C22",
   "status": "proved",
   "theorems": [
    "C22_binary_read_back",
    "C22_bin_writev_read_back"
   ],
   "note": ""
  },
  {
   "property": "C23",
   "status": "proved",
   "theorems": [
    "C23_raw_read_back",
    "C23_no_forgery"
   ],
   "note": ""
  },
  {
   "property": "C24",
   "status": "partial",
   "theorems": [
    "C24_report_parses_partial",
    "C24_count_refuted"
   ],
   "note": "REFUTED for counts of 2^31 and more: the driver prints the count as an int. Proved for all smaller counts."
  },
  {
   "property": "C25",
   "status": "proved",
   "theorems": [
    "C25_raw_consistent"
   ],
   "note": ""
  },
  {
   "property": "C26",
   "status": "proved",
   "theorems": [
    "C26_reassembly",
    "C26_one_buffer"
   ],
   "note": "Model of ulog_bin_writev_chunk (BinChunk.v). Sizes are those of objects in memory (sums below 2^64). The result of each ulog_bin_writev is an arbitrary function."
  },
  {
   "property": "C27",
   "status": "proved",
   "theorems": [
    "C27_fits",
    "C27_no_room_refused",
    "C27_chunk_read_back"
   ],
   "note": "C27_chunk_read_back composes with the driver and parser models: each chunk comes back whole."
  },
  {
   "property": "C28",
   "status": "proved",
   "theorems": [
    "C28_in_bounds",
    "C28_stops_at_first_failure"
   ],
   "note": "Every index of the caller's array, every access to a vector and every store in iov2 is bounds checked in the model; exhausted fuel would be Bug Hang."
  },
  {
   "property": "C29",
   "status": "proved",
   "theorems": [
    "C29_registered_once",
    "C29_initialised_once",
    "C29_list_is_history"
   ],
   "note": "Small-step model with any number of threads, steps at the granularity of shared accesses and lock operations (Cookies.v), sequentially consistent memory."
  },
  {
   "property": "C30",
   "status": "proved",
   "theorems": [
    "C30_set_level_not_lost",
    "C30_get_level"
   ],
   "note": "The level in memory is the last level set, whatever initialisations run."
  },
  {
   "property": "C31",
   "status": "partial",
   "theorems": [
    "C31_initial_level_partial",
    "C31_long_names_refuted"
   ],
   "note": "REFUTED for tag names longer than 68 bytes: the variable name is truncated to 79 bytes, so the tag's own variable is not looked up. Proved for all names up to 68 bytes, and the range 0..7 for all names."
  },
  {
   "property": "C32",
   "status": "proved",
   "theorems": [
    "C32_filter",
    "C32_extremes"
   ],
   "note": ""
  },
  {
   "property": "C33",
   "status": "proved",
   "theorems": [
    "C33_set_by_name"
   ],
   "note": "If several registered tags share the name, the one most recently registered is set."
  },
  {
   "property": "C34",
   "status": "proved",
   "theorems": [
    "C34_names",
    "C34_names_in_bounds",
    "C34_foreach"
   ],
   "note": "Under any concurrent registrations."
  },
  {
   "property": "C35",
   "status": "proved",
   "theorems": [
    "C35_formatted_message",
    "C35_error"
   ],
   "note": "A formatted text longer than INT_MAX counts as a formatting error, as vsnprintf reports it."
  },
  {
   "property": "C36",
   "status": "partial",
   "theorems": [
    "C36_custom_writer_partial",
    "C36_get_partial",
    "C36_refuted"
   ],
   "note": "REFUTED: ulog_set_log_device discards the function. Proved for every history in which no device is chosen after the function was set."
  },
  {
   "property": "C37",
   "status": "proved",
   "theorems": [
    "C37_opens",
    "C37_opened_once",
    "C37_delivered_once",
    "C37_no_crash",
    "C37_get_not_null"
   ],
   "note": "Small-step model with any number of threads (Writer.v), sequentially consistent memory."
  },
  {
   "property": "C38",
   "status": "proved",
   "theorems": [
    "C38_path_exact",
    "C38_opened_next",
    "C38_too_long",
    "C38_never_stored"
   ],
   "note": "Under any interleaving; open is retried with the new name before the next message is written unless a function was installed meanwhile."
  },
  {
   "property": "C39",
   "status": "partial",
   "theorems": [
    "C39_safe",
    "C39_gap",
    "C39_not_starved_partial",
    "C39_count_partial",
    "C39_first_refuted",
    "C39_count_refuted"
   ],
   "note": "REFUTED: the first message is masked while the clock is below the delay, and masked calls are forgotten when the level hides the message that would report them. Proved: minimal gap between printed messages, exact masked count when the level is enabled, and no starvation."
  },
  {
   "property": "C40",
   "status": "partial",
   "theorems": [
    "C40_change_partial",
    "C40_change_converted",
    "C40_change_signed",
    "C40_wide_refuted"
   ],
   "note": "REFUTED for values wider than uintptr_t (compared after truncation). Proved for all values that fit."
  },
  {
   "property": "C41",
   "status": "proved",
   "theorems": [
    "C41_line",
    "C41_printed_once",
    "C41_binary",
    "C41_time"
   ],
   "note": "For messages that end with their only NUL."
  },
  {
   "property": "C42",
   "status": "proved",
   "theorems": [
    "C42_pool"
   ],
   "note": "Any environment whose poll does not report descriptors given as -1; any number of devices; tail >= 0. The branch for an empty pool is an event in the model and never occurs."
  },
  {
   "property": "C43",
   "status": "proved",
   "theorems": [
    "C43_merge",
    "C43_any_times",
    "C43_ulog_mark",
    "C43_ulog_covers",
    "C43_ulog_accepts"
   ],
   "note": "Any number of devices and content; termination bound included. C43_any_times: without any assumption on the times the order is the greedy merge (always the foremost entry of least time, lowest device first). The condition on the marks is shown to hold for ulog devices."
  },
  {
   "property": "C44",
   "status": "proved",
   "theorems": [
    "C44_tail"
   ],
   "note": "The order whose last N entries are printed is the one the dump without tail prints."
  },
  {
   "property": "C45",
   "status": "partial",
   "theorems": [
    "C45_dump_ends_refuted",
    "C45_quiet_ends_partial"
   ],
   "note": "REFUTED: a writer that logs one entry per entry read keeps the dump running for ever, since receiving a ulog entry never lowers the mark. Partial: the dump ends once the devices are quiet for one round more than there are devices."
  },
  {
   "property": "C46",
   "status": "proved",
   "theorems": [
    "C46_buffer",
    "C46_banner"
   ],
   "note": "Priorities 0..7 (both decoders mask with 7). snprintf and strftime are modelled by their contract."
  },
  {
   "property": "C47",
   "status": "partial",
   "theorems": [
    "C47_shape",
    "C47_printed_partial",
    "C47_lossless_partial",
    "C47_dropped_refuted",
    "C47_commas_refuted"
   ],
   "note": "The shape of the line holds for every entry (C47_shape). REFUTED: 'every entry is printed' (a binary entry of 3000 bytes is silently dropped, C47_dropped_refuted) and losslessness when names contain commas (C47_commas_refuted). What holds: all text entries, and binary ones up to the stated size, are printed; without commas in names different entries give different lines."
  },
  {
   "property": "C48",
   "status": "proved",
   "theorems": [
    "C48_lines",
    "C48_lines_unique"
   ],
   "note": "Hypothesis: whole rendering shorter than 5248 bytes, as in the statement."
  },
  {
   "property": "C49",
   "status": "partial",
   "theorems": [
    "C49_bytes",
    "C49_shown_partial",
    "C49_nul_refuted",
    "C49_inside",
    "C49_any"
   ],
   "note": "REFUTED only in one corner: the bytes of every record are decoded exactly and every write stays inside the buffer (C49_bytes, C49_inside), and a text without a NUL byte is shown whole (C49_shown_partial); a kernel text that holds an escaped NUL byte is cut there when it is rendered as a string (C49_nul_refuted)."
  },
  {
   "property": "C50",
   "status": "partial",
   "theorems": [
    "C50_line",
    "C50_untimed",
    "C50_plain",
    "C50_inside",
    "C50_late_refuted",
    "C50_malformed_refuted"
   ],
   "note": "REFUTED for malformed prefixes, and for times from 2147483648 s on where long has 32 bits (C50_late_refuted): well-formed lines (with or without time stamp), plain lines and memory safety are proved; a line such as <a> or <> that is not a kernel prefix is stripped all the same, and <3 volts changes the priority (C50_malformed_refuted)."
  },
  {
   "property": "C51",
   "status": "proved",
   "theorems": [
    "C51_init",
    "C51_add",
    "C51_remove",
    "C51_visit",
    "C51_close"
   ],
   "note": ""
  },
  {
   "property": "C52",
   "status": "partial",
   "theorems": [
    "C52_lines_partial",
    "C52_nul_refuted"
   ],
   "note": "REFUTED for streams holding NUL bytes: the line search stops at the first one and complete lines that were read are not relayed (C52_nul_refuted). Proved for every stream without NUL bytes, every buffer size and every split into reads, with progress (C52_lines_partial)."
  },
  {
   "property": "C53",
   "status": "partial",
   "theorems": [
    "C53_inside",
    "C53_round_trip_partial",
    "C53_delivered_partial",
    "C53_escape_refuted",
    "C53_long_tag_refuted"
   ],
   "note": "REFUTED as stated: a message of at least 6 bytes starting with ESC loses 7 bytes whatever they are, and a tag that fills the sample makes the relay read outside it. Proved: the writer never leaves the sample (all inputs); outside those two cases priority, thread name, tag and text (cut to the room left) come back exactly, up to what every reader of the log device parses."
  },
  {
   "property": "C54",
   "status": "partial",
   "theorems": [
    "C54_gaps_partial",
    "C54_total_partial",
    "C54_half_refuted"
   ],
   "note": "REFUTED for gaps of half the index period or more (reported without a number). Proved for gaps below 32768: every gap is reported with its exact size, across wrap-around, and the reports add up to the number of lost samples."
  },
  {
   "property": "C55",
   "status": "partial",
   "theorems": [
    "C55_mask_partial",
    "C55_upto_partial",
    "C55_zero_refuted",
    "C55_low_refuted",
    "C55_first_refuted"
   ],
   "note": "REFUTED as stated: mask 0 lowers the level to critical, LOG_UPTO(0) and LOG_UPTO(1) do not hide critical messages, and the first call gives 0 back. Proved: after setlogmask with any mask whose highest bit is 2..7 (LOG_UPTO(2..7) in particular), whatever calls follow, a message is emitted exactly if its priority is at most that bit, and the next setlogmask returns the corresponding LOG_UPTO."
  },
  {
   "property": "C56",
   "status": "proved",
   "theorems": [
    "C56_glib",
    "C56_glib_emits",
    "C56_gst",
    "C56_obus"
   ],
   "note": ""
  },
  {
   "property": "C57",
   "status": "partial",
   "theorems": [
    "C57_statements_partial",
    "C57_pieces",
    "C57_level_refuted",
    "C57_saturation_refuted",
    "C57_put_refuted"
   ],
   "note": "REFUTED as stated: text is emitted at the level of the stream flushed next, text beyond 512 bytes and characters written with put are lost. Proved: any sequence of complete log statements of at most 512 bytes is emitted exactly, in order, at the right level and tag; no emission exceeds the buffer."
  },
  {
   "property": "C58",
   "status": "partial",
   "theorems": [
    "C58_once_partial",
    "C58_lost_refuted",
    "C58_spurious_refuted",
    "C58_failed_start_refuted",
    "C58_reentrant_refuted"
   ],
   "note": "REFUTED as stated: a request whose send fails at the connection gets no status; an end of list completes any request or none; a client whose start failed accepts requests; stopping the client in the status callback gives two statuses. C58_once_partial proves the statement for all runs without these events and for applications that do not stop the client in the callback."
  },
  {
   "property": "C59",
   "status": "partial",
   "theorems": [
    "C59_list_partial",
    "C59_set_partial",
    "C59_broadcast_refuted",
    "C59_duplicate_refuted"
   ],
   "note": "REFUTED for several clients (the end of list is sent to all of them) and for tags registered twice under one name. Proved for one client and for registries where the requested name is unique."
  },
  {
   "property": "C60",
   "status": "proved",
   "theorems": [
    "C60_calls_can_complete"
   ],
   "note": "Possibility of completion from every reachable state; fairness of the scheduler is not modelled."
  },
  {
   "property": "C61",
   "status": "partial",
   "theorems": [
    "C61_no_leak_partial",
    "C61_refuted"
   ],
   "note": "REFUTED: descriptor 0 is never closed. Proved when open never returns descriptor 0."
  },
  {
   "property": "C62",
   "status": "partial",
   "theorems": [
    "C62_open_descriptor_partial",
    "C62_refuted"
   ],
   "note": "REFUTED: a message being logged while another thread calls ulog_set_log_device can be written to a closed descriptor. Proved as long as no device is chosen."
  },
  {
   "property": "C63",
   "status": "partial",
   "theorems": [
    "C63_env_device_partial",
    "C63_default_device",
    "C63_refuted"
   ],
   "note": "REFUTED for values longer than 21 bytes, which are cut. Proved for shorter ones."
  },
  {
   "property": "C64",
   "status": "partial",
   "theorems": [
    "C64_no_leak",
    "C64_safe_partial",
    "C64_name_refuted"
   ],
   "note": "REFUTED: the duplicate-name test dereferences a NULL name after a failed kstrdup at init. Proved: no leak and no double free for all failures, and no crash when the names of the built-in devices were allocated."
  },
  {
   "property": "C65",
   "status": "partial",
   "theorems": [
    "C65_negative_tail_refuted",
    "C65_tail_partial"
   ],
   "note": "REFUTED: a negative -t makes process_tail_flush loop for ever once the marks are reached. Partial: never for tail >= 0."
  },
  {
   "property": "C66",
   "status": "partial",
   "theorems": [
    "C66_klog_dump_refuted",
    "C66_klog_dump_partial"
   ],
   "note": "REFUTED: the mark (twice the kernel buffer size) can be used up by records whose formatted text is longer, and the dump stops early. Partial: complete when the mark covers the formatted length."
  },
  {
   "property": "C67",
   "status": "partial",
   "theorems": [
    "C67_cut",
    "C67_whole_lines_refuted"
   ],
   "note": "REFUTED: a 220-byte message of 110 lines in the aligned format loses its last lines, and the output ends with a NUL byte and no line feed. C67_cut says exactly what is output in each case."
  },
  {
   "property": "C68",
   "status": "partial",
   "theorems": [
    "C68_binary_refuted",
    "C68_stale_refuted",
    "C68_text_partial"
   ],
   "note": "REFUTED for binary entries: a 200-byte binary record of the kmsgd device makes the decoder read past the frame buffer in CSV mode, and shorter ones show bytes of an earlier frame; proved for text entries (C68_text_partial)."
  },
  {
   "property": "C69",
   "status": "partial",
   "theorems": [
    "C69_entry_partial",
    "C69_overflow_refuted"
   ],
   "note": "REFUTED: a location longer than 2048 bytes makes the redirection write outside its buffer, always. Proved for all other locations."
  },
  {
   "property": "C70",
   "status": "partial",
   "theorems": [
    "C70_text_partial",
    "C70_long_refuted"
   ],
   "note": "REFUTED: with long messages enabled every message of 256 bytes or more with a conversion uses its argument list twice. Proved for everything else."
  },
  {
   "property": "C71",
   "status": "partial",
   "theorems": [
    "C71_ident_partial",
    "C71_ident_refuted"
   ],
   "note": "REFUTED: only an openlog before any other call counts. Proved for that case (without setlogmask in between)."
  },
  {
   "property": "C72",
   "status": "partial",
   "theorems": [
    "C72_server",
    "C72_client_partial",
    "C72_client_refuted"
   ],
   "note": "Proved for the server and for clients that get only readable tag names; REFUTED for the client: an undecodable tag message is stored with a NULL name, which the sort dereferences."
  },
  {
   "property": "C73",
   "status": "partial",
   "theorems": [
    "C73_done_partial",
    "C73_done_refuted"
   ],
   "note": "REFUTED: the status given by the transport is not looked at. C73_done_partial: done is told only at a callback of the transport for the outstanding message or at an end of list."
  },
  {
   "property": "C74",
   "status": "partial",
   "theorems": [
    "C74_stdin_partial",
    "C74_stdin_refuted"
   ],
   "note": "Proved for input without NUL bytes and without --time. REFUTED in general: what follows a NUL byte in a line is lost."
  },
  {
   "property": "C75",
   "status": "proved",
   "theorems": [
    "C75_args"
   ],
   "note": "For a device that accepts the writes; failures are in C77 and C79."
  },
  {
   "property": "C76",
   "status": "partial",
   "theorems": [
    "C76_times_partial",
    "C76_line_refuted",
    "C76_args_refuted"
   ],
   "note": "Proved for messages preceded by their time. REFUTED for others: a line starting with digits loses them, leading spaces are lost, and the time of the message before is kept."
  },
  {
   "property": "C77",
   "status": "proved",
   "theorems": [
    "C77_copy"
   ],
   "note": "All runs."
  },
  {
   "property": "C78",
   "status": "partial",
   "theorems": [
    "C78_fallback_partial",
    "C78_tag_refuted"
   ],
   "note": "With a device the tag is kept (C74 to C76); REFUTED without one: the messages carry the default tag. Text and level are kept."
  },
  {
   "property": "C79",
   "status": "proved",
   "theorems": [
    "C79_total"
   ],
   "note": "All runs, with no hypothesis."
  },
  {
   "property": "C80",
   "status": "proved",
   "theorems": [
    "C80_versions"
   ],
   "note": "All versions; iov_iter_iovec and iov_iter_advance are modelled after Linux."
  },
  {
   "property": "C81",
   "status": "partial",
   "theorems": [
    "C81_source_partial",
    "C81_leak_refuted",
    "C81_oob_refuted"
   ],
   "note": "Proved for user vectors and buffers and for empty sources. REFUTED for other sources with data (for instance io_uring registered buffers): the entry shows old bytes of the log, possibly of another user, and later reads go outside the buffer."
  },
  {
   "property": "C82",
   "status": "partial",
   "theorems": [
    "C82_registry_partial",
    "C82_visit_partial",
    "C82_mutex_refuted"
   ],
   "note": "REFUTED when taking the mutex fails: the level is set but the tag is never registered. Proved for every interleaving in which the mutex can be taken."
  },
  {
   "property": "C83",
   "status": "proved",
   "theorems": [
    "C83_levels",
    "C83_by_name",
    "C83_not_ready"
   ],
   "note": "Calls that do not overlap, from any sound registry (C82 shows every reachable one is)."
  },
  {
   "property": "C84",
   "status": "partial",
   "theorems": [
    "C84_printed_partial",
    "C84_str_refuted",
    "C84_flags_refuted",
    "C84_letter_refuted"
   ],
   "note": "REFUTED: ULOG_STR and ULOG_BUF print nothing; a priority with colour or binary flag indexes the table of letters out of bounds; levels 0 and 1 print a NUL. Proved for plain levels 2 to 7."
  },
  {
   "property": "C85",
   "status": "partial",
   "theorems": [
    "C85_inside",
    "C85_same",
    "C85_colour",
    "C85_long_name_refuted"
   ],
   "note": "REFUTED for thread names of 255 bytes or more: the relay reads outside the sample. Proved: always inside the buffer when written; equal to the Linux sample for names up to 15 bytes; colours."
  },
  {
   "property": "C86",
   "status": "partial",
   "theorems": [
    "C86_stored_partial",
    "C86_dropped_refuted",
    "C86_index_refuted"
   ],
   "note": "REFUTED for overlapping threads: a message is dropped without an index gap, or two samples share an index. Proved for threads that do not overlap."
  },
  {
   "property": "C87",
   "status": "partial",
   "theorems": [
    "C87_accounted_partial",
    "C87_once_partial",
    "C87_same_time_refuted",
    "C87_read_error_refuted",
    "C87_no_match_refuted",
    "C87_wrap_refuted"
   ],
   "note": "REFUTED as stated: equal time stamps, a failing read and 65536 losses break it; proved for increasing time stamps, reads that succeed or fail at shd_end_read (retried at the next poll, nothing lost or relayed twice) and fewer than 32768 losses between two successful polls"
  },
  {
   "property": "C88",
   "status": "partial",
   "theorems": [
    "C88_lines_partial",
    "C88_levels",
    "C88_prio_refuted",
    "C88_custom_level_refuted",
    "C88_surrogate_refuted",
    "C88_empty_refuted",
    "C88_nul_refuted"
   ],
   "note": "REFUTED as stated for levels outside the standard five, text that cannot be encoded, empty messages, NUL characters and priorities 1, 2 and 5; proved for the others"
  },
  {
   "property": "C89",
   "status": "partial",
   "theorems": [
    "C89_lines_partial",
    "C89_plain_partial",
    "C89_raw_partial",
    "C89_thread_name_refuted"
   ],
   "note": "REFUTED for thread names outside ASCII in raw mode; proved for lines that fit in an entry and other names"
  },
  {
   "property": "C90",
   "status": "partial",
   "theorems": [
    "C90_bridge_partial",
    "C90_forward_again_refuted",
    "C90_colour_refuted"
   ],
   "note": "REFUTED when forwarding is asked for again after it was declined, and for priorities with flags; proved otherwise"
  },
  {
   "property": "C91",
   "status": "partial",
   "theorems": [
    "C91_throttled_partial",
    "C91_changed_partial",
    "C91_shared_refuted",
    "C91_level_refuted"
   ],
   "note": "REFUTED for messages ending in _throttled, which share entries; proved for the others"
  },
  {
   "property": "C92",
   "status": "partial",
   "theorems": [
    "C92_unix_partial",
    "C92_process",
    "C92_distinct",
    "C92_long_refuted",
    "C92_cut_name_refuted",
    "C92_no_context_refuted"
   ],
   "note": "REFUTED as stated for names that do not fit: the length of the address is that of the whole name, so a name of 109 bytes or more makes the library read past sockaddr_un, instead of being refused; a process whose name is longer than 15 bytes is not found by its name; ulogctl_srv_new returns 0 when the pomp context cannot be created. Proved for socket names up to 107 bytes and process names up to 15."
  },
  {
   "property": "C93",
   "status": "partial",
   "theorems": [
    "C93_letters",
    "C93_request_partial",
    "C93_two_refuted",
    "C93_ends_refuted",
    "C93_high_levels_refuted"
   ],
   "note": "REFUTED as stated: with a tag and all tags, only the tag is set, at the level meant for all; without request, or when the library refuses it, the tool waits for ever; the exit code is 0 when the address is wrong or the client cannot start; levels 0 and 1 are both shown as ?. Proved: letters in either case, and that one request asked for is the request sent."
  },
  {
   "property": "C94",
   "status": "partial",
   "theorems": [
    "C94_named_partial",
    "C94_all",
    "C94_places",
    "C94_opens",
    "C94_kmsgd_refuted",
    "C94_long_refuted"
   ],
   "note": "REFUTED in two cases: the name kmsgd is skipped, so asked for alone it gives all the other devices (C94_kmsgd_refuted); a name of 54 bytes or more is cut and another file is opened (C94_long_refuted). True otherwise: with names of at most 53 bytes but kmsgd (C94_named_partial), with all the devices of any reachable state of the driver (C94_all), places and number of frames (C94_places), and the context is created when nothing fails (C94_opens)."
  },
  {
   "property": "C95",
   "status": "partial",
   "theorems": [
    "C95_closed_partial",
    "C95_failed_partial",
    "C95_tool_partial",
    "C95_unused_refuted",
    "C95_stdin_refuted",
    "C95_failure_refuted"
   ],
   "note": "What is opened is closed exactly once, together with the output descriptor, after any failure. REFUTED for the descriptor of the caller: it is closed although it is not the output (C95_unused_refuted), so that ulogcat closes its standard input (C95_stdin_refuted), and it is closed when ulogcat3_open fails, unless it fails at its first allocation (C95_failure_refuted)."
  },
  {
   "property": "C96",
   "status": "partial",
   "theorems": [
    "C96_clear_partial",
    "C96_kmsgd_refuted"
   ],
   "note": "The file emptied is the one in the field path of the device. REFUTED for the copy of the kernel log: this field is replaced by /proc/kmsg when it is opened, so another file is opened and flushed (C96_kmsgd_refuted)."
  },
  {
   "property": "C97",
   "status": "partial",
   "theorems": [
    "C97_options_partial",
    "C97_main_partial",
    "C97_refused",
    "C97_tail_refuted"
   ],
   "note": "REFUTED for the number of lines: anything is taken, letters as 0 and -1 as -1 (C97_tail_refuted). True for numbers below 2^31 written in digits."
  },
  {
   "property": "C98",
   "status": "partial",
   "theorems": [
    "C98_create",
    "C98_first_partial",
    "C98_next",
    "C98_destroy_partial",
    "C98_late_refuted",
    "C98_retry_refuted"
   ],
   "note": "REFUTED: a device added after the first use is accepted but never read (C98_late_refuted); after a use that failed the descriptor of the caller is closed, and used and closed again by the next try (C98_retry_refuted). True for the devices added before the first use, with names of at most 53 bytes but kmsgd."
  },
  {
   "property": "C99",
   "status": "partial",
   "theorems": [
    "C99_events_partial",
    "C99_unended_refuted",
    "C99_second_refuted"
   ],
   "note": "REFUTED: a mark whose identifier is not followed by a space raises no event, and of two marks in a line only the first does. True as: each line raises one event exactly if a space follows its first mark, with the word between them. For streams without NUL bytes and lines that fit the buffer, as C52; the identifier is what is given to the event, whose text libulog may cut at 255 bytes."
  },
  {
   "property": "C100",
   "status": "partial",
   "theorems": [
    "C100_program",
    "C100_wrapped_partial",
    "C100_no_device",
    "C100_prefix_refuted",
    "C100_fallback_refuted",
    "C100_cut_refuted"
   ],
   "note": "REFUTED: a library whose path contains the one of the wrapper is taken for it (C100_prefix_refuted); when the wrapper is already there the fallback is not disabled (C100_fallback_refuted); more than 4064 bytes of libraries are cut (C100_cut_refuted). True otherwise, with a device path of at most 31 bytes."
  },
  {
   "property": "C101",
   "status": "partial",
   "theorems": [
    "C101_android_partial",
    "C101_emergency_refuted"
   ],
   "note": "REFUTED for the levels 0 and 1 of syslog, which get the lowest level of Android. True for the levels of libulog, 2 to 7."
  },
  {
   "property": "C102",
   "status": "proved",
   "theorems": [
    "C102_dump",
    "C102_any_times"
   ],
   "note": "Joins the driver model (Ring.v), the decoder (Parse.v) and the reader (Cat.v). Nobody else uses the driver during the dump; C102_dump for times that do not decrease within a device, C102_any_times for all non-negative times (greedy merge). Both say how much a device keeps at least."
  },
  {
   "property": "C103",
   "status": "proved",
   "theorems": [
    "C103_text"
   ],
   "note": "Over driver devices; output failures are C85/C86 material, here the output accepts everything."
  },
  {
   "property": "C104",
   "status": "proved",
   "theorems": [
    "C104_banners",
    "C104_banner_text"
   ],
   "note": "For every environment."
  },
  {
   "property": "C105",
   "status": "proved",
   "theorems": [
    "C105_end_to_end",
    "C105_any_times"
   ],
   "note": "The library's Iov, the driver's Ring, the parser and the log reader joined; devices are nodes of the driver's model after any history of system calls, the reader's own calls included. Assumes that nobody else calls the driver during the dump; C105_end_to_end also that the clock does not run backwards within one device, C105_any_times not. A device that lost messages still has more than 2^pow2 - 12300 bytes of the latest; the bytes of each shown entry in each output format are in C36 to C41 and C103."
  },
  {
   "property": "C106",
   "status": "proved",
   "theorems": [
    "C106_no_loss"
   ],
   "note": "For every environment whose poll reports only descriptors asked for."
  },
  {
   "property": "C107",
   "status": "proved",
   "theorems": [
    "C107_follow"
   ],
   "note": "Joins library, driver, parser and log reader as C105, with a schedule of calls of other processes between all critical sections of the driver. Safety: what is read is shown; that everything is read in the end is C108. Other processes' writes are library messages (no raw mode). poll is modelled without blocking."
  },
  {
   "property": "C108",
   "status": "proved",
   "theorems": [
    "C108_settles"
   ],
   "note": "Liveness for the system of C107. The proof finds a bound: calls still to be made, then twice the reads that will give something plus the waiting frames. poll is modelled without blocking; the code passes timeout 0 while frames or the tail are pending (libulogcat_core.c:291-293), so a blocking poll waits only when nothing is left to show."
  },
  {
   "property": "C109",
   "status": "proved",
   "theorems": [
    "C109_raw_open",
    "C109_bin_open",
    "C109_named",
    "C109_no_leak"
   ],
   "note": "snprintf cuts a name in the environment after 21 bytes; C109_named shows that this never changes which device of the driver is selected (device names have at most 10 bytes after the prefix). Off Linux ulog_bin_open opens nothing (modelled, ext = true). Open flags other than the path are not modelled."
  },
  {
   "property": "C110",
   "status": "proved",
   "theorems": [
    "C110_bin_write",
    "C110_bin_write_one",
    "C110_raw_write"
   ],
   "note": "Writes that return. When writev returns 0 (the driver never does for these vectors) ulog_bin_writev returns a stale errno: modelled, the theorem only speaks about other results. Chunked writes are C26 to C28 (BinChunk.v)."
  },
  {
   "property": "C111",
   "status": "partial",
   "theorems": [
    "C111_released",
    "C111_released_partial",
    "C111_released_refuted"
   ],
   "note": "REFUTED in full: after -ENODEV from shd_select_samples the section is reopened without looking at the result; when that fails, NULL is given to shd_select_samples at the next poll (C111_released_refuted). Proved in full when reopening works (C111_released), and in every case up to uses of a NULL section (C111_released_partial). libpomp, libshdata, malloc, ulog_raw_open and signals are oracles."
  },
  {
   "property": "C112",
   "status": "proved",
   "theorems": [
    "C112_options",
    "C112_usage"
   ],
   "note": "getopt_long and atoi are inputs (the options and numbers they give). The help itself is not modelled."
  },
  {
   "property": "C113",
   "status": "partial",
   "theorems": [
    "C113_stops",
    "C113_status",
    "C113_orderly_refuted"
   ],
   "note": "REFUTED for the last sentence: stopped by a signal before the first sample is there, shdlogd gives failure, since ret is the -ENOENT of the last search (C113_orderly_refuted). The two other sentences are proved for all runs."
  },
  {
   "property": "C114",
   "status": "proved",
   "theorems": [
    "C114_order",
    "C114_ends"
   ],
   "note": "Steps of threads interleave at each access to ctrl; the lock is a recursive counting mutex, memory is sequentially consistent. The state is the one after ulog_shd_init. shd_write is an oracle that stores one sample and may log itself (nested messages, any depth). Termination: rounds in which every thread gets a turn."
  },
  {
   "property": "C115",
   "status": "partial",
   "theorems": [
    "C115_init",
    "C115_safe",
    "C115_failure_refuted"
   ],
   "note": "REFUTED for: nothing remains after a failure. A failure of a pthread call leaves the shared memory section (and the attribute) behind, and a later call makes another (C115_failure_refuted). The rest is proved. A message between ulog_set_write_func and shd_enabled = true by another thread is dropped; init is modelled as one step."
  },
  {
   "property": "C116",
   "status": "partial",
   "theorems": [
    "C116_client_partial",
    "C116_create",
    "C116_client_refuted",
    "C116_server_partial",
    "C116_server_refuted"
   ],
   "note": "REFUTED: a client never frees the names that pomp_msg_read allocates for TAG_INFO, nor the array of tags when destroyed; a server never frees the name of a SET_TAG_LEV request. Proved: nothing else is left, messages are never leaked or freed twice, and a failed creation leaves nothing. Callbacks of the application do not call the library here (see C58 for that). That the caller frees strings read with %ms is the documented behaviour of libpomp, which is not in the repository."
  },
  {
   "property": "C117",
   "status": "partial",
   "theorems": [
    "C117_server",
    "C117_client_refuted",
    "C117_destroy_refuted"
   ],
   "note": "REFUTED for clients: after pomp_ctx_connect failed the state stays connecting, so a new start gives EBUSY; and for destroying without stopping: the object is freed although pomp_ctx_destroy refused. Proved for servers when pomp_ctx_stop works."
  },
  {
   "property": "C118",
   "status": "partial",
   "theorems": [
    "C118_follow",
    "C118_terminated",
    "C118_malformed",
    "C118_nomem",
    "C118_long_refuted"
   ],
   "note": "REFUTED for one size: a record of 8192 bytes passes the probing read of add_klog_device (BUFSIZ) but ends the reading, as the buffer for entries leaves room for 8191. Proved: C118_follow for all sequences with records up to 8191 bytes."
  },
  {
   "property": "C119",
   "status": "partial",
   "theorems": [
    "C119_inside_partial",
    "C119_own",
    "C119_stale_refuted",
    "C119_overrun_refuted"
   ],
   "note": "REFUTED: with three fields and no fourth (as Linux 3.5 writes), the search of the semicolon starts after the NUL: the text of an older record is shown, or bytes after the buffer are read. Proved: C119_own for records whose third field is followed by a comma; C119_inside_partial for any bytes if the buffer holds a further NUL (missing: buffers without one)."
  },
  {
   "property": "C120",
   "status": "partial",
   "theorems": [
    "C120_whole",
    "C120_live",
    "C120_cut_partial",
    "C120_follow",
    "C120_tool",
    "C120_short_refuted",
    "C120_dump_refuted"
   ],
   "note": "REFUTED: with output to a descriptor, a short write loses the rest of the entry without error and later entries follow; a dump whose output failed returns 0. Proved: C120_whole and C120_live (outputs that take everything, interrupted or not), C120_cut_partial (failing outputs, missing: short writes to descriptors), C120_follow (when following, the error stops the reader in the same round), C120_tool (loop of the tool)."
  },
  {
   "property": "C121",
   "status": "partial",
   "theorems": [
    "C121_apart_partial",
    "C121_good",
    "C121_memory",
    "C121_bad_refuted"
   ],
   "note": "REFUTED in full by C121_bad_refuted: the badbit and the fake buffer of a stream are shared by the threads; C121_apart_partial supposes that no stream is in the bad state at the end (C121_good: it is enough that nobody puts single characters). Operations are atomic: races inside the standard library are not modelled."
  },
  {
   "property": "C122",
   "status": "partial",
   "theorems": [
    "C122_log",
    "C122_return_err",
    "C122_return_val_partial",
    "C122_return",
    "C122_first",
    "C122_event",
    "C122_return_val_refuted",
    "C122_long_refuted"
   ],
   "note": "REFUTED in full: C122_return_val_refuted (RETURN_VAL_IF(c, errno, -errno) when the output function fails) and C122_long_refuted (texts beyond 255 bytes lose the error); the other theorems hold without restriction except that the error is shown to be told for names, texts and descriptions of at most 200 bytes together. strerror does not change errno."
  },
  {
   "property": "C123",
   "status": "partial",
   "theorems": [
    "C123_log",
    "C123_log_partial",
    "C123_own_level_refuted",
    "C123_hidden_refuted",
    "C123_uncaught",
    "C123_name",
    "C123_no_name",
    "C123_level_refuted",
    "C123_tag_refuted",
    "C123_twice_refuted",
    "C123_cut_refuted"
   ],
   "note": "REFUTED in full (C123_level_refuted, C123_tag_refuted, C123_own_level_refuted, C123_hidden_refuted, C123_twice_refuted, C123_cut_refuted). C123_log says exactly what appears: the level of the tag ulog_py counts, not that of the logger. C123_log_partial supposes that both are the same, that debug messages are not asked for, or by ULOG_LEVEL=D, and texts that are not events. Loggers have no level of their own."
  },
  {
   "property": "C124",
   "status": "partial",
   "theorems": [
    "C124_names",
    "C124_names_none",
    "C124_letters",
    "C124_throttle_partial",
    "C124_throttle_lost",
    "C124_init",
    "C124_throttle_refuted",
    "C124_unit_refuted"
   ],
   "note": "REFUTED in full: ulog_log_str does nothing in this port, so throttled messages after masked ones are lost (C124_throttle_lost, C124_throttle_refuted); the clock value is passed as it is, so the delay is in its units (C124_unit_refuted). AmbaPrint is not in the repository: its routing is an assumption."
  },
  {
   "property": "C125",
   "status": "partial",
   "theorems": [
    "C125_ready_partial",
    "C125_free_partial",
    "C125_logged_before",
    "C125_stuck",
    "C125_stuck_output",
    "C125_refuted"
   ],
   "note": "REFUTED: ulog_init_cookie and __writer_init take ctrl.lock, an ordinary mutex; a handler whose tag is not registered yet (or whose enabled message is the first output), run while the interrupted thread holds that lock, waits for ever (C125_stuck, C125_stuck_output, C125_refuted; ulogctl and the example server log from such handlers). True: with the tag in use and the output initialised the handler ends in 8 turns whatever the interrupted thread holds (C125_ready_partial, as long as no thread changes the device); when the lock is free it always ends (C125_free_partial); a program of one thread that logged with the tag of the handler before installing it, as shdlogd does, is safe (C125_logged_before). Not modelled: locks inside the C library."
  },
  {
   "property": "C126",
   "status": "partial",
   "theorems": [
    "C126_glib",
    "C126_glib_by_name",
    "C126_glib_initial",
    "C126_native",
    "C126_obus",
    "C126_gst_partial",
    "C126_gst_twice_refuted",
    "C126_gst_level_refuted",
    "C126_domain_refuted"
   ],
   "note": "Proved for GLib and libobus. REFUTED for GStreamer: two calls of ulog_gst_redirect record each message twice (gst_debug_add_log_function adds a second entry), and ulog_gst_set_level cannot let messages of information or debug through, as the redirection sets the default threshold to FIXME. REFUTED for domains as tags: ULOG_LEVEL_<domain> and ulog_set_tag_level(domain) have no effect. C126_gst_partial gives what GStreamer messages do: as many records as redirections, below the level and the threshold, for texts that fit (C69). One thread; the foreign libraries are modelled by their documentation."
  },
  {
   "property": "C127",
   "status": "partial",
   "theorems": [
    "C127_redirected_partial",
    "C127_pending",
    "C127_line_refuted",
    "C127_char_refuted",
    "C127_mixed_refuted"
   ],
   "note": "REFUTED: as std::cerr has the flag unitbuf, every << is a message of its own; characters written with put (and newlines) are lost; text pending in another stream of the thread is logged at INFO with the text of std::cerr. C127_redirected_partial: with complete statements between, exactly the inserted texts are logged, in order, at INFO, under the tag of the last statement of the thread, and nothing goes to stderr, for texts of at most 512 bytes without NUL; C127_pending: in any state, an insertion logs all pending text. One thread; std::ostream is modelled by its documentation (libstdc++: sputn for strings)."
  },
  {
   "property": "C128",
   "status": "proved",
   "theorems": [
    "C128_kernel_end_to_end"
   ],
   "note": "Composition of C52/C99 (relay), C105 (library, driver, viewer) and C50 (decoding of lines). Both tags are assumed enabled, as they are by default. The entries are compared just before rendering; C103 covers the text."
  },
  {
   "property": "C129",
   "status": "proved",
   "theorems": [
    "C129_connected",
    "C129_set_then_list"
   ],
   "note": "One client; libpomp is an oracle that delivers in order and loses nothing; memory does not run out (failures are in C58, C59, C72, C73, C116)."
  },
  {
   "property": "C130",
   "status": "proved",
   "theorems": [
    "C130_screen",
    "C130_fits"
   ],
   "note": "Joins Macros, Iov, Ring, Parse, Cat, Live and Render. Nobody uses the driver during the dump. Default text format, without colour."
  },
  {
   "property": "C131",
   "status": "partial",
   "theorems": [
    "C131_order_refuted",
    "C131_calls_partial",
    "C131_sequential_partial",
    "C131_thread_partial"
   ],
   "note": "REFUTED: ulogger_write_iter reads the clock before it takes the lock, so a thread can store an earlier time after a later one; ulogcat -d then prints the later message first (C131_order_refuted, to the bytes on the screen). Partial: the device keeps the calls in the order in which they took the lock, each with the time at which it began; the calls of one thread, and calls that do not overlap, are in order."
  },
  {
   "property": "C132",
   "status": "partial",
   "theorems": [
    "C132_tool",
    "C132_takes_effect",
    "C132_unknown_refuted"
   ],
   "note": "REFUTED in one part: the tool does not tell that a tag is unknown (C132_unknown_refuted). The rest is proved for one client on one connection that stays up; libpomp is an oracle that delivers messages in order."
  },
  {
   "property": "C133",
   "status": "partial",
   "theorems": [
    "C133_ticks",
    "C133_refused",
    "C133_address_partial",
    "C133_port_refuted"
   ],
   "note": "REFUTED in one part: unsound ports are taken for others (C133_port_refuted). The lines are proved without restriction below 2^31 ticks; the addresses for sound options only."
  },
  {
   "property": "C134",
   "status": "proved",
   "theorems": [
    "C134_runs",
    "C134_screen"
   ],
   "note": "Runs one after the other; path and kind of the device are in Devopen.v (C109)."
  },
  {
   "property": "C135",
   "status": "partial",
   "theorems": [
    "C135_own_partial",
    "C135_own_refuted"
   ],
   "note": "REFUTED: ulogger leaves the euid field of raw entries 0 (memset) and the driver takes it as it is, so the messages of another user count as root's; that user, without the right to read all, sees nothing. Proved for root and for readers with the right to read everything."
  },
  {
   "property": "C136",
   "status": "proved",
   "theorems": [
    "C136_screen"
   ],
   "note": "Fewer than 32768 losses at once and increasing sample times are hypotheses (beyond them the counts are wrong: see the properties on check_index); failed polls and the choice of the devices are in other properties."
  },
  {
   "property": "C137",
   "status": "proved",
   "theorems": [
    "C137_screen"
   ],
   "note": ""
  },
  {
   "property": "C138",
   "status": "proved",
   "theorems": [
    "C138_screen",
    "C138_all"
   ],
   "note": ""
  },
  {
   "property": "C139",
   "status": "proved",
   "theorems": [
    "C139_screen"
   ],
   "note": "Statements that leave no unflushed character behind; for other uses of the streams see C57 and C121 (refuted)."
  },
  {
   "property": "C140",
   "status": "partial",
   "theorems": [
    "C140_own_losses_refuted",
    "C140_unseen_refuted",
    "C140_at_least_partial"
   ],
   "note": "REFUTED: C140_own_losses_refuted shows a user with one lost entry who is told of three, C140_unseen_refuted one who lost everything and is told nothing. C140_at_least_partial is what holds."
  },
  {
   "property": "C141",
   "status": "partial",
   "theorems": [
    "C141_tool_partial",
    "C141_done_refuted",
    "C141_error_refuted"
   ],
   "note": "REFUTED: C141_done_refuted (send_cb does not look at its status: a set request that never left is reported as done), C141_error_refuted (a request already carried out is reported as failed). C141_tool_partial states all that is true."
  },
  {
   "property": "C142",
   "status": "partial",
   "theorems": [
    "C142_csv_partial",
    "C142_lines_refuted"
   ],
   "note": "REFUTED for a script that reads line by line: a text can hold a line that is exactly the record of a message of another program (C142_lines_refuted); and commas in names make records ambiguous (C47_commas_refuted). Proved for a script that uses the announced lengths, if no name or tag holds a comma: it gets back all messages, except that binary ones of more than 1000 bytes can be missing (C47_dropped_refuted)."
  },
  {
   "property": "C143",
   "status": "partial",
   "theorems": [
    "C143_read_partial",
    "C143_forged_refuted",
    "C143_levels_refuted"
   ],
   "note": "REFUTED: a tag with a line feed makes one message look exactly like messages of other programs (C143_forged_refuted), and the two gravest levels show alike (C143_levels_refuted). Proved for tags without line feed and colon that do not end with a space, with the letter instead of the level; the texts may hold anything."
  },
  {
   "property": "C144",
   "status": "partial",
   "theorems": [
    "C144_lines_partial",
    "C144_colours",
    "C144_forged_refuted"
   ],
   "note": "REFUTED for tags with a parenthesis: C144_forged_refuted shows two entries of different processes with the same line. The strongest true version is C144_lines_partial; nothing else is missing."
  },
  {
   "property": "C145",
   "status": "partial",
   "theorems": [
    "C145_server_partial",
    "C145_tool_partial",
    "C145_late_refuted",
    "C145_status_refuted",
    "C145_request_refuted"
   ],
   "note": "REFUTED: the pointer to the loop is not reset, so a signal after pomp_loop_destroy wakes up a freed loop (C145_late_refuted); both programs exit with 0 after failures (C145_status_refuted); ulogctl goes on to wait when its request failed (C145_request_refuted). The _partial theorems exclude only signals after the destruction of the loop."
  },
  {
   "property": "C146",
   "status": "partial",
   "theorems": [
    "C146_restored_partial",
    "C146_got_again",
    "C146_device_refuted"
   ],
   "note": "REFUTED when a device is chosen between saving and restoring (C146_device_refuted: messages go to descriptor -1); C146_restored_partial holds for every history without such a choice."
  },
  {
   "property": "C147",
   "status": "partial",
   "theorems": [
    "C147_blobs_partial",
    "C147_long_refuted"
   ],
   "note": "REFUTED for data of more than 256 pieces: the number of a piece is one byte (C147_long_refuted). Proved for data of 1 byte to 256 pieces given by calls that reported success (C147_blobs_partial)."
  },
  {
   "property": "C148",
   "status": "partial",
   "theorems": [
    "C148_opened",
    "C148_right_one",
    "C148_all_finish_partial",
    "C148_deadlock_refuted",
    "C148_names"
   ],
   "note": "REFUTED for Linux before 2.6.35 (C148_deadlock_refuted: opposite order of logs_mutex and misc_mtx). Proved for later kernels and for restricted use of older ones (C148_all_finish_partial); what opens return is proved for all. misc_open and misc_register of Linux are trusted as described in Minor.v."
  },
  {
   "property": "C149",
   "status": "partial",
   "theorems": [
    "C149_once_partial",
    "C149_flood",
    "C149_flood_refuted",
    "C149_bytes_refuted"
   ],
   "note": "REFUTED in full (C149_flood_refuted, C149_bytes_refuted). C149_once_partial and C149_flood together say exactly when a one-line message that is no event is written once. Filters and formatters of loggers are not modelled."
  },
  {
   "property": "C150",
   "status": "partial",
   "theorems": [
    "C150_serial_partial",
    "C150_modes",
    "C150_device",
    "C150_accepted",
    "C150_raw_refuted",
    "C150_no_raw"
   ],
   "note": "REFUTED in general (C150_raw_refuted): a write reads the raw mode of its file before it takes the mutex, ULOGGER_SET_RAW_MODE changes it with the mutex held; a record of the old mode can land after records written in the new one. Proved whenever no raw mode is changed in the middle of a write to the same file, in particular when no task changes a raw mode (C150_no_raw); Without any hypothesis on the schedule: C150_modes (every execution is serial when a write may be done in another raw mode than that of its file at that moment), C150_device (every device reached by tasks is reached by a sequence of operations)."
  },
  {
   "property": "C151",
   "status": "partial",
   "theorems": [
    "C151_colour_partial",
    "C151_cyan_refuted",
    "C151_yellow_refuted"
   ],
   "note": "REFUTED for cyan: the entry of shdcolor commented as cyan is 0xFFFF00, the value of yellow; proved for the seven other colours."
  },
  {
   "property": "C152",
   "status": "proved",
   "theorems": [
    "C152_sources"
   ],
   "note": "All schedules, also those in which raw modes change in the middle of writes. Files opened without the right to read everything are left to C01 and C140, which are about calls made one at a time."
  },
  {
   "property": "C153",
   "status": "proved",
   "theorems": [
    "C153_screen",
    "C153_runs"
   ],
   "note": ""
  },
  {
   "property": "C154",
   "status": "partial",
   "theorems": [
    "C154_once_partial",
    "C154_lines_refuted",
    "C154_output_refuted"
   ],
   "note": "REFUTED in general: in a shell that writes line by line (bash), the second line of uloge \"no link\\ngiving up\" is an entry of its own that shows at level I without tag (C154_lines_refuted); redirected output that does not end with an end of line loses its last byte on the screen (C154_output_refuted). Holds for one-line texts, and for all texts in shells that write when the builtin ends."
  },
  {
   "property": "C155",
   "status": "partial",
   "theorems": [
    "C155_console_partial",
    "C155_console_refuted"
   ],
   "note": "REFUTED in general: the message is used as a format, so the copy of \"100%done\" is \"1000one\" and that of \"C:\\new\" has an end of line in it (C155_console_refuted). Holds for texts without per cent signs and backslashes, and without condition on texts if no copy is asked for."
  },
  {
   "property": "C156",
   "status": "partial",
   "theorems": [
    "C156_variables_partial",
    "C156_variables_refuted"
   ],
   "note": "REFUTED in general: level and message are global variables in ulog, so a script's own variables of these names are overwritten by every message (C156_variables_refuted). Holds for all other names but ulog_tag, which is set to its default by the first message."
  },
  {
   "property": "C157",
   "status": "partial",
   "theorems": [
    "C157_open",
    "C157_creates",
    "C157_other_device_refuted"
   ],
   "note": "REFUTED in one respect: a constructor that raises may have created another device, as the digits after 10 letters of the name are taken for the size (C157_other_device_refuted). Everything else is proved for all names, devices and answers (C157_open, C157_creates)."
  },
  {
   "property": "C158",
   "status": "partial",
   "theorems": [
    "C158_identity_partial",
    "C158_fork_refuted",
    "C158_machine_refuted",
    "C158_zero_refuted"
   ],
   "note": "REFUTED: a child made by fork logs the id of the parent (C158_fork_refuted); where system call 186 is not gettid the thread is wrong (C158_machine_refuted); the thread id 0 and an empty thread name cannot be set (C158_zero_refuted). C158_identity_partial is the claim without these cases and for thread names in ASCII (C89_thread_name_refuted for others)."
  },
  {
   "property": "C159",
   "status": "partial",
   "theorems": [
    "C159_near",
    "C159_any_clock",
    "C159_monotone",
    "C159_exact_refuted",
    "C159_late_refuted"
   ],
   "note": "REFUTED in the last sentence: most times are not representable as a double (C159_exact_refuted), and from 2^31 seconds on the seconds wrap (C159_late_refuted). The bounds and the order are proved for all readings, with the rounding of the product (C159_near, C159_any_clock, C159_monotone)."
  },
  {
   "property": "C160",
   "status": "partial",
   "theorems": [
    "C160_load_partial",
    "C160_register_refuted",
    "C160_attribute_refuted",
    "C160_memory_refuted",
    "C160_unload"
   ],
   "note": "REFUTED for loading: a failed registration leaks the buffer (C160_register_refuted), a failed attribute leaves the device registered while the code goes (C160_attribute_refuted), and without memory for the buffer loading succeeds all the same (C160_memory_refuted). Proved: loading when the kernel refuses nothing (C160_load_partial), and all of unloading (C160_unload)."
  },
  {
   "property": "C161",
   "status": "partial",
   "theorems": [
    "C161_screen_partial",
    "C161_plain",
    "C161_own_refuted"
   ],
   "note": "REFUTED in raw mode for viewers who may read only their own messages (C161_own_refuted): the handler leaves the user of raw entries 0, so only root sees them, and root sees those of everybody. All the rest is proved: without raw mode entirely (C161_plain), in raw mode (C161_screen_partial) in the process that made the handler, where system call 186 is gettid, for ASCII names of threads."
  },
  {
   "property": "C162",
   "status": "partial",
   "theorems": [
    "C162_kept_partial",
    "C162_direct",
    "C162_closed_refuted",
    "C162_reopened_refuted"
   ],
   "note": "REFUTED: the list is never shortened. After the library of a tag in use is closed, every walk of the list reads unmapped memory; opened again at the same place, its tag follows itself in the list: the older tags are lost, and ulog_foreach and ulog_set_tag_level (with the lock held) never end. C162_kept_partial: everything holds as long as no library is closed whose tags are in use. C162_direct: whatever is closed and opened again, the calls that do not go through the list work as expected. One thread, the level of the environment is an oracle."
  }
 ]
}