{"id": "C01", "title": "Reads return exactly the written entries", "statement": "Every successful read() on a log device by a reader allowed to see all entries, other than a drop report, returns exactly one complete entry that was previously accepted by the device: header and payload byte for byte, in acceptance order, never twice, never a fragment or a mixture of two entries.", "quantifier": "every device size accepted by the driver, every finite interleaving of writes (with every iovec split and every size), reads, opens, closes, polls, ioctls, failed copies, by any number of files", "why_tests_cant": "the ring wraps at arbitrary positions and the entry header itself may straddle the wrap; a test covers a handful of wrap offsets and histories", "anchors": ["kernel/ulogger-6.x.c: ulogger_read, do_read_log_to_user, get_entry_header, do_write_log, do_write_log_from_user, ulogger_write_iter, fix_up_readers, get_next_entry"]}
{"id": "C02", "title": "No silent loss: drop accounting is exact", "statement": "When an unrestricted reader receives an entry, the number of entries accepted by the device before it (since creation or the last flush) equals the number of entries this reader has received plus the sum of all drop counts reported to it so far. So every entry is either delivered or counted in a drop report delivered before the next entry.", "quantifier": "every history of operations by any number of readers and writers, any device size, readers opened at any time", "why_tests_cant": "depends on the unbounded history of laps and on which readers are lapped by which write", "anchors": ["kernel/ulogger-6.x.c: fix_up_readers, get_next_entry, is_between, do_read_drop_summary, ulogger_open, ulogger_ioctl(FLUSH_LOG)"]}
{"id": "C03", "title": "Failed reads consume nothing", "statement": "A read() that fails because the buffer is too small (EINVAL) or faulty (EFAULT), or that returns EAGAIN/EINTR, loses nothing: the next successful read by that file returns exactly what it would have returned without the failed call, and no other file can tell the difference.", "quantifier": "every reachable device state, every buffer size and every fault position in the user buffer", "why_tests_cant": "fault positions and device states cannot be enumerated", "anchors": ["kernel/ulogger-6.x.c: ulogger_read, do_read_drop_summary, do_read_log_to_user"]}
{"id": "C04", "title": "A faulting write never creates or corrupts an entry", "statement": "A write() that fails with EFAULT at any point of its copy creates no entry for anybody; every entry that any reader can still read afterwards is intact, and entries it displaced are counted as dropped.", "quantifier": "every reachable device state, every iovec list, every fault position", "why_tests_cant": "needs a crash point inside the copy at every possible ring position", "anchors": ["kernel/ulogger-6.x.c: do_write_log_from_user, ulogger_write_iter, fix_up_readers"]}
{"id": "C05", "title": "The driver never touches memory outside the ring buffer", "statement": "No sequence of system calls makes the driver read or write outside the memory of the log buffer, or run an unbounded scan of it.", "quantifier": "every accepted device size, every history of operations, every payload content (including payloads that look like headers)", "why_tests_cant": "absence of an out-of-bounds access over all histories is not testable", "anchors": ["kernel/ulogger-6.x.c: get_entry_header, do_read_log_to_user, do_write_log, do_write_log_from_user, get_next_entry, get_next_entry_by_uid"]}
{"id": "C06", "title": "A restricted reader only ever receives its own entries", "statement": "A reader opened without group membership or CAP_SYS_ADMIN never receives, in any read, the payload or header of an entry whose recorded effective uid differs from the uid of the calling process.", "quantifier": "every history, every mix of writers with different uids, normal or raw mode", "why_tests_cant": "a confidentiality property over all histories", "anchors": ["kernel/ulogger-6.x.c: ulogger_open(r_all), get_next_entry_by_uid, ulogger_read"]}
{"id": "C07", "title": "Sender identity in an entry cannot be forged without raw mode", "statement": "Whatever bytes a process writes to a file not switched to raw mode, the entry a reader gets carries the pid, tid, effective uid, time and process/thread names of the writing task, with the written bytes only after the names.", "quantifier": "every payload, every iovec split, every history", "why_tests_cant": "adversarial payloads (e.g. embedded fake headers) are unbounded", "anchors": ["kernel/ulogger-6.x.c: ulogger_write_iter, ulogger_ioctl(SET_RAW_MODE)"]}
{"id": "C08", "title": "Flush hides everything written before it", "statement": "After a successful FLUSH_LOG no reader, already open or opened later, ever receives an entry accepted before the flush, nor a drop report counting such an entry.", "quantifier": "every history before and after the flush, any number of readers", "why_tests_cant": "quantifies over all later histories", "anchors": ["kernel/ulogger-6.x.c: ulogger_ioctl(FLUSH_LOG), ulogger_open"]}
{"id": "C09", "title": "poll() is exact", "statement": "poll() reports a file readable if and only if an immediately following non-blocking read by the same process does not return EAGAIN.", "quantifier": "every reachable state, restricted and unrestricted readers, every caller uid", "why_tests_cant": "state space unbounded; the restricted case depends on which uids wrote the backlog", "anchors": ["kernel/ulogger-6.x.c: ulogger_poll, ulogger_read, get_next_entry_by_uid"]}
{"id": "C10", "title": "GET_NEXT_ENTRY_LEN gives the size needed by the next read", "statement": "The value returned by GET_NEXT_ENTRY_LEN is the size returned by the next read (0 when there is nothing to read), so a buffer of that size is always large enough.", "quantifier": "every reachable state and reader", "why_tests_cant": "false exactly in states with a pending drop report, which tests with short histories never reach", "anchors": ["kernel/ulogger-6.x.c: ulogger_ioctl(GET_NEXT_ENTRY_LEN), do_read_drop_summary, ulogger_read"]}
{"id": "C11", "title": "GET_LOG_LEN is the size of the unread backlog", "statement": "GET_LOG_LEN returns the exact number of bytes (24-byte headers included) of the entries the file has not yet read; it is 0 exactly when nothing is left, and always smaller than the buffer size.", "quantifier": "every reachable state, including wrapped buffers", "why_tests_cant": "wrap positions and histories are unbounded", "anchors": ["kernel/ulogger-6.x.c: ulogger_ioctl(GET_LOG_LEN)"]}
{"id": "C12", "title": "An accepted write is stored whole up to the payload limit", "statement": "A successful write in normal mode stores one entry whose payload is the first 4076 bytes of process name, thread name (if not the main thread) and the concatenation of the given buffers; the return value is the number of the caller's bytes that were kept, and the split of the bytes into iovecs is irrelevant.", "quantifier": "every iovec list (including empty and zero-length vectors), every task name, every ring position", "why_tests_cant": "all splits and all sizes around the limit and the wrap point", "anchors": ["kernel/ulogger-6.x.c: ulogger_write_iter, do_write_log, do_write_log_from_user"]}
{"id": "C13", "title": "No unnecessary loss", "statement": "A write drops entries for a reader only if the reader's unread bytes plus the new entry reach the buffer size; then it drops the oldest entries only, a minimal run of them covering the size of the new entry; the new entry itself is always readable by every open unrestricted reader.", "quantifier": "every reachable state, every entry size", "why_tests_cant": "the capacity argument concerns every fill level and wrap position", "anchors": ["kernel/ulogger-6.x.c: fix_up_readers, is_between, get_next_entry"]}
{"id": "C14", "title": "Readers are independent", "statement": "What one file observes (results of its reads, polls and ioctls) does not depend on the reads, polls, opens, closes, version changes or length queries of other files: only on writes and flushes.", "quantifier": "every history and every pair of files", "why_tests_cant": "non-interference over all interleavings", "anchors": ["kernel/ulogger-6.x.c: ulogger_read, ulogger_open, ulogger_release, ulogger_poll, ulogger_ioctl"]}
{"id": "C15", "title": "Protocol version only changes the header layout", "statement": "A file set to version 1 receives the same entries in the same order with a 20-byte header holding the same len, pid, tid, sec and nsec and the identical payload; the version may be switched at any time without losing or repeating an entry; other values are rejected.", "quantifier": "every reachable state, every version argument", "why_tests_cant": "switching at every point of every history", "anchors": ["kernel/ulogger-6.x.c: copy_header_to_user, get_user_hdr_len, ulogger_set_version"]}
{"id": "C16", "title": "A late reader gets the retained backlog and an exact drop count", "statement": "A reader opened at any time first gets a drop report whose count is the number of entries accepted since the last flush and no longer retained (no report if that number is 0), then the retained entries in order. If any are missing, those retained take more than 2^pow2 - 12300 bytes.", "quantifier": "every history before the open", "why_tests_cant": "unbounded histories", "anchors": ["kernel/ulogger-6.x.c: ulogger_open, fix_up_readers"]}
{"id": "C17", "title": "The device registry stays consistent", "statement": "After any sequence of additions through sysfs the registered devices have pairwise distinct names, each made of ulog_ plus at most ten lower-case letters, a size between 16 kB and 16 MB that is a power of two, and there are at most 16 of them; a refused addition changes nothing and devices never disappear or change size; reading the list back gives every device with its size.", "quantifier": "every sequence of specification strings", "why_tests_cant": "all strings and all sequences", "anchors": ["kernel/ulogger-6.x.c: ulogger_add_log, check_buf_size, ulogger_show_logs, ulogger_init"]}
{"id": "C18", "title": "A blocked reader is never stranded", "statement": "A task sleeping in read() on an empty log is woken whenever an entry becomes available: there is no interleaving of a write with the reader's decision to sleep after which the reader sleeps although an entry is available and no wake-up is on its way.", "quantifier": "every interleaving of any number of readers and writers at the granularity of lock and wait-queue operations", "why_tests_cant": "lost-wakeup windows are schedule dependent", "anchors": ["kernel/ulogger-6.x.c: ulogger_read (prepare_to_wait/schedule/finish_wait), ulogger_write_iter (wake_up_interruptible)"]}
{"id": "C19", "title": "Parsing never leaves the buffer", "statement": "Parsing an entry never reads or writes a byte outside the len bytes handed to the parser, whatever they contain.", "quantifier": "every byte string and length, every pid/tid", "why_tests_cant": "all malformed and truncated payloads", "anchors": ["libulog/ulog_read.c: get_token, ulog_parse_payload, ulog_parse_payload_unformatted, ulog_parse_buf, ulog_parse_raw"]}
{"id": "C20", "title": "Parsed strings are always terminated inside the entry", "statement": "After a successful parse the process name, thread name, tag and (for a text entry) message are NUL-terminated strings lying entirely inside the entry or constant strings, and for a text entry len is the length of the message plus one.", "quantifier": "every byte string and length", "why_tests_cant": "all malformed and truncated payloads", "anchors": ["libulog/ulog_read.c: ulog_parse_payload, ulog_parse_payload_unformatted"]}
{"id": "C21", "title": "A logged text message is read back unchanged", "statement": "A text message logged through the library on the kernel device and read back by any unrestricted reader parses to the same priority, colour, tag, process and thread name, pid, tid, time and message, for every message that fits in the entry, and to a prefix of the message otherwise.", "quantifier": "every message, tag, priority word, task identity, ring position and history", "why_tests_cant": "end-to-end over all contents and wrap positions", "anchors": ["libulog/ulog_write.c: __writer_kernel, ulog_log_str", "kernel/ulogger-6.x.c: ulogger_write_iter, ulogger_read", "libulog/ulog_read.c: ulog_parse_raw, ulog_parse_payload"]}
{"id": "C22", "title": "Binary data is read back unchanged", "statement": "Binary data logged through the library and read back parses to the binary flag and exactly the same bytes (including zero bytes), for all data that fit in one entry.", "quantifier": "every byte string", "why_tests_cant": "all contents, including embedded NULs", "anchors": ["libulog/ulog_write.c: __writer_kernel, ulog_log_buf", "libulog/ulog_write_bin.c: ulog_bin_writev", "libulog/ulog_read.c: ulog_parse_payload"]}
{"id": "C23", "title": "A raw entry is read back unchanged", "statement": "An entry imported with ulog_raw_log/ulog_raw_logv is read back with the given pid, tid, time, euid, names, priority, tag and message; an entry with pid and tid both -1 is refused, so a client using this API cannot forge drop reports.", "quantifier": "every raw entry and iovec split", "why_tests_cant": "all field values and splits", "anchors": ["libulog/ulog_write_raw.c: ulog_raw_log, ulog_raw_logv", "kernel/ulogger-6.x.c: ulogger_write_iter", "libulog/ulog_read.c: ulog_parse_raw"]}
{"id": "C24", "title": "Drop reports are well formed", "statement": "A drop report parses as a text entry with pid = tid = -1, warning priority, the device name as tag, and a message giving the number of dropped entries in decimal, without leading zeros.", "quantifier": "every drop count and device name", "why_tests_cant": "all counts (including beyond 31 bits) and names", "anchors": ["kernel/ulogger-6.x.c: do_read_drop_summary", "libulog/ulog_read.c: ulog_parse_payload"]}
{"id": "C25", "title": "Inconsistent raw buffers are refused", "statement": "ulog_parse_raw succeeds only if the buffer holds a complete header and exactly the payload length announced by it; otherwise it returns an error and changes nothing.", "quantifier": "every buffer and length", "why_tests_cant": "all inconsistent length fields", "anchors": ["libulog/ulog_read.c: ulog_parse_raw"]}
{"id": "C26", "title": "Chunked binary writes can be reassembled", "statement": "When ulog_bin_writev_chunk succeeds, the entries it wrote, in order, each consist of the given header, a one-byte chunk number counting 0,1,2,... modulo 256, and a piece of data, and concatenating the pieces gives exactly the concatenated input; no piece is empty.", "quantifier": "every data, every iovec split (including empty vectors), every tag and header size", "why_tests_cant": "all splits relative to the chunk boundary", "anchors": ["libulog/ulog_write_bin.c: ulog_bin_writev_chunk, compute_max_chunk_len"]}
{"id": "C27", "title": "Chunks are never truncated by the kernel", "statement": "Each chunk written by ulog_bin_writev_chunk fits in one kernel entry whatever the (at most 15 character) process and thread names are, so nothing is cut; header and tag sizes that leave no room are refused before anything is written.", "quantifier": "every tag size, header size, data and task name", "why_tests_cant": "size arithmetic at all boundaries", "anchors": ["libulog/ulog_write_bin.c: compute_max_chunk_len, ulog_bin_writev_chunk", "kernel/ulogger-6.x.c: ulogger_write_iter"]}
{"id": "C28", "title": "The chunk writer stays inside its vectors and terminates", "statement": "ulog_bin_writev_chunk never reads past the caller's iovec array or past a vector's end, never writes past its own vector array, and terminates; it stops at the first failing write, having written a prefix of the chunks.", "quantifier": "every iovec list, every position of a failing write", "why_tests_cant": "all splits and failure positions", "anchors": ["libulog/ulog_write_bin.c: ulog_bin_writev_chunk"]}
{"id": "C29", "title": "A tag is registered exactly once under any schedule", "statement": "However many threads use tags for the first time concurrently, every used tag ends up exactly once in the tag list, its level goes from unset to a valid value exactly once by initialisation, the registration hook runs at most once per tag, and the list is never corrupted.", "quantifier": "every number of threads and tags, every interleaving at the granularity of lock operations and shared-memory accesses", "why_tests_cant": "schedules cannot be enumerated by tests", "anchors": ["libulog/ulog_write.c: ulog_init_cookie, ulog_foreach, ulog_get_tag_names"]}
{"id": "C30", "title": "Explicitly set levels are not lost", "statement": "Once ulog_set_level has returned, no concurrent or later first-use initialisation of the same tag changes the level: later filtering uses the last level set.", "quantifier": "every interleaving of initialisation and level setting", "why_tests_cant": "schedule dependent", "anchors": ["libulog/ulog_write.c: ulog_set_level, ulog_init, ulog_init_cookie"]}
{"id": "C31", "title": "Initial level precedence", "statement": "The level of a tag on first use is taken from ULOG_LEVEL_<tag>, else ULOG_LEVEL, else the level of the empty tag if set, else Info; it is always between 0 and 7.", "quantifier": "every environment, tag name and value", "why_tests_cant": "all environments; long tag names exceed the lookup buffer", "anchors": ["libulog/ulog_write.c: ulog_init_cookie, parse_level"]}
{"id": "C32", "title": "Filtering decision", "statement": "A message is handed to the writer if and only if its priority (low three bits) is at most the current level of its tag; level setters clamp to 0..7, so Emergency-level messages are never filtered and a tag at Debug level never filters.", "quantifier": "every priority word, every level argument, every history of level changes", "why_tests_cant": "all priority words (colour and flag bits) and all level integers", "anchors": ["libulog/ulog_write.c: ulog_log_str, ulog_log_buf, ulog_set_level, ulog_get_level", "libulog/include/ulog.h: ulog_log"]}
{"id": "C33", "title": "Setting a level by name affects exactly the named tag", "statement": "ulog_set_tag_level returns 0 and sets the level of the tag if a tag of that name is registered, returns -1 and changes nothing otherwise; all other tags keep their levels.", "quantifier": "every registry content and name", "why_tests_cant": "all registries", "anchors": ["libulog/ulog_write.c: ulog_set_tag_level"]}
{"id": "C34", "title": "Tag enumeration is complete and bounded", "statement": "ulog_get_tag_names never writes beyond the given array and returns all registered names when the array is large enough (the most recently registered ones otherwise); ulog_foreach visits every registered tag except the empty one exactly once, including under concurrent registration (tags registered before the call).", "quantifier": "every registry and array size, every interleaving with registrations", "why_tests_cant": "all sizes and schedules", "anchors": ["libulog/ulog_write.c: ulog_get_tag_names, ulog_foreach"]}
{"id": "C35", "title": "Formatted messages are bounded and terminated", "statement": "A formatted message reaches the writer as the first 255 bytes of the formatted text followed by one NUL, with len equal to its length plus one; a formatting error writes nothing.", "quantifier": "every formatted text", "why_tests_cant": "all lengths around the limit", "anchors": ["libulog/ulog_write.c: ulog_vlog_write, ulog_log_write"]}
{"id": "C36", "title": "A custom writer stays in force", "statement": "After ulog_set_write_func succeeded, every later message goes to that function, and ulog_get_write_func returns it, until another function is set.", "quantifier": "every history of API calls (including device changes) and environments", "why_tests_cant": "order-dependent histories of API calls", "anchors": ["libulog/ulog_write.c: ulog_set_write_func, ulog_get_write_func, ulog_set_log_device, __writer_init, __ctrl_init"]}
{"id": "C37", "title": "The writer is initialised exactly once under concurrency", "statement": "If several threads log their first message concurrently the device is opened exactly once and every message is handed to the real writer exactly once (none is lost or duplicated by initialisation).", "quantifier": "every interleaving of any number of first messages", "why_tests_cant": "schedule dependent", "anchors": ["libulog/ulog_write.c: __writer_init, __ctrl_init"]}
{"id": "C38", "title": "The chosen device name is never truncated", "statement": "When ulog_set_log_device accepts a name, the next message opens exactly /dev/ulog_<name>; too long names are refused and change nothing.", "quantifier": "every name, environment and previous state", "why_tests_cant": "all lengths around the limit", "anchors": ["libulog/ulog_write.c: ulog_set_log_device, __ctrl_init"]}
{"id": "C39", "title": "Throttled logging", "statement": "A throttled call site never emits two messages less than the delay apart, emits the first message, and each emitted message that follows masked ones carries their exact number, so that emitted plus announced masked equals the number of calls so far.", "quantifier": "every sequence of call times of one thread and every delay", "why_tests_cant": "all time sequences", "anchors": ["libulog/include/ulog.h: ulog_log_throttle"]}
{"id": "C40", "title": "Change-filtered logging", "statement": "A change-filtered call site emits exactly when the value differs from the value at the previous call, or at the first call.", "quantifier": "every sequence of values", "why_tests_cant": "all sequences", "anchors": ["libulog/include/ulog.h: ulog_log_change"]}
{"id": "C41", "title": "Stderr copy has exactly one line end per text message", "statement": "With stderr copying enabled every text message given with its terminating NUL appears on stderr once, prefixed by level and tag and ending with a line feed, without an additional one if the message already ends with one; binary messages do not appear; the underlying writer always gets the message.", "quantifier": "every message, length and priority word", "why_tests_cant": "all contents", "anchors": ["libulog/ulog_write.c: __writer_stderr, __writer_stderr_wrapper, __writer_stderr_wrapper_color"]}
{"id": "C42", "title": "The frame pool of the log reader is never exhausted and never leaks", "statement": "In any run of the log reader, over any number of devices and any tail setting of zero or more (negative ones: C65), every frame is in exactly one of the free, pending and tail queues, a free frame is always available when an entry is to be read, and each device has at most one pending entry.", "quantifier": "every number of devices and tail size, every sequence of poll and read results", "why_tests_cant": "all schedules of device activity", "anchors": ["ulogcat/libulogcat_core.c: alloc_frame, free_frame, process_devices, enqueue_render, flush_render_frame, flush_pending_frame, process_tail_flush, ulogcat3_open"]}
{"id": "C43", "title": "The log reader merges devices by time", "statement": "Given devices (ulog devices, and any device whose reading does not use up the amount announced at opening; the kernel log: C66) whose content does not change during the run and whose entries carry non-decreasing times, the dump prints every displayable entry exactly once, in non-decreasing time, keeping each device's own order.", "quantifier": "every number of devices and every content", "why_tests_cant": "all merges", "anchors": ["ulogcat/libulogcat_core.c: process_devices, find_oldest_pending_frame, flush_pending_queue, ulogcat3_process_logs"]}
{"id": "C44", "title": "Tail mode shows exactly the last N entries", "statement": "With -d -t N over devices whose content does not change, exactly the last min(N,total) entries of the merged order are printed.", "quantifier": "every N >= 1, every number of devices and content", "why_tests_cant": "all sizes", "anchors": ["ulogcat/libulogcat_core.c: enqueue_render, process_tail_flush, process_devices, update_mark_reached"]}
{"id": "C45", "title": "Dump mode terminates", "statement": "In dump mode (-d) the reader stops after having printed what was in the buffers when it started, even if other processes keep logging.", "quantifier": "every behaviour of concurrent writers", "why_tests_cant": "depends on an unbounded environment", "anchors": ["ulogcat/libulogcat_ulog.c: ulog_receive_entry, add_ulog_device", "ulogcat/libulogcat_core.c: update_mark_reached, process_devices, ulogcat3_process_logs"]}
{"id": "C46", "title": "Rendering never overruns the output buffer", "statement": "Rendering any entry in any format writes only inside the render buffer and hands to the output only bytes that were written.", "quantifier": "every entry content, format, colour setting", "why_tests_cant": "all contents, lengths and line splits", "anchors": ["ulogcat/libulogcat_text.c: text_render_frame, print_ulog_line, print_klog_line, print_log_line_csv"]}
{"id": "C47", "title": "CSV output is lossless", "statement": "A CSV line consists of the eleven comma separated fields and a payload whose announced length is its actual length, ending with a line feed; for binary entries the payload decodes (hex) to exactly the entry's bytes; every entry is printed.", "quantifier": "every entry", "why_tests_cant": "all contents and lengths", "anchors": ["ulogcat/libulogcat_text.c: print_log_line_csv"]}
{"id": "C48", "title": "Multi-line messages are split on line boundaries", "statement": "In text formats each line of a message is printed on its own output line with the full prefix, in order, without losing text, for every message whose rendering fits in the buffer.", "quantifier": "every message", "why_tests_cant": "all newline placements", "anchors": ["ulogcat/libulogcat_text.c: text_render_frame, print_log_line"]}
{"id": "C49", "title": "Kernel record unescaping is exact", "statement": "The text shown for a kernel record is the original text: undoing the kernel's \\xNN escaping gives back the original bytes, and unescaping never writes beyond the text it reads.", "quantifier": "every record text", "why_tests_cant": "all byte strings", "anchors": ["ulogcat/libulogcat_klog.c: klog_parse_entry, hex2dec"]}
{"id": "C50", "title": "Kernel message prefixes are decoded", "statement": "A kernel line <P>[sec.usec] text relayed through kmsgd is shown with priority P mod 8, the given time and exactly the remaining text; lines without the prefix or the time are shown unchanged.", "quantifier": "every line", "why_tests_cant": "all malformed prefixes", "anchors": ["ulogcat/libulogcat_klog.c: parse_prefix, parse_timestamp, kmsgd_fix_entry"]}
{"id": "C51", "title": "Intrusive lists behave as queues", "statement": "The reader's linked lists behave as FIFO queues: appending adds at the end, removing takes out exactly that element wherever it is; removing a node a second time without intervening changes is harmless.", "quantifier": "every list content and every element", "why_tests_cant": "all list shapes", "anchors": ["ulogcat/libulogcat_list.h: list_init, list_add_tail, list_remove", "ulogcat/libulogcat_core.c: ulogcat3_close, log_device_destroy"]}
{"id": "C52", "title": "The kernel message relay keeps lines whole", "statement": "kmsgd relays each line of the kernel stream as exactly one message, independently of how the stream is split into reads, for lines shorter than its buffer.", "quantifier": "every stream and every split into read() results", "why_tests_cant": "all splits", "anchors": ["kmsgd/kmsgd.c: main"]}
{"id": "C53", "title": "Shared-memory log samples round-trip", "statement": "A message logged through the shared-memory backend and relayed by the shared-memory log daemon appears with the same priority, thread name, tag and text, truncated to the sample size but never overrunning it.", "quantifier": "every message, tag and thread name", "why_tests_cant": "all lengths", "anchors": ["ulog_shd/src/ulog.c: ulog_vlog_write", "shdlogd/src/shdlogd.c: fill_raw_entry"]}
{"id": "C54", "title": "Lost shared-memory samples are counted", "statement": "When the relay finds a gap between consecutive sample indices it reports the number of missing samples, exact for gaps below the index period, across index wrap-around.", "quantifier": "every pair of consecutive indices seen", "why_tests_cant": "all wrap-around positions", "anchors": ["shdlogd/src/shdlogd.c: read_samples"]}
{"id": "C55", "title": "syslog wrapper keeps the mask contract", "statement": "setlogmask in the syslog wrapper returns the previous mask, leaves the mask unchanged for argument 0, and afterwards a syslog message is emitted exactly if its priority is in the mask (for masks of the form LOG_UPTO).", "quantifier": "every mask and priority", "why_tests_cant": "all mask values", "anchors": ["ulogwrapper/ulog_syslog.c: setlogmask, syslog, vsyslog"]}
{"id": "C56", "title": "Foreign log levels map monotonically", "statement": "The redirections from GLib, GStreamer and OBus levels to ulog levels preserve the order of severities.", "quantifier": "every source level value (including combined flag words)", "why_tests_cant": "all flag combinations", "anchors": ["libulog-redirect/ulog_glib.c", "libulog-redirect/ulog_gst.c", "libulog-redirect/ulog_obus.c"]}
{"id": "C57", "title": "C++ stream logging loses no text", "statement": "Text written to a C++ log stream is emitted completely and in order, in pieces that never exceed the buffer, at the level of the stream it was written to.", "quantifier": "every sequence of writes and flushes on the streams of one thread", "why_tests_cant": "all interleavings of streams and buffer fill levels", "anchors": ["libulog/ulog.cpp: Ulogstream"]}
{"id": "C58", "title": "The control client reports each request exactly once", "statement": "Every request accepted by the control client (set tag level, set all, list) gets exactly one status notification, done or error, before another request is accepted; while one is outstanding others are refused with EBUSY; requests are refused when not started.", "quantifier": "every sequence of API calls and network events", "why_tests_cant": "all event interleavings", "anchors": ["libulogctl/src/ulogctl_cli.c: ulogctl_cli_set_tag_level, ulogctl_cli_set_all_level, ulogctl_cli_list, ulogctl_cli_stop, event_cb, send_cb, decode_list_end_msg"]}
{"id": "C59", "title": "The control server lists exactly the registered tags", "statement": "A list request returns exactly the registered tags with their current levels followed by one end marker, and the client hands them to the application in increasing name order; set-level requests change exactly the requested tags.", "quantifier": "every registry content and request sequence", "why_tests_cant": "all registries", "anchors": ["libulogctl/src/ulogctl_srv.c", "libulogctl/src/ulogctl_cli.c: decode_tag_info_msg, decode_list_end_msg"]}
{"id": "C60", "title": "Registry calls cannot deadlock", "statement": "At every moment of every execution, every thread inside a registry call (first use of a tag, level setting by tag or by name, enumeration, hook registration) can be brought to return by some continuation: no lock is left taken, taken twice by the same thread, or taken in a cycle, and no walk of the tag list is endless.", "quantifier": "every number of threads, every reachable interleaving", "why_tests_cant": "deadlocks depend on the schedule; tests see a handful of schedules", "anchors": ["libulog/ulog_write.c: ulog_init_cookie, ulog_set_tag_level, ulog_get_tag_names, ulog_foreach, ulog_set_cookie_register_func"]}
{"id": "C61", "title": "Changing the device leaks no descriptor", "statement": "Whatever the sequence of messages, writer changes and device changes, the library holds at most one descriptor open on a log device.", "quantifier": "every interleaving of API calls, every answer of open and fstat", "why_tests_cant": "order-dependent histories, unusual descriptor numbers", "anchors": ["libulog/ulog_write.c: ulog_set_log_device, __ctrl_init"]}
{"id": "C62", "title": "Messages are written to an open descriptor", "statement": "Every message written to the kernel device is written to a descriptor the library has opened and not yet closed.", "quantifier": "every interleaving of messages, writer changes and device changes by any number of threads", "why_tests_cant": "schedule dependent: the window between reading the writer and writev is a few instructions", "anchors": ["libulog/ulog_write.c: __writer_kernel, ulog_set_log_device, __ctrl_init"]}
{"id": "C63", "title": "The device named by the environment is opened under its name", "statement": "When no device was chosen through the API the device opened is /dev/ulog_ followed by the whole value of ULOG_DEVICE, or /dev/ulog_main if the variable is not set.", "quantifier": "every environment and history of API calls", "why_tests_cant": "all lengths around the limit", "anchors": ["libulog/ulog_write.c: __ctrl_init"]}
{"id": "C64", "title": "Device registration handles memory exactly", "statement": "Whatever allocations and registrations fail, a refused addition of a device frees every block it allocated, unloading the module frees every block exactly once and leaves none, and no request crashes the kernel.", "quantifier": "every sequence of specification strings and every pattern of allocation and registration failures", "why_tests_cant": "all failure patterns", "anchors": ["kernel/ulogger-6.x.c: ulogger_add_log, ulogger_init, ulogger_exit"]}
{"id": "C65", "title": "Every tail setting is handled", "statement": "For every number given with -t, the reader with -d ends after printing (at most that number of entries); it never spins without reading.", "quantifier": "every tail value, negative ones included", "why_tests_cant": "an endless loop shows only as absence of output, for values nobody tries", "anchors": ["ulogcat/ulogcat.c: main (-t)", "ulogcat/libulogcat_core.c: process_tail_flush, ulogcat3_open"]}
{"id": "C66", "title": "A dump of the kernel log is complete", "statement": "With -d -k over a kernel log that does not change, every record is printed exactly once.", "quantifier": "every content of the kernel log, including records whose formatted text is longer than the raw one", "why_tests_cant": "depends on content whose formatting expands, rare in tests", "anchors": ["ulogcat/libulogcat_klog.c: add_klog_device, klog_receive_entry", "ulogcat/libulogcat_core.c: update_mark_reached, process_devices"]}
{"id": "C67", "title": "Rendered messages are complete lines", "statement": "In text formats the output for an entry consists of complete lines ending with a line feed, contains no NUL byte unless a name does, and contains the whole message.", "quantifier": "every message a log record can hold, every format", "why_tests_cant": "only messages with many short lines overflow the render buffer", "anchors": ["ulogcat/libulogcat_text.c: text_render_frame, print_ulog_line, print_klog_line", "ulogcat/libulogcat_core.c: output_rendered"]}
{"id": "C68", "title": "Decoding an entry of the kmsgd device reads only the bytes of its record, binary entries included", "statement": "When the log reader decodes an entry relayed by kmsgd (the entries of the kmsgd device), the decoder only reads bytes that belong to the received record, whether the entry is text or flagged binary; what is shown depends on no byte outside the record, and no read leaves the frame buffer.", "quantifier": "for every received record of the kmsgd device, for every previous content of the frame buffer, in every output mode", "why_tests_cant": "Records of ordinary kernel lines are terminated by a NUL, so a test with such records never reads past the end; only a binary record, whose payload need not hold a NUL, makes the decoder run over the leftover bytes of an earlier, longer frame.", "anchors": ["ulogcat/libulogcat_klog.c: kmsgd_fix_entry, parse_prefix, parse_timestamp", "ulogcat/libulogcat_ulog.c: ulog_parse_kmsgd_entry, ulog_receive_entry", "ulogcat/libulogcat_text.c: print_log_line_csv"]}
{"id": "C69", "title": "GStreamer entries stay in their buffer", "statement": "Every GStreamer message that passes the filters is emitted as location, object, colon and message, cut to the 2047 bytes of the entry buffer, and nothing is written outside the buffer.", "quantifier": "every location, object name and message", "why_tests_cant": "all lengths of the three parts", "anchors": ["libulog-redirect/ulog_gst.c: gst_log_func, prettify_object"]}
{"id": "C70", "title": "syslog messages keep their text", "statement": "A message sent through the syslog wrapper is emitted with the formatted text, cut to 255 bytes, or whole when long messages are enabled.", "quantifier": "every format, argument list and length", "why_tests_cant": "all formats and lengths", "anchors": ["ulogwrapper/ulog_syslog.c: ulog_vlog_notruncate"]}
{"id": "C71", "title": "openlog names the messages", "statement": "After openlog with an identifier, messages sent through the syslog wrapper carry that identifier as their tag.", "quantifier": "every sequence of calls", "why_tests_cant": "all call orders", "anchors": ["ulogwrapper/ulog_syslog.c: openlog, syslog"]}
{"id": "C72", "title": "Malformed control messages are harmless", "statement": "A control message that cannot be decoded changes nothing on the server, and neither the server nor the client reads an invalid address because of it.", "quantifier": "every sequence of messages, well formed or not, and every registry", "why_tests_cant": "all malformed messages and interleavings", "anchors": ["libulogctl/src/ulogctl_cli.c: decode_tag_info_msg, sort_increasing_name, decode_list_end_msg", "libulogctl/src/ulogctl_srv.c: process_msg"]}
{"id": "C73", "title": "Done means sent", "statement": "The control client reports a set-level request as done only if its message was sent by the transport; a message aborted by a disconnection is reported as an error.", "quantifier": "every sequence of API calls and transport events", "why_tests_cant": "all orders of abort and disconnection", "anchors": ["libulogctl/src/ulogctl_cli.c: send_cb, event_cb"]}
{"id": "C74", "title": "ulogger relays its input", "statement": "Every byte read from the standard input by the ulogger tool is logged, in order: one message per line, lines longer than 255 bytes being cut, with the tag, name, process number and level given by the last option of each kind.", "quantifier": "every input, every list of options", "why_tests_cant": "all inputs, including NUL bytes and lines around the buffer size", "anchors": ["ulogger/ulogger.c: main, ulogger_log, parse_level"]}
{"id": "C75", "title": "ulogger logs its arguments", "statement": "Every argument given to the ulogger tool is logged as one message, unchanged, in order, with the time of the clock.", "quantifier": "every list of arguments and options", "why_tests_cant": "all argument lists", "anchors": ["ulogger/ulogger.c: main"]}
{"id": "C76", "title": "ulogger takes the times it is given", "statement": "With --time a message preceded by its time is logged with that time and without it in the text; a message not preceded by a time is logged unchanged, and not with the time of another message.", "quantifier": "every input and every list of arguments", "why_tests_cant": "all spellings of times and texts", "anchors": ["ulogger/ulogger.c: parse_time, parse_int32, space_skip, main"]}
{"id": "C77", "title": "ulogger copies to stderr what it logs", "statement": "With --stderr every message logged is copied at once on stderr with the letter of its level and its tag, ended by exactly one line end; without it nothing is copied.", "quantifier": "every run, including failing writes", "why_tests_cant": "all messages and levels", "anchors": ["ulogger/ulogger.c: ulogger_log"]}
{"id": "C78", "title": "ulogger keeps the tag asked for", "statement": "The tag given by --tag is the tag of the messages, whether or not the log device can be opened.", "quantifier": "every list of options and arguments", "why_tests_cant": "all option orders and the missing device", "anchors": ["ulogger/ulogger.c: main"]}
{"id": "C79", "title": "ulogger ends and stays inside its buffers", "statement": "Every run of the ulogger tool on a finite input ends with one exit, without reading outside the strings and tables it uses, and fails only if the device refuses a message.", "quantifier": "every options, arguments, input, clock and device behaviour", "why_tests_cant": "all inputs and failures", "anchors": ["ulogger/ulogger.c: main, parse_int32, parse_time, ulogger_log"]}
{"id": "C80", "title": "The driver versions agree", "statement": "The write functions of the drivers for Linux 3.x, 4.x, 5.x, 6.0 to 6.3 and 6.4 onwards leave the log in the same state and return the same value for the same vectors of user memory, empty segments included; one buffer is a vector of one segment.", "quantifier": "every device state, task, mode and list of segments, accessible or not", "why_tests_cant": "needs several kernels and all vector shapes", "anchors": ["kernel/ulogger-3.x.c: ulogger_aio_write", "kernel/ulogger-4.x.c: ulogger_write_iter, iov_for_each", "kernel/ulogger-6.x.c: ulogger_write_iter"]}
{"id": "C81", "title": "A write stores only its own data, whatever its source", "statement": "A write whose data comes from any kind of source (user vectors, a user buffer, kernel vectors, registered buffers) either fails or adds an entry made of the names and its own data; it never exposes other bytes nor makes the driver read outside the log buffer.", "quantifier": "every device state and every kind of iterator", "why_tests_cant": "iterator kinds that the usual tools never produce", "anchors": ["kernel/ulogger-6.x.c: ulogger_write_iter", "kernel/ulogger-4.x.c: ulogger_write_iter, iov_for_each"]}
{"id": "C82", "title": "ThreadX: the tag registry stays sound under any interleaving", "statement": "Whatever the threads call (initialise, set, get, set or get by name, walk, log) and however their steps interleave, the list of tags has no repetition or cycle, ends with the default tag, holds exactly the tags whose level is set, levels stay within -1 to 7 and each walk visits each tag in use once.", "quantifier": "every number of threads, every sequence of calls and every interleaving, the module becoming ready at any time", "why_tests_cant": "a race window of a few instructions on a platform without sanitizers", "anchors": ["threadx/src/ulog.c: ulog_init_cookie, ulog_init, ulog_set_level, ulog_foreach, ulog_set_tag_level, ulog_get_tag_level, ulog_get_tag_names", "libulog/include/ulog.h: ulog_log"]}
{"id": "C83", "title": "ThreadX: levels", "statement": "The level of a tag is the one set last, cut to 0 to 7, and before any set that of the default tag at the first use; by name the calls reach a tag in use of that name or return -1 and change nothing; before the module is ready no call has any effect.", "quantifier": "every sound registry, tag, name and level", "why_tests_cant": "needs all registries", "anchors": ["threadx/src/ulog.c: ulog_get_level, ulog_set_level, ulog_get_tag_level, ulog_set_tag_level, ulog_init_cookie"]}
{"id": "C84", "title": "ThreadX: enabled messages are printed", "statement": "A message is printed once on the console, as [letter] tag: text with the colour of its level and at most 255 bytes of text, exactly when its level is enabled for its tag.", "quantifier": "every registry, priority with or without flags, tag and text, every way of logging", "why_tests_cant": "silent loss and out-of-bounds reads that print plausible output", "anchors": ["threadx/src/ulog.c: AmbaLog, ulog_vlog_write, ulog_log_str, ulog_log_buf", "libulog/include/ulog.h: ulog_log"]}
{"id": "C85", "title": "ThreadX: samples are well formed", "statement": "A sample stays inside its buffer whatever the thread name, tag and message; it is the sample the Linux backend would write, so the relay gives back thread, tag, message, level and colour.", "quantifier": "every thread name, tag, message, priority and index", "why_tests_cant": "long names and messages at the limits of the buffer", "anchors": ["threadx/src/ulog_ctrl.c: ulog_shd_put", "ulog_shd/src/ulog.c: ulog_shd_write", "shdlogd/src/shdlogd.c: fill_raw_entry"]}
{"id": "C86", "title": "ThreadX: every message put is stored", "statement": "Every message given to ulog_shd_put while sharing is enabled is stored, with the index after that of the message stored before it.", "quantifier": "every number of threads and every interleaving", "why_tests_cant": "timing dependent loss without trace", "anchors": ["threadx/src/ulog_ctrl.c: ulog_shd_put"]}
{"id": "C87", "title": "The relay accounts for every sample", "statement": "Whatever the order of the samples written to the shared memory section and of the polls of shdlogd, every sample is relayed exactly once and in order, or counted in a reported loss.", "quantifier": "every sequence of samples and polls, every size of the section, every contents", "why_tests_cant": "needs every interleaving of writers and polls, equal time stamps, wraps of the 16 bit index and failures of the library", "anchors": ["shdlogd/src/shdlogd.c: read_samples, main", "ulog_shd/src/ulog.c: ulog_shd_write"]}
{"id": "C88", "title": "Python records reach the library line by line", "statement": "A logging record is handed to ulog_log_str once per line of its message, in order, with the logger name as tag and the priority of its level (Notice for events), and the two maps of levels are inverse and keep the order of severities.", "quantifier": "every record: level, name and text", "why_tests_cant": "custom levels, undecodable text, empty messages and NUL characters are not in the tests", "anchors": ["ulogpy/ulog.py: ULogHandler.emit, _prio_logging_map, _logging_prio_map"]}
{"id": "C89", "title": "The python device handler is faithful", "statement": "A line logged through ULogDeviceHandler, raw or not, reaches every reader of the device with its level, tag, text and the process and thread names of the handler.", "quantifier": "every reachable device state, handler, record and line that fits", "why_tests_cant": "needs every state of the ring and names outside ASCII", "anchors": ["ulogpy/ulog.py: ULogDeviceHandler.emit, format_raw_entry, write", "libulog/ulog_write_raw.c: ulog_raw_log", "ulogger/ulogger.c: ulogger_write_iter"]}
{"id": "C90", "title": "The python bridge delivers once", "statement": "After any sequence of enable_bridge and disable_bridge, a message goes once to the native output unless forwarding was declined, and once to each logger that is bridged and enabled for its level.", "quantifier": "every sequence of requests, message, priority and set of enabled loggers", "why_tests_cant": "depends on the order of the requests", "anchors": ["ulogpy/ulog.py: _ulog_bridge, enable_bridge, disable_bridge"]}
{"id": "C91", "title": "Python throttled and changed logs", "statement": "A throttled log is logged the first time and then only more than its delay after the last logged one, with the count of the masked ones; a changed log is logged when its value differs from that of the call before; neither depends on other messages.", "quantifier": "every sequence of calls, texts, delays, times and values", "why_tests_cant": "needs every interleaving of calls and texts sharing a table", "anchors": ["ulogpy/ulog.py: LoggerPlus._throttled_log, _changed_log"]}
{"id": "C92", "title": "Servers and clients of the log control meet", "statement": "A control server and a client given the same socket name, or the name of the process of the server, use the same address, that of the name, and processes with different names have different addresses; a name that does not fit is refused.", "quantifier": "every socket name and process name", "why_tests_cant": "names of every length up to and past the limits of the structures", "anchors": ["libulogctl/src/ulogctl_srv.c: ulogctl_srv_new, ulogctl_srv_new_unix, ulogctl_srv_new_unix_proc", "libulogctl/src/ulogctl_cli.c: ulogctl_cli_new_proc", "libulogctl/tool/ulogctl.c: main"]}
{"id": "C93", "title": "ulogctl asks what its options ask", "statement": "The tool ulogctl reads the first letter of a level in either case, sends the requests that its options ask for, ends with an exit code that tells whether it succeeded, and shows the level of every tag.", "quantifier": "every sequence of options, level letters, outcomes of the library", "why_tests_cant": "all combinations and orders of the options", "anchors": ["libulogctl/tool/ulogctl.c: char2level, level2char, main"]}
{"id": "C94", "title": "The log reader opens the devices asked for", "statement": "ulogcat3_open opens for reading the ulog devices whose names are given, in order; without names and with ULOGCAT_FLAG_ULOG all the devices of the driver; with ULOGCAT_FLAG_KLOG also the kernel log; each device has its own place among the descriptors waited for, and the context is created whenever nothing fails.", "quantifier": "every option, list of names, list of devices of the driver, outcome of every system call", "why_tests_cant": "lists of names and failures in the middle of opening", "anchors": ["ulogcat/libulogcat_core.c: ulogcat3_open", "ulogcat/libulogcat_ulog.c: add_ulog_device, add_all_ulog_devices", "ulogcat/libulogcat_klog.c: add_klog_device"]}
{"id": "C95", "title": "The log reader closes what it opened", "statement": "Whatever fails while opening, clearing or closing, each descriptor opened by the log reader is closed exactly once, and of the descriptors of the caller only the one given for the output is closed, once.", "quantifier": "every option, list of names, outcome of every system call and allocation", "why_tests_cant": "leaks and double closes after a failure are not seen by tests", "anchors": ["ulogcat/libulogcat_core.c: ulogcat3_open, ulogcat3_close", "ulogcat/ulogcat.c: main", "ulogcat/libulogcat_core.c: log_device_destroy"]}
{"id": "C96", "title": "Clearing empties every device", "statement": "When ulogcat3_clear returns no error, each device of the context has been emptied: the device file was opened for writing and flushed, and the kernel ring buffer was cleared if it is read.", "quantifier": "every context, outcome of every system call", "why_tests_cant": "each device among several, and each failure", "anchors": ["ulogcat/libulogcat_core.c: ulogcat3_clear", "ulogcat/libulogcat_ulog.c: ulog_clear_buffer", "ulogcat/libulogcat_klog.c: klog_clear_buffer"]}
{"id": "C97", "title": "The options of ulogcat mean what its help says", "statement": "ulogcat takes all the names given, the last format and number of lines, and the flags; the logs are read unless only the kernel log is asked for; an unknown option, a format or a number that does not exist ends it before anything is opened, with a failure status, and asking for help with success.", "quantifier": "every list of options", "why_tests_cant": "combinations and orders of options", "anchors": ["ulogcat/ulogcat.c: get_options, parse_log_format, main"]}
{"id": "C98", "title": "The old interface of the log reader", "statement": "ulogcat_create refuses what is no longer done; the devices added are those read; a use that failed can be tried again.", "quantifier": "every option, list of names, sequence of calls, outcome of every system call", "why_tests_cant": "orders of calls and failures", "anchors": ["ulogcat/libulogcat_compat.c: ulogcat_create, ulogcat_add_device, ulogcat_process_logs, ulogcat_destroy"]}
{"id": "C99", "title": "kmsgd reports the anomalies of the kernel", "statement": "After each line of the kernel that has an end-of-trace mark, kmsgd raises one KANOMALY event with the identifier that follows the mark, and no other event, whatever pieces the kernel delivers.", "quantifier": "every stream of lines, sizes of reads, buffer size", "why_tests_cant": "marks cut by the reads, several marks in a line", "anchors": ["kmsgd/kmsgd_evt.c: gen_evt", "kmsgd/kmsgd.c: main"]}
{"id": "C100", "title": "ulogwrapper runs a program with its syslog calls redirected", "statement": "ulogwrapper executes the program given with its arguments and its environment; when the ulog device can be opened the wrapper library is loaded before those asked for and the fallback of libulog to syslog is disabled; otherwise nothing changes.", "quantifier": "every environment, program, arguments", "why_tests_cant": "environments that already name libraries", "anchors": ["ulogwrapper/ulogwrapper.c: main"]}
{"id": "C101", "title": "Messages forwarded to Android keep their severity", "statement": "A text message goes to the log of Android with its tag and text, and a more severe message never gets a less severe Android level; binary data is not forwarded.", "quantifier": "every priority, tag, text", "why_tests_cant": "all priorities with colours", "anchors": ["libulog/ulog_write_android.c: ulog_writer_android"]}
{"id": "C102", "title": "A dump of driver devices shows exactly what the driver holds, merged by time", "statement": "For devices of the driver with any past of system calls (opens, writes, reads, ioctls by any processes), opened by the log reader for a dump: the dump ends; the entries it hands to the renderer are the ones the driver still holds and the caller may read, decoded, preceded on each device that lost older entries by the driver's own report of how many; they come merged in order of time when the times of each device do not decrease; a binary entry is left out unless the format is CSV; with a tail of N exactly the last N are shown.", "quantifier": "for all device names, sizes and initial memory contents, all sequences of system calls on each device, all numbers of devices, all callers (privileged or not), all tail lengths, CSV or not", "why_tests_cant": "It joins the ring buffer, the record format, the parser, the growing read buffer and the merge: the histories of system calls, the contents and the number of devices are unbounded, and a loss may depend on one particular wrap position, entry length (the 200-byte first read) and interleaving.", "anchors": ["ulogcat/libulogcat_ulog.c:29-92", "ulogcat/libulogcat_ulog.c:127-170", "ulogcat/libulogcat_core.c:277-388", "kernel/ulogger-6.x.c ulogger_read", "libulog/ulog_read.c:137-172"]}
{"id": "C103", "title": "The text that comes out is the rendering of the entries, in order and complete", "statement": "Whatever the state of the driver devices, what the log reader hands to the output over a whole reading is the concatenation, entry by entry in the order shown, of the banner where one is due and the rendered line of the entry (or nothing where the renderer refuses it), and every byte of it was written by the renderer.", "quantifier": "for all device states, options, device paths, tail lengths, numbers of rounds, follow or dump mode", "why_tests_cant": "The output depends on every entry of every device and on every rendering option; an uninitialised or stale byte in the 5248-byte buffer need not show up in a test.", "anchors": ["ulogcat/libulogcat_core.c:99-149", "ulogcat/libulogcat_text.c", "ulogcat/libulogcat_ulog.c:29-92"]}
{"id": "C104", "title": "One banner per device, before its first entry, and only with several devices", "statement": "Whatever poll and the devices answer: with a single device no banner is shown; with several, each device of which an entry is taken out has exactly one banner, directly before the place of its first entry, and devices that show nothing have none.", "quantifier": "for all behaviours of poll and of the receive functions, all numbers of devices, all tail lengths, dump and follow mode, any number of rounds", "why_tests_cant": "The flag that suppresses repeated banners lives across rounds, queues and dropped tails; all interleavings of devices would have to be tried.", "anchors": ["ulogcat/libulogcat_core.c:99-149", "ulogcat/libulogcat_core.c:166-216"]}
{"id": "C105", "title": "What programs log through the library is what ulogcat shows", "statement": "Take any number of log devices on which programs logged messages through the library, mixed with reads, ioctls, flushes, opens, closes and refused calls. A dump of ulogcat that starts then shows for each device exactly the latest accepted messages since the last flush, with the sender, time, level, colour, tag and text given to the library (the text cut only where an entry is full), after one warning with the number of messages overwritten if there are any; without the right to read all, only the caller's own messages; all devices merged by time, or the last N entries of that with a tail of N.", "quantifier": "for all numbers and sizes of devices, all histories of system calls whose writes are library messages, all message contents, all readers and all tail lengths; clock not running backwards within a device", "why_tests_cant": "The claim joins the formatting of the library, the ring of the driver, its warnings about lost entries, the parser and the merging reader; each boundary depends on byte counts modulo the ring size and there are unboundedly many histories.", "anchors": ["libulog/ulog_write.c", "kernel/ulogger-6.x.c", "libulog/ulog_read.c", "ulogcat/libulogcat_ulog.c:29-92", "ulogcat/libulogcat_core.c:277-388"]}
{"id": "C106", "title": "Nothing a device delivers is lost, repeated or reordered", "statement": "Whatever poll and the devices do while the log reader runs, in dump and in follow mode: the acceptable entries that a device delivered are, in order, some that precede the tail asked for, those shown, and those not yet shown. Entries are left out only if a tail is asked for and more entries came than it holds. At most one entry per device is held back when no tail is asked for or once anything is shown, and none when a dump has ended.", "quantifier": "for all behaviours of poll and of the receive functions, all numbers of devices and rounds, all tail lengths, dump and follow mode", "why_tests_cant": "The order in which entries arrive on the devices between two polls is up to the system; a test sees a few of unboundedly many schedules, and frames are lost only in particular states of the three queues.", "anchors": ["ulogcat/libulogcat_core.c:47-388"]}
{"id": "C107", "title": "Following the logs of a running system", "statement": "While ulogcat follows some logs, other processes open, close, read, poll, flush and write library messages on the same devices, between any two critical sections of the driver. Then the reader never fails, and each message accepted by a device is shown once, in order and unchanged, or belongs to a user whose messages the reader may not read, or is counted in a warning shown at its place, or was flushed, or precedes the tail asked for, or is not yet read.", "quantifier": "for all numbers of devices and histories before, all schedules of calls of other processes, all message contents, all readers, tails and numbers of rounds", "why_tests_cant": "Entries can be overwritten or flushed between the check for data, the two reads and the poll of the reader; which interleavings lose or repeat an entry cannot be enumerated by running it.", "anchors": ["kernel/ulogger-6.x.c:346-419", "kernel/ulogger-6.x.c:760-783", "ulogcat/libulogcat_ulog.c:29-92", "ulogcat/libulogcat_core.c:277-388", "libulog/ulog_read.c"]}
{"id": "C108", "title": "Everything is shown once the system is silent", "statement": "While ulogcat follows some logs, other processes make any finite number of calls on the devices, between any two critical sections of the driver. Then after finitely many rounds, and ever after, they have made all their calls, no device is readable, and every message accepted by a device has been shown once, in order and unchanged, or belongs to a user whose messages the reader may not read, or is counted in a warning shown at its place, or was flushed, or precedes the tail asked for; only messages followed by one that the reader may not read can be lost without a warning so far.", "quantifier": "for all numbers of devices and histories before, all finite schedules of calls of other processes, all message contents, all readers and tails", "why_tests_cant": "That no schedule leaves an entry waiting for ever in the driver, the frame queues or the tail is a liveness claim about all interleavings.", "anchors": ["kernel/ulogger-6.x.c:346-419", "kernel/ulogger-6.x.c:760-783", "ulogcat/libulogcat_ulog.c:29-92", "ulogcat/libulogcat_core.c:150-388"]}
{"id": "C109", "title": "Raw and binary interfaces open the device asked for and leak nothing", "statement": "ulog_raw_open and ulog_bin_open open once the device given by its path, or named by ULOG_DEVICE / ULOG_DEVICE_BIN (at most 21 bytes), or the default one. The result is a descriptor of a character device, in raw mode for ulog_raw_open, or an error that tells which step failed, and then nothing stays open. Over any sequence of calls the open descriptors are those given to the program and not closed. A name in the environment of any length selects a device of the driver exactly if it is its name.", "quantifier": "for all answers of the system, environments, paths, device tables of the driver and sequences of calls", "why_tests_cant": "Failures of fstat and ioctl after a successful open cannot be provoked in a test without faking the system.", "anchors": ["libulog/ulog_write_raw.c:36-84", "libulog/ulog_write_bin.c:45-96", "kernel/ulogger-6.x.c:1008-1091"]}
{"id": "C110", "title": "Where raw and binary writes go", "statement": "A binary write calls the custom function set last, with the tag and the data, and nothing else; without one it sends one vector (level with binary flag, tag, data) to the given descriptor, again only after EINTR, and returns 0 or the error of the last attempt; off Linux it fails with ENOSYS. A raw write is refused with EINVAL (negative descriptor, no entry, pid and tid -1), or sends one vector with the fields of the entry in order, whatever custom function is set.", "quantifier": "for all sequences of calls, tags, data, entries and answers of the system", "why_tests_cant": "Interrupted system calls and all combinations of earlier calls cannot be enumerated.", "anchors": ["libulog/ulog_write_bin.c:98-162", "libulog/ulog_write_bin.c:274-285", "libulog/ulog_write_raw.c:86-174"]}
{"id": "C111", "title": "shdlogd releases everything it obtained, once, and uses only what it holds", "statement": "Whatever call fails and whenever a signal or the loss of the section stops it, when shdlogd ends it has released exactly once each of its loop, timer, descriptor, section contexts and memory blocks, the timer before its loop; it reads sections, sets the timer and runs the loop only while holding them, and stores samples only while holding both blocks. It never gives NULL as a section to libshdata.", "quantifier": "for all options, answers of the libraries and of the system, and moments of signals", "why_tests_cant": "Each allocation, open and shared memory call can fail at each moment, including the reopening of a section in the middle of a run.", "anchors": ["shdlogd/src/shdlogd.c:138-199", "shdlogd/src/shdlogd.c:269-364"]}
{"id": "C112", "title": "The options of shdlogd", "statement": "shdlogd opens the section and the device, uses the process name and the period given by the last option of each kind (the period modulo 2^32), otherwise section ulog, the default device, name rtos and 50 ms, also each time the section is reopened. With -h or an option that is refused it only shows its help, obtains nothing and ends with success.", "quantifier": "for all lists of options and all answers of the libraries", "why_tests_cant": "Lists of options are unbounded and reopening depends on another processor.", "anchors": ["shdlogd/src/shdlogd.c:39-93", "shdlogd/src/shdlogd.c:226-274"]}
{"id": "C113", "title": "A signal ends shdlogd, and what its result tells", "statement": "A signal ends shdlogd whatever the libraries answer. Its result is success exactly when it was only asked for help, or when samples were relayed and the last turn of the loop gave 0. An orderly stop where nothing failed gives success.", "quantifier": "for all answers of the libraries and all moments of the signal", "why_tests_cant": "The signal can come at any moment; no test covers all of them.", "anchors": ["shdlogd/src/shdlogd.c:206-210", "shdlogd/src/shdlogd.c:330-363"]}
{"id": "C114", "title": "Threads logging to shared memory neither mix, lose, renumber nor block each other", "statement": "When several threads log through the shared memory writer, in any interleaving: the samples are numbered one by one modulo 2^16 in the order they are stored; each thread's samples are exactly the messages it logged, in order, none lost, repeated or duplicated; messages that libshdata logs from inside the writer are never stored and never block; and if each thread keeps getting turns, all calls return.", "quantifier": "for all programs of all numbers of threads, all messages logged by libshdata at any depth, and all interleavings", "why_tests_cant": "Interleavings of threads and the logs of libshdata inside a call cannot be enumerated.", "anchors": ["ulog_shd/src/ulog.c:30-116", "ulog_shd/src/ulog.c:142-153"]}
{"id": "C115", "title": "ulog_shd_init all or nothing", "statement": "ulog_shd_init returns 0 exactly when the section, the attribute and the recursive mutex could be made; then the section has the name and size asked for and messages go to it. Otherwise it returns the error of the step that failed, the writer is as before, and nothing it made remains. Over all sequences of calls, messages only go to a section that exists, under an initialised recursive mutex.", "quantifier": "for all answers of libshdata and pthread, names, sizes and sequences of calls", "why_tests_cant": "Failures of pthread functions cannot be provoked.", "anchors": ["ulog_shd/src/ulog.c:118-159"]}
{"id": "C116", "title": "The level control library frees what it allocates", "statement": "A client or server that was stopped and destroyed leaves nothing allocated, whatever requests, answers, failures and disconnections happened before: its object, its context, the message of the request, the names it decoded and its array of tags are freed once. A creation that fails leaves nothing.", "quantifier": "for all sequences of calls, events and answers of libpomp", "why_tests_cant": "Each message can be refused, fail or stay unanswered at any moment.", "anchors": ["libulogctl/src/ulogctl_cli.c:65-122", "libulogctl/src/ulogctl_cli.c:271-378", "libulogctl/src/ulogctl_cli.c:380-547", "libulogctl/src/ulogctl_srv.c:52-73"]}
{"id": "C117", "title": "Starting, stopping and destroying control servers and clients", "statement": "A server listens exactly between a start and a stop that worked, never twice, whatever calls are made; a start that failed can be tried again, for servers and clients; after destroying, no context refers to the freed object.", "quantifier": "for all sequences of calls and answers of libpomp", "why_tests_cant": "Sequences of calls with failures cannot be enumerated.", "anchors": ["libulogctl/src/ulogctl_srv.c:361-415", "libulogctl/src/ulogctl_cli.c:322-378"]}
{"id": "C118", "title": "Reading the kernel log", "statement": "Following /dev/kmsg, every message that has not been overwritten is shown once, in order, with its priority, time and exact text, however records of up to 8191 bytes, overwritten messages and signals alternate, and whatever bytes the frames hold; what is read is ended by a NUL inside the buffer; lack of memory loses no record; every record the opening of the device accepts can be received.", "quantifier": "for all sequences of records, losses and signals, all devices respecting the size given to read, all buffer contents", "why_tests_cant": "A record longer than the frame, one overwritten between the two reads, and stale buffers come up only on a busy kernel.", "anchors": ["ulogcat/libulogcat_klog.c:100-173", "ulogcat/libulogcat_core.c:48-74"]}
{"id": "C119", "title": "Malformed kernel records", "statement": "Decoding a record of /dev/kmsg, whatever its bytes, stays inside the frame buffer and depends on the record alone.", "quantifier": "for all byte strings received and all older contents of the buffer", "why_tests_cant": "Needs records no current kernel writes and particular older bytes in the buffer.", "anchors": ["ulogcat/libulogcat_klog.c:147-168"]}
{"id": "C120", "title": "What the log reader outputs when its output may fail", "statement": "The text of the entries comes out exactly, once and in order; when the output fails, what came out is the beginning of that text, nothing follows, reading stops and the result tells it, whether following or dumping.", "quantifier": "for all devices, formats, kinds of output and sequences of answers to its writes", "why_tests_cant": "Full disks, interrupted and short writes at each place of the output cannot be enumerated.", "anchors": ["ulogcat/libulogcat_core.c:22-45", "ulogcat/libulogcat_core.c:363-388", "ulogcat/ulogcat.c:169-187", "ulogcat/libulogcat_compat.c:94-109"]}
{"id": "C121", "title": "Threads using the C++ streams do not disturb each other", "statement": "The text streams of ulog.cpp may be used by several threads, in any interleaving of whole stream operations: as long as none of the streams has been put in the bad state, the messages a thread logs, with their tags, levels and texts, are exactly those it would log if it were alone, whatever the other threads write, flush, put or tag; streams are never put in the bad state by writes, flushes and tags. A thread that puts more than 512 single characters without flushing silences the others on that stream (refuted). Every string allocated for a thread is freed once: when the thread ends or, for the main thread, when the static streams are destroyed; the only ones left are those of other threads which wrote and have not ended.", "quantifier": "all interleavings of all operations of any number of threads on all streams, all texts, all capacities of the strings", "why_tests_cant": "Tests run a few interleavings; the shared state of the streams shows only after 512 characters put by another thread.", "anchors": ["libulog/ulog.cpp:38-154"]}
{"id": "C122", "title": "Error macros tell the error once and return it", "statement": "ULOG*_ERRNO evaluate the error first and once, the arguments of the format once each and only if the message is wanted, and write one message giving the function, the line, the text, the error number and its description, even if the arguments or the registration of the tag change errno. ULOG_ERRNO_RETURN_IF, _RETURN_ERR_IF and _RETURN_VAL_IF evaluate their condition once; if it holds they evaluate the error once, write that message and leave the function, with the opposite of the error told or with the value given; otherwise they write nothing and go on. The first message of a tag is as if the tag had been registered before. ULOG_EVT and ULOG_EVTS write NOTICE messages 'EVT:type;...' and 'EVTS:type;...'. Refuted: a value computed from errno in RETURN_VAL_IF may differ from the error told when writing fails; the error is cut off when the function name or text is long.", "quantifier": "all functions, lines, texts, errors, error descriptions, levels, expressions (as functions of errno), errno changes by the environment, failures of the output", "why_tests_cant": "The expansions hide evaluation orders and errno changes that show only when the output fails or the tag is first used.", "anchors": ["libulog/include/ulog.h:187-290", "libulog/include/ulog.h:405-416", "libulog/ulog_write.c:365-434"]}
{"id": "C123", "title": "setup_logging makes python messages appear as those of C programs", "statement": "After setup_logging, a message logged by python at a standard level appears as its lines, with the tag of the logger and the priority of the level, if and only if a C program with the same environment would write a message of that priority and tag (true when the environment gives both the tag and the tag ulog_py the same level, and asks for debug messages by ULOG_LEVEL=D only; refuted for ULOG_LEVEL=7, for ULOG_LEVEL_<tag>=D, and for ULOG_LEVEL_<tag> in general: the level of the tag ulog_py, read when the handler is made, is the one that counts); once per call of setup_logging (so that calling it twice doubles everything: refuted). An uncaught exception is logged as an error of tag root and ends the program with status 1, except KeyboardInterrupt. The process gets the first 15 bytes of the name, with a warning if it is longer; it may be cut inside a character (refuted).", "quantifier": "all environments, names, records of standard levels, texts that can be encoded, numbers of calls", "why_tests_cant": "Tests use one environment and one call; the disagreement shows only for other spellings of the same level.", "anchors": ["ulogpy/ulog.py: setup_logging", "ulogpy/ulog.py: ULogHandler.__init__", "ulogpy/ulog.py: ULogHandler.emit", "libulog/ulog_write.c: ulog_init_cookie", "libulog/ulog_write.c: ulog_log_str"]}
{"id": "C124", "title": "ThreadX: tag names, level letters, throttled messages and the start of sharing", "statement": "ulog_get_tag_names stores the names of distinct tags in use, those registered last first, as many as both exist and are asked for, returns that number and stores nothing beyond; it returns 0 before the start. The letter and the digit of a level are read back as that level. While sharing starts, successfully or not, every message goes to the console or to the shared memory, and in the end to exactly one of them. Throttled messages that are printed are as given and at least the delay apart in units of the clock; but a message due after masked ones is not printed at all and the number of masked ones is forgotten (refuted), and the delay is shorter than asked if the clock counts more than one unit per millisecond (refuted).", "quantifier": "all sound registries, sizes, levels, characters, sequences of throttled calls and times, points of the start", "why_tests_cant": "The port cannot be run outside its system; the loss needs a masked message followed by a due one.", "anchors": ["threadx/src/ulog.c:88-109", "threadx/src/ulog.c:204-207", "threadx/src/ulog.c:302-362", "threadx/src/ulog_ctrl.c:120-145", "libulog/include/ulog.h:514-538"]}
{"id": "C125", "title": "A signal handler that logs ends", "statement": "A signal handler may log a message as any code does: wherever the signal arrives, also in the middle of another call of the library by the interrupted thread, the handler gets its message filtered out or written and ends, without waiting for the thread it interrupts.", "quantifier": "for all states reachable by any interleaving of registry and output calls of any number of threads, all points at which the thread is interrupted, all tags, priorities, messages, environments and answers of the system", "why_tests_cant": "A test delivers signals at a few moments; the sections in which the handler deadlocks last microseconds and exist only before the first use of a tag or of the output.", "anchors": ["libulog/ulog_write.c:214-226", "libulog/ulog_write.c:365-420", "libulogctl/tool/ulogctl.c:231-237", "libulogctl/examples/ulogctl-srv.c:96-102", "shdlogd/src/shdlogd.c:206-210"]}
{"id": "C126", "title": "Redirected libraries obey the level set for them", "statement": "After ulog_glib_redirect, ulog_gst_redirect or ulog_obus_redirect, each message of the library is recorded exactly once, under its domain or category, when its priority passes the level last set for the redirection (by ulog_..._set_level before or after the redirection, or by name with ulog_set_tag_level), or the documented initial level of its tag when none was set; without redirection no message reaches ulog.", "quantifier": "for all sequences of redirections, level settings, settings by name, registrations and messages, all environments, domains, categories, levels and texts", "why_tests_cant": "Whether a message is recorded depends on the order of all earlier calls and on the environment at the first of them; a test tries one order. The duplicated records need two callers that do not know of each other.", "anchors": ["libulog-redirect/ulog_glib.c:72-83", "libulog-redirect/ulog_gst.c:155-167", "libulog-redirect/ulog_obus.c:29-44", "libulog/ulog_write.c:474-515"]}
{"id": "C127", "title": "Text written to a redirected std::cerr is logged", "statement": "After ulog_stdcerr_redirect, what a thread writes to std::cerr is logged at the level INFO, one message per line, and nothing goes to the file descriptor 2 any more; messages of the ulog streams used between are not affected.", "quantifier": "for all sequences of output operations on std::cerr before and after the redirection and of statements with the ulog streams, all texts and tags", "why_tests_cant": "Tests of a stream write one string; the records lost or joined depend on the kind of operation (character or string) and on text left in the buffer shared by all the streams of the thread.", "anchors": ["libulog-redirect/ulog_stdcerr.cpp:24-27", "libulog/ulog.cpp:99-142", "libulog/ulog.cpp:178-182"]}
{"id": "C128", "title": "What the kernel says is what a viewer of the kmsgd device shows", "statement": "Let the kernel log be lines of at most 4000 bytes of the form <P>[sec.usec] text or <P>text, read by kmsgd in pieces of any sizes, and let kmsgd be the only one that logs to its device. A dump by ulogcat then shows for this device, in order, every line that kmsgd has read whole (all of them once the log is read), each with severity P mod 8, the time of the kernel in seconds and nanoseconds, tag KERNEL and exactly its text, and after it one EVT:KANOMALY entry for an end-of-trace mark; if the device had to drop some, the latest ones remain after one notice with the number dropped. This holds whatever other devices are shown with it.", "quantifier": "all lists of well-formed kernel lines, splittings into reads, times of the calls, device sizes and histories, other devices and formats, both word sizes", "why_tests_cant": "Needs the kernel log, the daemon, the driver and the viewer together; a test has one splitting into reads and one ring size.", "anchors": ["kmsgd/kmsgd.c: main", "kmsgd/kmsgd_evt.c: gen_evt", "libulog/ulog_write.c: ulog_log_str", "ulogcat/libulogcat_ulog.c: ulog_receive_entry, ulog_parse_kmsgd_entry", "ulogcat/libulogcat_klog.c: kmsgd_fix_entry", "ulogcat/libulogcat_core.c: process_logs"]}
{"id": "C129", "title": "A connected control client and server agree", "statement": "Between a control client and a server that stay connected, whatever the order in which requests are made, messages travel, and the process of the server registers tags or changes levels itself: the server handles exactly the accepted requests, each once and in order, and its levels are what these and its own changes make them; the client gives each request exactly one answer, about the last accepted request; the answer to a list shows, by increasing name, exactly the tags and levels that the server had at one time after the list was asked and after all earlier requests took effect. In particular a client that sets the level of a tag and then lists the tags sees that level. Once nothing is under way every accepted request was handled and answered.", "quantifier": "all interleavings of requests, deliveries, send notifications and changes by the server process; all registries, names and 32-bit levels; all callbacks that make only refused calls", "why_tests_cant": "A test sees one order of the messages; the claim is about every interleaving of two processes.", "anchors": ["libulogctl/src/ulogctl_cli.c: ulogctl_cli_set_tag_level, ulogctl_cli_set_all_level, ulogctl_cli_list, event_cb, send_cb", "libulogctl/src/ulogctl_srv.c: process_msg", "libulog/ulog_write.c: ulog_set_tag_level, ulog_set_level, ulog_foreach"]}
{"id": "C130", "title": "Logging calls show on the screen", "statement": "If the threads of several processes log through the macros of the library to one device (opened by each process for writing) and the device is then dumped (ulogcat -d), the dump ends and prints exactly the calls whose level passes the level of their tag, in the order in which the driver served them: for each one its letter, its tag and at most 255 bytes of its text, line by line. If the buffer of the device was too small, only the oldest calls are missing, what is left takes more than 2^pow2 - 12300 bytes, and a line gives the number of missing calls. A viewer without the right to read everything gets the calls of its own user. A tag of at most 15 bytes always fits the buffer of the viewer, one of 16 bytes can be too long.", "quantifier": "all device names, buffer contents and sizes, all numbers of processes, threads and calls, all texts (longer ones are cut), tags up to 1000 bytes that fit the viewer's buffer, all times", "why_tests_cant": "A test logs a few lines; the claim joins library, driver, parser, log reader and renderer for all sequences of calls.", "anchors": ["libulog/include/ulog.h: ulog_log", "libulog/ulog_write.c: ulog_vlog_write, __writer_kernel", "kernel/ulogger-6.x.c: ulogger_write_iter, ulogger_read", "libulog/ulog_read.c: ulog_parse_payload", "ulogcat/libulogcat_core.c: process_logs", "ulogcat/libulogcat_text.c: print_ulog_line, text_render_size"]}
{"id": "C131", "title": "Messages of a device are in the order of their times", "statement": "The entries of a device, and the lines that a dump shows, are in non-decreasing order of their times, also when several threads log at the same time.", "quantifier": "all interleavings of the clock and of the two steps (reading the clock, taking the lock) of the calls of any number of threads", "why_tests_cant": "The window between the two steps is a few instructions; a test hits it by chance.", "anchors": ["kernel/ulogger-6.x.c: ulogger_write_iter"]}
{"id": "C132", "title": "What a run of the tool ulogctl shows and does", "statement": "Run ulogctl with one request against a server, whatever the network does short of breaking the connection (see C141) and however the loop groups the events. The run never fails. While it waits nothing has been written, and something is still under way. When it ends, the server handled exactly that request, or the request is on its way to it. For --list the server handled it and the text is one line per registered tag with its level, in order of names, for levels the server had at one moment of the run. For the requests that set levels nothing is written. If the server leaves its levels alone, they are what the request makes them once it is handled. The text does not tell whether the tag exists: setting a level of an unknown tag ends in the same way and changes nothing.", "quantifier": "for all registries, requests, colour settings and groupings of events into rounds of the loop", "why_tests_cant": "The interleavings of connection, send completion and messages are not under the control of a test, and their number has no bound.", "anchors": ["libulogctl/tool/ulogctl.c: main", "libulogctl/tool/ulogctl.c: tag_info_cb", "libulogctl/tool/ulogctl.c: request_status_cb", "libulogctl/src/ulogctl_cli.c: send_cb", "libulogctl/src/ulogctl_srv.c: process_msg"]}
{"id": "C133", "title": "What the example control server logs and where it listens", "statement": "Run the example server. Its tick number k logs, out of the six lines of the levels debug to critical, exactly those that the level of its tag lets through, with the number k. That level is the one of the environment at the first use of the tag. Afterwards it is the one of the last request for the tag or for all tags, limited to 0..7. Requests for the tag before its first use change nothing and log one error. With sound options it listens at the last socket name given, else at the last port, else at the address of its process. Ports of more than 16 bits, words and -1 are not refused.", "quantifier": "for all registries, environments, sequences of ticks, signals, connections and requests; for all lists of options", "why_tests_cant": "The order of requests and ticks is a matter of timing; each order gives other lines.", "anchors": ["libulogctl/examples/ulogctl-srv.c: main", "libulogctl/examples/ulogctl-srv.c: timer_cb", "libulogctl/src/ulogctl_srv.c: process_msg", "libulogctl/src/ulogctl_srv.c: ulogctl_srv_new_inet", "libulog/ulog_write.c: ulog_init_cookie"]}
{"id": "C134", "title": "What ulogger is given shows on the screen of ulogcat", "statement": "Let ulogger be run any number of times, one run after the other, on a new device (any options, messages on the command line or on the standard input, with or without --time), and let ulogcat dump the device. Then every run can be made, every message is accepted by the driver, and ulogcat prints the messages in the order in which they were given, each line by line with the letter of the level, the tag and the text (what does not fit in 4076 bytes is cut at the end); the input is cut at the ends of lines and after 255 bytes. Nothing is missing unless the messages kept take nearly the whole buffer; the missing ones are the oldest, and a line at the front says how many. The messages count as root's: a reader without the right to read all sees them only if it is root.", "quantifier": "for all devices, command lines, inputs, clocks, texts, numbers of runs and readers", "why_tests_cant": "tests run ulogger on a few texts; the claim covers the whole way (option parser, cutting, raw mode, ring buffer with overwriting, reader, parser, renderer) for all inputs", "anchors": ["ulogger/ulogger.c: main", "libulog/ulog_write_raw.c: ulog_raw_open", "libulog/ulog_write_raw.c: ulog_raw_logv", "kernel/ulogger-6.x.c: ulogger_write_iter", "ulogcat/libulogcat_core.c: ulogcat_process_logs", "ulogcat/libulogcat_text.c: text_render"]}
{"id": "C135", "title": "Users read back what they logged with ulogger", "statement": "A user who logs messages with ulogger that fit in the buffer, and then dumps the device with ulogcat, sees the messages.", "quantifier": "for all devices, command lines, inputs, texts and users", "why_tests_cant": "tests are run as root or by members of the group of the device; the claim is about every user", "anchors": ["ulogger/ulogger.c: main", "libulog/ulog_write_raw.c: ulog_raw_logv", "kernel/ulogger-6.x.c: ulogger_open", "kernel/ulogger-6.x.c: get_next_entry"]}
{"id": "C136", "title": "Messages of a real-time system reach the screen through shared memory and shdlogd", "statement": "Tasks of a real-time system log with the library into a section of shared memory of any size, shdlogd polls it at any moments and relays to the log device, and ulogcat then dumps that device. Every message that passes the level of its tag is printed, in order, with its letter, its tag and its text line by line (at most 253 bytes of text, thread name and tag together, a leading colour sequence removed), except: the messages that the section no longer held at the next poll, of which the last ones of the section's size are shown and the exact number of the others is said in a message of shdlogd right after the first shown one (when its own library logs to the same device at that level); and the oldest messages if the buffer of the device was too small, which a notice of ulogcat counts exactly. A viewer restricted to one user sees exactly the lines of that user.", "quantifier": "for all devices, sections, sequences of logging calls and polls with increasing sample times and fewer than 32768 messages lost at once, all texts, tags, thread names, colours, task numbers, all periods and names of the relay, and all viewers", "why_tests_cant": "The chain crosses four programs and two memories (macro, sample layout, index arithmetic modulo 65536, relay, raw entries in the ring, parser, renderer); a test sees one interleaving of calls and polls and one fill level of each buffer.", "anchors": ["ulog_shd/src/ulog.c: ulog_shd_write", "shdlogd/src/shdlogd.c: read_samples", "shdlogd/src/shdlogd.c: fill_raw_entry", "libulog/ulog_write_raw.c: ulog_raw_log", "kernel/ulogger-6.x.c: ulogger_write_iter", "ulogcat/ulogcat.c: main"]}
{"id": "C137", "title": "Syslog calls of a program reach the screen as asked", "statement": "Programs log with openlog, syslog (vsyslog, __syslog_chk, __vsyslog_chk), setlogmask and closelog of the syslog wrapper, each process with its own static variables, to one device of the kernel driver; the device is then dumped with ulogcat in the short format. What is printed is, byte by byte and in order, for each syslog call (and each openlog with LOG_NDELAY) whose priority is at most the limit of its process at that time - that of the environment until the first setlogmask, then the highest bit of the latest mask kept between 2 and 7 - its lines with the letter of its priority, the name given to openlog if that was the first call of the process (no name otherwise), and the formatted text, at most 255 bytes unless long messages are on; nothing else is printed, except, when the buffer of the device was too small, a first line with the number of missing messages, which are the oldest. A user without the right to read all sees the messages of their own user only.", "quantifier": "for all devices, sets of processes, environments, sequences of calls by any threads with any formats, arguments, masks and options (C strings; lines that fit the buffer of ulogcat; a long message of more than 255 bytes has no arguments, C70), all readers", "why_tests_cant": "the composition of the wrapper, the library, the driver and the viewer over all interleavings of calls; unit tests of ulogwrapper do not exist", "anchors": ["ulogwrapper/ulog_syslog.c: openlog", "ulogwrapper/ulog_syslog.c: syslog", "ulogwrapper/ulog_syslog.c: setlogmask", "ulogwrapper/ulog_syslog.c: ulog_vlog_notruncate", "libulog/ulog_write.c: ulog_log_buf", "ulogcat/libulogcat_text.c: text_render"]}
{"id": "C138", "title": "Messages of python programs and of redirected libraries reach the screen as asked", "statement": "Python programs log with ULogHandler, other programs through the redirections of GLib, OBus and GStreamer, to one device of the kernel driver; the device is then dumped with ulogcat in the short format. What is printed is, byte by byte and in order, for each message that passes the level of the master tag of the python handler or of the redirection: for python each line of the text in UTF-8 with the name of the logger as tag and the priority of its level, notice for texts that start with EVT:; for GLib the text with its domain (APP without one) at the priority of its gravest flag, nothing without a level flag; for OBus at most 255 bytes with the tag obus, two priorities above; for GStreamer location, object, a colon and the text, at most 2047 bytes, with its category, if the threshold of the category lets it pass. Nothing else is printed, except, when the buffer of the device was too small, a first line with the number of missing messages, which are the oldest. A user without the right to read all sees the messages of their own user only.", "quantifier": "for all devices, sets of processes, sequences of messages by any threads with any contents (texts that can be encoded, without NUL; standard levels of python; locations of GStreamer up to the size of the buffer, C69; lines that fit the buffer of ulogcat), all levels, all readers", "why_tests_cant": "the composition of python code, three C redirections, the library, the driver and the viewer; there are no tests of the redirections", "anchors": ["ulogpy/ulog.py: ULogHandler.emit", "libulog-redirect/ulog_glib.c: glog_func", "libulog-redirect/ulog_obus.c: obus_func", "libulog-redirect/ulog_gst.c: gst_log_func", "libulog/ulog_write.c: ulog_log_str", "ulogcat/libulogcat_text.c: text_render"]}
{"id": "C139", "title": "Messages of the C++ streams are shown on the screen", "statement": "The threads of a C++ program log with statements UlogX << piece << ... << std::endl (or std::flush), each with a tag of its own; the operations of the threads interleave in any way, also in the middle of statements, and threads may end. The device is then dumped by ulogcat -d. The messages on the screen are exactly the statements that say something and whose level passes that of their tag, each with its level, tag, the pieces put together, and the names and identifiers of its thread; those of each thread come in the order of its statements. If the buffer was too small the oldest are missing and a line says how many.", "quantifier": "For all programs of at most 512 threads, all statements of at most 512 bytes with C strings and lines that fit the buffer of the viewer, all interleavings, all device sizes and options of the dump", "why_tests_cant": "The streams of a level are shared by all threads while the text and the tag are kept per thread; only some interleavings could show a mix-up or a stream gone bad, and no test runs them all", "anchors": ["libulog/ulog.cpp: Ulogstream::sync", "libulog/ulog.cpp: Ulogstream::xsputn", "libulog/ulog.cpp: Ulogstream::setTag", "libulog/ulog_write.c: ulog_log_str", "libulog/ulog_write.c: __writer_kernel", "kernel/ulogger-6.x.c: ulogger_write_iter"]}
{"id": "C140", "title": "A reader who may only read their own entries is told how many of their own were lost", "statement": "A user without the right to read the whole log opens the device. They are told of exactly so many losses as entries of their own were dropped, before they get those that remain. (False: the report counts the dropped entries of all users, and a user whose entries were all dropped gets no report at all. True: the number reported is at least that of their own lost entries, the difference being losses of others, so without a report nothing of theirs is missing before what they read; it is exact if nobody else writes; and nothing is dropped unless what remains has nearly the size of the buffer.)", "quantifier": "every history before the open, every user", "why_tests_cant": "unbounded histories of several users; the tests read as root", "anchors": ["kernel/ulogger-6.x.c: ulogger_open", "kernel/ulogger-6.x.c: ulogger_read", "kernel/ulogger-6.x.c: fix_up_readers"]}
{"id": "C141", "title": "What a run of ulogctl tells when the connection can break", "statement": "Run ulogctl with one request; the connection may break at any time, before or after libpomp ends the sends under way. A run that ends without an error message has had its request handled by the server, and one that ends with Error occurred has not. (Both false: see the refuted theorems. True: the run never fails and ends at the latest when the connection breaks; while it waits nothing is written; the server handles the request once or not at all; the error message is only written after a break; for --list the text is that message alone, or the complete table of the tags the server had at one moment after the request, which it handled.)", "quantifier": "for all registries, requests, colour settings, events and groupings of events into rounds of the loop", "why_tests_cant": "when exactly a connection breaks is not under the control of a test", "anchors": ["libulogctl/src/ulogctl_cli.c: event_cb", "libulogctl/src/ulogctl_cli.c: send_cb", "libulogctl/src/ulogctl_cli.c: ulogctl_cli_stop", "libulogctl/tool/ulogctl.c: request_status_cb"]}
{"id": "C142", "title": "A script reading the CSV output gets back what programs logged", "statement": "Programs log through the library to any number of devices, mixed with reads, flushes, opens, closes and refused calls; then the devices are dumped in CSV (ulogcat -d -v csv, with or without a tail). A script reading the output gets back exactly the messages the devices hold, merged by time, each with its sender, time, level, colour, tag and text, after the warnings about lost ones, whatever the texts are; no program can make records of another one appear.", "quantifier": "for all numbers of devices, histories of calls, users, times, tags without comma, texts with any bytes, tails; for a script that uses the announced lengths", "why_tests_cant": "What decodes the output must cope with any text, with commas and line feeds in it; tests look at a few benign messages, and a forged record needs a text built for it.", "anchors": ["ulogcat/libulogcat_text.c: print_log_line_csv", "ulogcat/libulogcat_text.c: text_render_frame", "ulogcat/libulogcat_core.c: flush_banner_frame"]}
{"id": "C143", "title": "What is on the screen tells who said what", "statement": "Programs log texts through the library and the device is dumped (ulogcat -d). Reading the screen line by line, each line as a letter, a tag up to the colon and a text, one learns exactly which lines were logged with which level and tag, in order, and how many messages are missing; a program cannot make its messages look like others.", "quantifier": "for all messages, tags, texts with any line feeds and colons, levels, buffer sizes, numbers of programs, rights of the viewer", "why_tests_cant": "Ambiguities of the printed form show only for particular pairs of messages; tests compare the output with an expected one and never ask what else could have produced it.", "anchors": ["ulogcat/libulogcat_text.c: print_ulog_line", "ulogcat/libulogcat_text.c: text_render_frame"]}
{"id": "C144", "title": "What a line of ulogcat tells in each of its text formats", "statement": "When ulogcat prints an entry in a text format (short, aligned, process or long), each line of its message becomes one line, from which the reader learns the letter of the level, the tag and the text, in the aligned, process and long formats also the name of the process and, if it is not the main one, of the thread, in the long format also their numbers and the time with its milliseconds; lines of the kernel have no process. With colours each line starts with the escape sequence of its level and ends with the reset, with labels it starts with U or K. The colour of a level is its field of ULOGCAT_COLORS; levels without a field have none. One would want that no writer can make a line tell another process: this is refuted for tags with a parenthesis.", "quantifier": "all entries whose tag has no line feed, parenthesis, colon or trailing space (at most 50 bytes) and whose names have no line feed, closing parenthesis or slash (at most 16 bytes); all formats but CSV, all colour tables, with and without labels and colours, user and kernel lines, all times without dot and line feed, rendered texts below 5248 bytes; all colour lists of up to eight fields of up to 28 bytes", "why_tests_cant": "tests compare the output of a few entries; the four layouts with their optional thread, padding and truncation limits have unboundedly many combinations", "anchors": ["ulogcat/libulogcat_text.c: print_ulog_line", "ulogcat/libulogcat_text.c: print_klog_line", "ulogcat/libulogcat_text.c: text_render_frame", "ulogcat/libulogcat_text.c: setup_colors"]}
{"id": "C145", "title": "Signals end the programs of the log control, which release what they obtained", "statement": "Whatever the calls of the example control server and of ulogctl return, and whenever SIGINT or SIGTERM arrives: the loop, the timer and the server or client are used and destroyed only while they exist, the loop last, and nothing is left when the program ends; after a signal the program waits at most once more for events, and a program that waits for ever has not received a signal. One would want this for signals at any time, an exit code that tells failures, and a tool that ends when its request could not be made: refuted.", "quantifier": "all results of the creations, starts, requests and timers, all sequences of events of the loop, all sets of moments at which signals arrive (for the positive part: before the loop is destroyed)", "why_tests_cant": "a test sends a signal at some moment; the window between the test of the flag and the wait, and the one after the destruction of the loop, are hit by chance only", "anchors": ["libulogctl/tool/ulogctl.c: main", "libulogctl/tool/ulogctl.c: sig_handler", "libulogctl/examples/ulogctl-srv.c: main", "libulogctl/examples/ulogctl-srv.c: sig_handler"]}
{"id": "C146", "title": "A saved output function can be put back", "statement": "A program calls ulog_get_write_func, installs other output functions with ulog_set_write_func for a while and then installs the function it had got. From then on messages are handled as before: each goes, exactly once, to the place where messages went when the function was saved (the same open descriptor, the same function, or nowhere), it is printed on stderr as often, and ulog_get_write_func returns the saved function again; whatever the other threads do meanwhile and whatever ULOG_STDERR says. False if ulog_set_log_device is called in between: the function put back writes to descriptor -1, the new device is not opened and every message is lost.", "quantifier": "all environments, all interleavings of any number of threads, all system answers, all functions saved (null, kernel, stderr wrapper, user), all histories before and in between", "why_tests_cant": "Needs saving and restoring under interleaved calls with and without ULOG_STDERR and with a failing device; tests only check that a custom function is called.", "anchors": ["libulog/ulog_write.c: ulog_set_write_func", "libulog/ulog_write.c: ulog_get_write_func", "libulog/ulog_write.c: ulog_set_log_device", "libulog/ulog_write.c: __ctrl_init", "libulog/ulog_write.c: __writer_kernel", "libulog/ulog_write.c: __writer_stderr"]}
{"id": "C147", "title": "Large binary data sent in chunks can be put together again by a reader of the log", "statement": "Programs log text and binary data to devices through libulog; large data is given to ulog_bin_writev_chunk, which cuts it into numbered binary entries under a tag. Whoever dumps the devices afterwards, keeps the binary entries of one thread and tag, starts new data at number 0 and joins the pieces, obtains exactly the data given by that thread under that tag, whole, in order and without duplicates, except for data at the beginning that the buffer has lost; nothing is lost if the log fits in the buffer. Other messages in between, other devices and the lost-entries notice of the dump do not disturb it. Claimed of data of any size; holds up to 256 pieces, and data of 257 pieces is sent as the same entries as data of 256 pieces followed by data of one piece.", "quantifier": "for all devices, histories of operations by any programs, threads, tags, header sizes, lists of data and vectors, and times", "why_tests_cant": "needs the composition of the chunking, the write path of the driver, ring wrap-around with loss of oldest entries, the reading and merging of several devices and the parsing; the one-byte piece number only fails for data above a megabyte", "anchors": ["libulog/ulog_write_bin.c: ulog_bin_writev_chunk", "libulog/ulog_write_bin.c: ulog_bin_writev", "libulog/ulog_write_bin.c: compute_max_chunk_len", "libulog/ulog_write_bin.c: ulog_bin_write_chunk", "kernel/ulogger-6.x.c: ulogger_write_iter", "ulogcat/ulogcat.c: process_logs"]}
{"id": "C148", "title": "Devices can be opened, added and listed at the same time", "statement": "While programs add log devices through the sysfs attribute, others open device nodes and read the list. An open of the node of a device that had been added returns this device and never ENODEV; no open returns a device with another minor number, and minor numbers and names are distinct. Whatever calls are in progress, in whatever order they run, every call can finish: no two calls wait for each other. The last part holds where misc_open tells the driver which device is opened (Linux 2.6.35 and later), or when only log_main is opened, or nothing is added; on older kernels get_log_from_minor takes logs_mutex while misc_open holds misc_mtx, and ulogger_add_log registers the device, which takes misc_mtx, while it holds logs_mutex: two calls wait for each other for ever, and nobody can open any misc device any more.", "quantifier": "for all numbers of calls, all schedules, all minor numbers and names, both kinds of kernel", "why_tests_cant": "the deadlock needs one of two particular interleavings of a few instructions in two kernel threads and an old kernel; tests of the driver run one call at a time", "anchors": ["kernel/ulogger-3.x.c: ulogger_open", "kernel/ulogger-3.x.c: get_log_from_minor", "kernel/ulogger-3.x.c: ulogger_add_log", "kernel/ulogger-3.x.c: ulogger_show_logs", "kernel/ulogger-3.x.h: file_private_data_has_miscdevice_pointer"]}
{"id": "C149", "title": "A bridged message of C code is output once although python logs to ulog too", "statement": "When python loggers are bridged with forwarding, a one-line message written by C code reaches the native output exactly once, unchanged, and each handler of each bridged logger that lets it pass exactly once. True if and only if no bridged logger that lets it pass leads to a ULogHandler that takes it and whose master level lets it pass: otherwise the handler writes the message to the library again, the bridge gets it again at the same level, and it is written as many times as python allows nested calls (refuted with setup_logging and enable_bridge of any propagating logger). A text that is not UTF-8 given to a ULogHandler ends the call of the bridge, so that loggers bridged later miss it (refuted).", "quantifier": "all trees of loggers with any levels, handlers and propagation, all sequences of enable_bridge and disable_bridge (forwarding not asked for again after it was declined), all messages of one line, depths of nesting", "why_tests_cant": "Each half works alone in a test; the loop appears only when both are used in one program, and its length depends on the limit of the interpreter.", "anchors": ["ulogpy/ulog.py: _ulog_bridge", "ulogpy/ulog.py: enable_bridge", "ulogpy/ulog.py: ULogHandler.emit", "ulogpy/ulog.py: setup_logging", "libulog/ulog_write.c: ulog_log_str"]}
{"id": "C150", "title": "Concurrent calls on a device behave as calls made one at a time", "statement": "For every schedule of any number of tasks doing read, write, poll, open, close and ioctl on one device at the same time, there is a sequence of the driver's operations (the critical sections, as used by the sequential properties) such that every operation lies between the start and the return of its call, every task's results are those of the operations of its calls, and running the operations one after the other from the new device gives these results and the same device. So what is proved of a device used by one task at a time holds when it is used by many.", "quantifier": "for all devices, numbers of tasks, and schedules of calls, statements and signals", "why_tests_cant": "Needs all interleavings of all tasks at the granularity of lock and wait-queue operations; a test meets a handful of them.", "anchors": ["kernel/ulogger-6.x.c: ulogger_read", "kernel/ulogger-6.x.c: ulogger_write_iter", "kernel/ulogger-6.x.c: ulogger_poll", "kernel/ulogger-6.x.c: ulogger_ioctl", "kernel/ulogger-6.x.c: ulogger_set_raw_mode"]}
{"id": "C151", "title": "The colour of a relayed message is the colour it was printed in", "statement": "A task of the real-time system logs a text that starts with one of the eight colour sequences ESC [ 0 ; 3 # m. When shdlogd relays the sample to a log device, every reader gets the message without the sequence, with its level, thread, tag, as much of the text as fits, and the colour of the digit (bit 0 red, bit 1 green, bit 2 blue, 7 gray). REFUTED for cyan, which arrives as yellow, and no reader can tell the two apart.", "quantifier": "every reachable device, file opened raw, sample index, priority, thread, tag, text and time, and every colour", "why_tests_cant": "the output of a colour on a terminal does not go through the relay; tests use one or two colours, not cyan", "anchors": ["shdlogd/src/shdlogd.c: fill_raw_entry", "ulog_shd/src/ulog.c: ulog_shd_write", "libulog/ulog_write_raw.c: ulog_raw_log"]}
{"id": "C152", "title": "Messages read while others write", "statement": "Tasks of user space write to and read from a device at the same time, on any schedule. A file is opened once, with the right to read everything, and several tasks may read from it; nobody flushes the log. Every read on that file that gives a message, and not a notice of loss, gives the message of some write call, header and payload as that write asked for them. Two reads, even made at the same time, never give the message of the same write. The write had started when the read returned. If a read returned before another one started, the message of the second does not come from a write that was over before the write of the first started. And if all reads on the file have returned and none gave a notice of loss, then whenever a message was read, the message of every non-empty write that returned successfully before the write of that message started was read too.", "quantifier": "For all devices, numbers of tasks, schedules, calls with all their arguments, and pairs of reads.", "why_tests_cant": "The statement is about every interleaving of any number of tasks at every point where the driver can be preempted, and about which write call a read came from, which a test can only guess from the contents.", "anchors": ["kernel/ulogger-6.x.c: ulogger_read", "kernel/ulogger-6.x.c: ulogger_write_iter", "kernel/ulogger-6.x.c: fix_up_readers"]}
{"id": "C153", "title": "Messages of shell scripts on the screen", "statement": "A shell script that has sourced ulog_api.sh and calls ulogc, uloge, ulogw, ulogn, ulogi and ulogd, changes ulog_tag and prints lines to stdout or stderr, shows on the screen of a viewer of the main buffer as follows: for each call one line with the level of the function and the tag that ulog_tag has at that time (\"(shell script)\" if it has none), for each printed line one line of level I without tag if output is redirected (neither ULOG_STDERR nor ULOG_NO_REDIRECT_STD is y), in the order of the script, with texts cut at what fits in an entry. The script does not fail.", "quantifier": "all scripts over calls, output, assignments and unset of variables that are not those of the file, all environments, all tags and texts without NUL, shells that write line by line (one-line texts) or not, all buffer sizes that hold an entry, all contents of the memory of the driver, all clocks", "why_tests_cant": "Tests would need a kernel with the driver and several shells; the bytes that a shell printf writes, the parser of the library and the formats of the viewer meet here, and a wrong level digit or a wrong NUL shows only as an unformatted entry.", "anchors": ["libulog/ulog_api.sh: ulog", "libulog/ulog_api.sh: ulogi", "libulog/ulog_read.c: ulog_parse_buf", "kernel/ulogger-6.x.c: ulogger_write_iter"]}
{"id": "C154", "title": "One entry for each message of a shell script", "statement": "Each call of the logging functions of ulog_api.sh, and each line of redirected output, makes exactly one write to the device, hence one entry with the level and the tag of the call.", "quantifier": "all scripts, environments, texts and shells as in C153", "why_tests_cant": "Whether a shell writes its output in one or several system calls depends on the shell and on the text; tests with one-line messages in one shell do not show it.", "anchors": ["libulog/ulog_api.sh: ulog"]}
{"id": "C155", "title": "Copies of the messages of shell scripts on the console", "statement": "With ULOG_STDERR=y, a script that uses ulog_api.sh prints for each message a line with the letter of its level and the message to the console, between its ordinary output, in order; without it messages leave no trace there, and ordinary output goes to the console if and only if ULOG_NO_REDIRECT_STD is y.", "quantifier": "all scripts, environments, levels, texts, buffer sizes and shells", "why_tests_cant": "The message is part of the format of printf: only texts with conversions or escapes show the difference.", "anchors": ["libulog/ulog_api.sh: ulog"]}
{"id": "C156", "title": "Variables of shell scripts that log", "statement": "Sourcing ulog_api.sh and calling its functions leaves the variables of a script, other than those documented as its own (ULOG_*), at the values that the script gave them.", "quantifier": "all scripts, environments, names and values of variables", "why_tests_cant": "A script is hit only if it happens to use the same names.", "anchors": ["libulog/ulog_api.sh: ulog"]}
{"id": "C157", "title": "A python device handler opens the device it is named for, creating it if it is missing", "statement": "A ULogDeviceHandler made for a device, named by its path or by what follows /dev/ulog_, opens that device and no other file. It leaves existing devices alone. A missing one with a valid name is created with 128 kB if there is room. Exactly one descriptor is open while the handler is, none after close and none if the constructor raises; the handler is in raw mode exactly if the driver accepted raw mode for that descriptor.", "quantifier": "for all names, all sets of devices the driver can have, all answers of the system calls", "why_tests_cant": "the failing answers of open, fstat, ioctl and of the driver, in all combinations with names and existing devices, are not met by running a script on one machine", "anchors": ["ulogpy/ulog.py: ULogDeviceHandler.__init__", "ulogpy/ulog.py: _ensure_ulog_device", "ulogpy/ulog.py: _open_ulog_raw", "ulogpy/ulog.py: _open_ulog", "ulogpy/ulog.py: close", "kernel/ulogger-6.x.c: ulogger_add_log", "libulog/ulog_write_raw.c: ulog_raw_open"]}
{"id": "C158", "title": "A python device handler in raw mode logs the ids and names set last, or those of who logs", "statement": "Readers of an entry logged by a ULogDeviceHandler in raw mode get the process id, thread id, process name and thread name that were set last; for what was never set, those of the process and thread that log.", "quantifier": "for all sequences of settings, records, processes and threads, device states", "why_tests_cant": "fork after construction, other processors and the values 0 and empty are not part of the usual test of a handler", "anchors": ["ulogpy/ulog.py: process_name", "ulogpy/ulog.py: thread_name", "ulogpy/ulog.py: thread_id", "ulogpy/ulog.py: pid", "ulogpy/ulog.py: format_raw_entry", "ulogpy/ulog.py: _open_ulog_raw"]}
{"id": "C159", "title": "The time of a raw entry of the python handler is close to the clock and never goes back", "statement": "For any clock below 2^31 seconds, the time in a raw entry has a nanosecond field from 0 to 999999999, is off by the precision of the double that the clock returned and 2 ns at most (239 ns in all for the real time clock from 2004 to 2038), and is not before that of an earlier reading. It is the time of the clock exactly, and also from 2^31 seconds on.", "quantifier": "for all doubles that a clock below 2^31 seconds can return", "why_tests_cant": "the loss is in the last bits of a double and differs for each reading", "anchors": ["ulogpy/ulog.py: format_raw_entry", "ulogpy/ulog.py: _get_clock"]}
{"id": "C160", "title": "Loading the driver is all or nothing, and unloading gives everything back", "statement": "Loading the driver with a valid size gives a main device with a buffer and the attribute logs, or fails and leaves nothing behind. Unloading it gives back every registration, the attribute and every block of memory exactly once, whatever devices were added; the attribute goes before its device, and no block is freed while a registered device uses it.", "quantifier": "for all sizes, all answers of the kernel while loading, all sequences of additions before unloading", "why_tests_cant": "failures of vmalloc, misc_register and device_create_file at load time cannot be provoked by a test that runs on a working kernel, and what they leave behind shows later or never", "anchors": ["kernel/ulogger-6.x.c: ulogger_init", "kernel/ulogger-6.x.c: init_log", "kernel/ulogger-6.x.c: delete_log", "kernel/ulogger-6.x.c: ulogger_exit", "kernel/ulogger-4.x.c: ulogger_init", "kernel/ulogger-3.x.c: ulogger_init"]}
{"id": "C161", "title": "Records logged through a python device handler are on the screen of ulogcat", "statement": "A program makes a ULogDeviceHandler, in raw mode or not, sets ids and names and logs records in any order; ulogcat then dumps the device. Every line of every record is printed, in order, with the letter of its level, its tag and its text, except the oldest lines if the buffer of the device was too small, which a notice counts exactly; a viewer restricted to their own messages sees exactly the lines that they logged.", "quantifier": "for all devices, sequences of settings and records, texts and logger names that can be encoded, numbers of lines, readings of the clock before 2038, and all viewers", "why_tests_cant": "The chain crosses python, the C library, the driver, the parser and the renderer; tests of the handler mock the library and read nothing back, and they run as root.", "anchors": ["ulogpy/ulog.py: emit", "ulogpy/ulog.py: format_raw_entry", "ulogpy/ulog.py: write_raw_entry", "libulog/ulog_write_raw.c: ulog_raw_log", "kernel/ulogger-6.x.c: ulogger_write_iter", "ulogcat/ulogcat.c: main"]}
{"id": "C162", "title": "Tags of shared libraries that are opened and closed", "statement": "A program that opens and closes shared libraries which declare tags can at any time list its tags, walk them and set their levels by name: every call ends, reads only mapped memory, and finds exactly the tags of the loaded libraries in use, the latest first, each once and with its level.", "quantifier": "all sequences of opening and closing libraries with any tags at any addresses and of calls of ulog_init, ulog_set_level, ulog_get_level, ulog_set_tag_level, ulog_get_tag_names and ulog_foreach, all levels given by the environment", "why_tests_cant": "What goes wrong depends on where the loader maps a library the second time and on the order in which tags were used; a test with fixed libraries sees a single layout, and most often memory that happens to be still mapped", "anchors": ["libulog/ulog_write.c: ulog_init_cookie", "libulog/ulog_write.c: ulog_foreach", "libulog/ulog_write.c: ulog_set_tag_level", "libulog/ulog_write.c: ulog_get_tag_names", "libulog/ulog_write.c: ulog_set_level", "libulog/ulog_write.c: ulog_get_level"]}
