# Design of the Rocq verification of ulog

Source under study: `/repo` (Parrot-Developers/ulog), read as text only.
Model and proofs: `/verif/rocq/theories` (logical name `Verif`), Rocq/Coq 8.16.1.

## Conventions

* Bytes, sizes and offsets are `Z`; byte strings are `list Z`. C integer casts that matter
  (u8/u16/s32/u32/u64 wrap) are written explicitly with `mod`.
* Every access to a C buffer in the model is bounds checked and yields a distinct
  out-of-bounds outcome; memory-safety theorems say that this outcome is unreachable.
* A loop whose termination is not structural takes fuel; running out of fuel is a distinct
  outcome, and theorems show it is unreachable.
* Critical sections (code between lock and unlock) are atomic steps; a schedule is an
  arbitrary list of such steps. Where code touches shared memory outside a lock the access is
  its own step.
* Files: `X.v` = model (definitions only, each with a citation), `XSpec.v` = independent
  specification, `XProofs.v` = lemmas, `PropsX.v` = property theorems only, each closed by
  `exact lemma` and followed by `Print Assumptions`, with an `Example` instantiating the
  hypotheses.
* Suffix `_partial` marks a theorem weaker than the property, `_refuted` a proof that
  the property is false of the model, with a concrete witness.

## Plan per property

| id | model | proof |
|----|-------|-------|
| C01 C02 C03 C04 C05 C06 C08 C09 C10 C11 C12 C13 C14 C15 C16 | `Ring.v`: the 6.x driver function by function over a concrete byte ring (offset masking, two-part copies, header straddling the wrap), files/readers, user buffers with fault positions, `read` split in its two critical sections. `RingSpec.v`: a tiny abstract device: per reader a queue of accepted entries and a drop counter, no offsets, no ring. | refinement: for every op list the concrete outputs equal the abstract outputs (forward simulation, invariant: bytes of the ring from each reader offset to the write offset are the encodings of its queue). The individual properties are then proved on abstract runs by induction over op lists and transported. |
| C05 | as above | every concrete step returns a proper outcome (never `Oob`/`OutOfFuel`) from reachable states |
| C07 | as above + header encoding | entry accepted by a non-raw write is a function of the task identity; follows by computing the encoding and the refinement |
| C17 C64 | `Registry.v`: `ulogger_add_log` with the kernel sscanf, slot search, `show_logs`, init and exit, allocation and registration failures as oracles | invariants over op lists |
| C18 | `WaitQ.v`: readers/writers as small step machines over mutex, wait queue, task state | inductive invariant over all interleavings |
| C19 C20 C25 | `Parse.v`: `ulog_read.c` function by function over a buffer with explicit offsets | case analysis; `strnlen` specification lemmas |
| C21 C22 C23 C24 | composition of `Ring.v` (entry encoding), `Iov.v` (iovec construction) and `Parse.v` | round-trip lemmas |
| C26 C27 C28 | `BinChunk.v`: `ulog_bin_writev_chunk` with its indices and both vector arrays bounds-checked | loop invariants; fuel shown sufficient |
| C29 C30 C31 C32 C33 C34 C60 | `Cookies.v`: threads executing `ulog_init_cookie`/`set_level`/`foreach`/... as small-step programs over shared memory | inductive invariants over all interleavings of any number of threads |
| C35 C36 C37 C38 C41 C61 C62 C63 | `Writer.v`: the output side of `ulog_write.c` as small-step programs of any number of threads, environment as a parameter, answers of open/fstat/strdup/writev as oracles | inductive invariants over all interleavings; per-call invariants relating each call to its events |
| C39 C40 | `Macros.v`: the throttle and change macros as state machines | induction over call sequences |
| C42 C43 C44 C45 | `Cat.v`: `libulogcat_core.c` with queues, frame pool, devices as streams with poll oracles | invariants; permutation/sortedness; liveness by a counter-example stream |
| C46 C47 C48 | `Render.v`: `libulogcat_text.c` with a bounded `snprintf` model | bounds by induction on lines; CSV round trip |
| C49 C50 | `Klog.v` | round trip of escape/unescape; prefix grammar |
| C51 | `DList.v`: pointer heap with next/prev | refinement to lists |
| C52 | `Kmsgd.v` | induction on chunks |
| C53 C54 | `Shd.v` | round trip, modular arithmetic |
| C55 | `Syslog.v` | finite case analysis lifted to all masks |
| C56 | `Redirect.v` | monotonicity |
| C57 | `Stream.v` | induction over character/flush sequences |
| C58 C59 | `Ctl.v`: client and server as event-driven machines | invariants over event lists |
| C65 C66 C67 C68 | `Cat.v`, `Klog.v`, `Render.v`: tail settings, dumps of the kernel log, whole lines, kmsgd records | invariants; witnesses |
| C69 C70 C71 C72 C73 | `Redirect.v` (buffer of the GStreamer source), `Syslog.v`, `Ctl.v` with malformed messages and failed sends | bounds; invariants over event lists |
| C74 C75 C76 C77 C78 C79 | `Ulogger.v`: the command line tool (input lines, arguments, times) | induction over the input |
| C80 C81 | `Versions.v`: the 3.x and 4.x drivers where they differ from 6.x, sources of a write | equality with the 6.x functions, witnesses where they differ |
| C82 C83 C84 C85 C86 | `Threadx.v`: the ThreadX backend | inductive invariants over interleavings, witnesses |
| C87 | `Relay.v`: the loop of shdlogd over the samples of libshdata | induction over polls |
| C88 C89 C90 C91 | `Py.v`: the python handlers, bridge and throttled loggers | induction over records |
| C92 C93 | `CtlTool.v`: addresses of servers and clients, the tool ulogctl | string lemmas; induction over options |
| C94 C95 C96 C97 C98 | `CatOpen.v`: opening, closing and clearing of devices by the log reader, options of ulogcat, old API | traces of resources; induction over options |
| C99 C100 C101 | `Kmsgd.v`, `Wrapper.v`: anomalies, ulogwrapper, Android writer | case analysis |
| C102 C103 C104 C105 | `Live.v`: driver (`Ring.v`), parser (`Parse.v`), log reader (`Cat.v`) and renderer (`Render.v`) joined; `SaidSpec.v` from library calls | refinement of each layer, composed |
| C106 C107 C108 | `Busy.v` on top of `Live.v`: other processes act between any two critical sections | invariants over schedules; a decreasing measure for liveness |
| C109 C110 | `Devopen.v`: raw and binary interfaces of the library | traces of system calls |
| C111 C112 C113 | `Shdlogd.v`: the life of shdlogd | traces of resources; measures |
| C114 C115 | `ShdLock.v`: threads of the shared memory writer, ulog_shd_init | inductive invariant over all interleavings; decreasing measure over rounds |
| C116 C117 | `CtlMem.v`: memory and life of control clients and servers | invariants over event lists |
| C118 C119 | `KlogRead.v`: reading of /dev/kmsg into frames | simulation of the device; induction over what happens |
| C120 | `CatOut.v`: output of the log reader, with failures | simulation against `Cat.v`; induction over rounds |
| C121 | `StreamThreads.v`: the C++ streams used by threads | induction over interleavings; simulation by `Stream.v` |
| C122 | `Errno.v`: error and event macros | unfolding, arithmetic |
| C123 | `PySetup.v`: setup of the python logging | induction over the calls of setup_logging |
| C124 | `ThreadxRest.v`: rest of the ThreadX port | induction over the list and over the calls |
| C125 | `SignalLog.v`: logging from a signal handler: registry and output side with their common lock | invariants of the two machines sharing the lock; decreasing ranks |
| C126 | `RedirectLife.v`: installing the redirections, levels, messages of the foreign libraries | invariants over sequences of operations |
| C127 | `Cerr.v`: std::cerr with the buffer of ulog | induction over the operations, over the lemmas of C57 |
| C128 | `KmsgdShow.v`, `KmsgdShowSpec.v`: kernel lines through kmsgd, device and viewer | composition of C99, C105 and C50; uniqueness of the splitting into lines |
| C129 | `CtlSys.v`, `CtlSysSpec.v`: control client and server with the messages between them | invariant over all interleavings |
| C130 | `Program.v`, `Macros.v`, `Iov.v`, `Ring.v`, `Parse.v`, `Cat.v`, `Live.v`, `Render.v`: macro calls of any programs, the driver, the dump and its text | composition of C105_any_times, C103 and the renderer |
| C131 | `Stamp.v`: the clock read and the lock of ulogger_write_iter as separate steps of each thread | invariant over the events; a two-thread schedule |
| C132 | `ToolRun.v`: loop and callbacks of the tool ulogctl over the connected client and server of `CtlSys.v` | invariant of the system (C129) over rounds, simulation of the printed text; counterexample by computation |
| C133 | `SrvApp.v`: options, address, timer, signal and message handling of the example server, over `Ctl.v` and `CtlTool.v` | induction over the events with the level of the tag as invariant; counterexamples by computation |
| C134, C135 | `UloggerRun.v`: system calls of runs of ulogger on a driver device, with the answers of the driver (path and kind of the device: Devopen.v; runs one after the other) | induction on the runs; the entries accepted so far; general lemma from entries to the screen (ScreenProofs.v) |
| C136 | `ShdRun.v`: the calls of the tasks, the polls of shdlogd and their effects on the device, composed from `Macros.v`, `Shd.v`, `Relay.v`, `Iov.v`, `Ring.v` | induction over calls and polls; mixed raw and library writers on one device (`MixedProofs.v`), then `ScreenProofs.v` |
| C137 | `SyslogRun.v`: sequences of syslog calls of several processes, each with its static variables, and the writes they make | invariant relating the static variables to the calls made so far; messages on the screen by `SaidScreen.v`, which serves every interface of the library |
| C138 | `FrontRun.v`: messages of python handlers and of the GLib, OBus and GStreamer redirections, and the writes they make | case analysis per interface on top of C56, C69, C88; uniqueness of what a message says; screen by `SaidScreen.v` |
| C139 | `StreamRun.v`: operations of the threads of a C++ program on the streams, interleaved, and the writes they make | invariant bounding the characters pending in a shared stream by the threads in the middle of a std::endl; C121 and C57 per thread; screen by `SaidScreen.v` |
| C140 | what a restricted reader is told about losses (Ring.v) | concrete histories evaluated, `drains` being a function; bound from C16 |
| C141 | `ToolLink.v`: the loop of ulogctl with a connection that can break; aborted sends before or after the disconnection | C132 for the part before the break, then only the process of the server acts; concrete runs for the refutations |
| C142 | `CsvSpec.v` (a decoder), `Render.v`, `Live.v` | decoding inverts each record and banner, C105 gives the entries, C103 the bytes |
| C143 | `ScreenReadSpec.v` (a reader of lines), `Render.v`, `Live.v` | reading inverts each printed block; the bytes from said_screen |
| C144 | `Render.v`: text formats, colours (spec: `FormatsSpec.v`) | reader applied to each layout; case analysis on the format |
| C145 | `CtlLife.v`: main and signal handlers of ulogctl and ulogctl-srv (spec: `CtlLifeSpec.v`) | invariant over all points where signals may arrive |
| C146 | `RestoreSpec.v`, `PropsRestore.v` over `Writer.v`: saving and restoring the output function | invariants over runs cut at events; counterexample by computation |
| C147 | `BlobSpec.v`, `PropsBlob.v`: chunked binary data through the devices to a reader that joins the pieces (BinChunk.v, Ring.v, Live.v composed) | ledger of what was given per device (as C105), regularity of numbered chunks, suffix lemma for the joining reader; uniqueness of the cutting for the refutation |
| C148 | `Minor.v`: opening by minor number, adding and listing devices as concurrent calls with logs_mutex and misc_mtx (3.x driver on old and new kernels) | inductive invariant on the owners of the mutexes, progress measure, fixpoint state for the deadlock |
| C149 | `PyLoop.v`: the bridge and the handler of the python binding in one program, with the rules of module logging | exception-free sequences; induction on the nesting depth |
| C150 | `LinSpec.v`, over `WaitQ.v` and `Ring.v`: traces of calls, operations and results | forward simulation with a trace as ghost state: per task the operations done of its call are a function of its next statement; enumeration of the possible orders for the refutation; a write in a passing mode is a change of mode, the write and the change back |
| C151 | `PropsColour.v`: colour of relayed messages | composition of the sample, relay and raw read-back lemmas; case analysis on digits and levels |
| C152 | `ConcSpec.v`, `ConcProofs.v`, `PropsConc.v`: what tasks read while others write, told from the starts and results of calls | trace of C150 and history of C02 joined by positions; each read gets the accepted entry whose number is what the file has seen; accepted entries and writes correspond in order; finite choice of the source |
| C153 | `Shell.v`, `ShellSpec.v`: ulog_api.sh, printf of the shell, its buffering | the writes of the script are encoded entries; lemmas of the parser and of the screen for tagged and plain entries |
| C154 | `Shell.v`: writes of a builtin | pieces of an output that fits are one; concrete refutations through the parser |
| C155 | `Shell.v`: copies on the console | the pieces join to the output; texts without special characters are printed as they are |
| C156 | `Shell.v`: variables | induction over the script |
| C157 | `PyDev.v`: ULogDeviceHandler constructor and close, with `Registry.v` and `Devopen.v` | case analysis of the answers; the accepted name through C17_accepts |
| C158 | `PyDev.v`: setters and properties, with `Py.v` | induction over the settings, then C89_raw_partial |
| C159 | `PyDev.v` (`stamp`): conversion of the clock | integer arithmetic on the unit of a double |
| C160 | `Load.v`: ulogger_init, delete_log, ulogger_exit as sequences of kernel calls, with `Registry.v` | invariant of the table (three blocks per added device), induction over the table |
| C161 | `PyRun.v`: `perform`, `session` | induction over what the program does; `MixedProofs`, `ScreenProofs` |
| C162 | `Unload.v`: the list of tags of libulog/ulog_write.c in the memory of libraries that are opened and closed | simulation by the list of tags in use; two histories with computed faults and an induction on the endless walks |

Properties that turn out to be false of the code as written are kept in `properties.jsonl` as
users would expect them, and answered with a `_refuted` theorem plus the strongest true variant
(`_partial`).

## Trusted base

* The Coq 8.16.1 kernel (and `coqchk`).
* Axioms: see the section "Assumptions of each theorem" below; all are "Closed under the
  global context" everywhere.
* The correspondence between the C sources and the Gallina definitions, which is by reading;
  each definition cites file and lines.
* Environment semantics written into the model: `copy_to_user`/`copy_from_user` either copy
  everything or report failure after copying a prefix (destination zero-filled);
  mutexes provide mutual exclusion; `read`/`writev`/`ioctl` reach the driver unmodified;
  `snprintf`/`vsnprintf` follow C11 truncation semantics; `getenv` is a function of its name.
* Little-endian layout of the header (as on all supported targets); `size_t` is 64 bits and the
  drop counters do not overflow 2^64.

## Modelled / not modelled

Lines cited by definitions of the model, by source file, and what is left out. Headers that only
declare are not listed. Tests (`libulog/tests`, `ulogcat/tests`), build files, vala bindings and
systemd or udev files are not modelled.

| source | model files | modelled |
|--------|-------------|----------|
| `kernel/ulogger-3.x.c` | `Load`, `Minor`, `Versions` | only what differs from 6.x; the rest is the same code |
| `kernel/ulogger-4.x.c` | `Load`, `Minor`, `Versions` | only what differs from 6.x; the rest is the same code |
| `kernel/ulogger-6.x.c` | `Busy`, `Bytes`, `FrontRun`, `Live`, `Load`, `Minor`, `Program`, `Registry`, `Ring`, `Stamp`, `UloggerRun`, `Versions`, `WaitQ` | all of it but: sysfs plumbing (one show function is modelled), misc_register itself (oracle), locking primitives (atomic sections), `vmalloc` failure only in the registry |
| `kernel/ulogger.c` | - | selects one of the three files above |
| `kmsgd/kmsgd.c` | `Kmsgd`, `KmsgdShow` | all |
| `kmsgd/kmsgd_evt.c` | `Kmsgd`, `KmsgdShow` | all; libpomp is an oracle |
| `libulog-redirect/ulog_glib.c` | `FrontRun`, `Redirect`, `RedirectLife` | all: conversion of levels and messages, installation of the handler, set_level; the handler table of glib is an oracle |
| `libulog-redirect/ulog_gst.c` | `FrontRun`, `Redirect`, `RedirectLife` | as ulog_glib.c |
| `libulog-redirect/ulog_obus.c` | `FrontRun`, `Redirect`, `RedirectLife` | as ulog_glib.c |
| `libulog-redirect/ulog_stdcerr.cpp` | `Cerr` | all: the stream buffer and its installation in std::cerr |
| `libulog/include/ulog.h` | `Bytes`, `Cookies`, `Errno`, `KmsgdShow`, `Macros`, `Parse`, `Program`, `RedirectLife`, `Shd`, `ShdRun`, `SignalLog`, `SrvApp`, `Threadx`, `ThreadxRest`, `Unload`, `Wrapper`, `Writer` | the macros of logging, errors, events, throttling and change detection, levels, cookies; not convenience macros that only expand to these |
| `libulog/ulog.cpp` | `Cerr`, `Stream`, `StreamRun`, `StreamThreads` | all; pthread keys by their documented behaviour |
| `libulog/ulog_api.sh` | - | all; the shell by its documented behaviour (variables, printf, redirection), external commands run by scripts not |
| `libulog/ulog_read.c` | `Bytes`, `Parse` | all |
| `libulog/ulog_write.c` | `Bytes`, `Cookies`, `Ctl`, `Errno`, `FrontRun`, `Iov`, `KmsgdShow`, `Macros`, `Program`, `Py`, `PyLoop`, `PySetup`, `Redirect`, `RedirectLife`, `ShdRun`, `SignalLog`, `SrvApp`, `StreamRun`, `Syslog`, `Unload`, `Writer` | all but ulog_get_time_monotonic (clock) and the replay timestamp of the no-op writer |
| `libulog/ulog_write_android.c` | `SyslogRun`, `Wrapper` | all; the Android log library is an oracle |
| `libulog/ulog_write_bin.c` | `BinChunk`, `Devopen`, `Iov` | all |
| `libulog/ulog_write_raw.c` | `Bytes`, `Devopen`, `Iov`, `PyRun`, `ShdRun`, `UloggerRun` | all |
| `libulogctl/examples/ulogctl-srv.c` | `CtlLife`, `SignalLog`, `SrvApp` | all but the usage text |
| `libulogctl/src/ulogctl_cli.c` | `Ctl`, `CtlMem`, `CtlSys`, `CtlTool`, `ToolLink` | all; libpomp is an oracle |
| `libulogctl/src/ulogctl_log.c` | `SrvApp` | declares a tag |
| `libulogctl/src/ulogctl_srv.c` | `Bytes`, `Ctl`, `CtlLife`, `CtlMem`, `CtlSys`, `CtlTool`, `SrvApp` | all; libpomp is an oracle |
| `libulogctl/tool/ulogctl.c` | `CtlLife`, `CtlTool`, `SignalLog`, `ToolLink`, `ToolRun` | options, requests, loop, callbacks and output; not the usage text |
| `shdlogd/src/shdlogd.c` | `Relay`, `Shd`, `ShdRun`, `Shdlogd`, `SignalLog` | all but the usage text; libshdata, libpomp oracles |
| `threadx/src/ulog.c` | `Threadx`, `ThreadxRest` | all; the Amba libraries are oracles |
| `threadx/src/ulog_ctrl.c` | `Threadx`, `ThreadxRest` | all; AmbaPrint and libshdata are oracles |
| `ulog_shd/src/ulog.c` | `Relay`, `Shd`, `ShdLock`, `ShdRun` | all; libshdata, pthread oracles |
| `ulogcat/libulogcat_compat.c` | `CatOpen`, `CatOut` | all |
| `ulogcat/libulogcat_core.c` | `Busy`, `Cat`, `CatOpen`, `CatOut`, `DList`, `KlogRead`, `KmsgdShow`, `Live`, `Render` | all |
| `ulogcat/libulogcat_klog.c` | `Cat`, `CatOpen`, `Klog`, `KlogRead`, `KmsgdShow` | all |
| `ulogcat/libulogcat_text.c` | `Bytes`, `Live`, `Render` | all but time conversion (localtime_r, strftime: oracle) |
| `ulogcat/libulogcat_ulog.c` | `Busy`, `Cat`, `CatOpen`, `KmsgdShow`, `Live` | all |
| `ulogcat/ulogcat.c` | `Bytes`, `CatOpen`, `CatOut` | all but the usage text |
| `ulogger/ulogger.c` | `Ulogger`, `UloggerRun` | all but usage text |
| `ulogpy/ulog.py` | `FrontRun`, `Py`, `PyDev`, `PyLoop`, `PyRun`, `PySetup` | handlers (with opening, settings, times), bridge, throttled loggers, setup_logging; ctypes glue not |
| `ulogwrapper/ulog_syslog.c` | `Syslog`, `SyslogRun` | all |
| `ulogwrapper/ulogwrapper.c` | `Wrapper` | all; pseudo terminals and fork are oracles |

Oracles (their answers are universally quantified in the theorems): system calls, memory allocation
where its failure matters, libpomp, libshdata, glib, GStreamer, the Android log library, time,
`prctl`, signals. Memory is sequentially consistent wherever threads are modelled.

## Assumptions of each theorem

`Print Assumptions` says "Closed under the global context" for every theorem of `MANIFEST.json`:
no axiom is used, neither of the standard library nor our own. The files `Props*.v` print it at
each build. Theorems by property (R: refuted in full, see the note in `MANIFEST.json`):

| id | title | theorems | assumptions |
|----|-------|----------|-------------|
| C01 | Reads return exactly the written entries | `C01_reads_exact` | none |
| C02 | No silent loss: drop accounting is exact | `C02_exact_accounting`, `C02_reports_recognizable` | none |
| C03 | Failed reads consume nothing | `C03_failed_read_consumes_nothing`, `C03_no_data_changes_nothing` | none |
| C04 | A faulting write never creates or corrupts an entry | `C04_faulting_write` | none |
| C05 | The driver never touches memory outside the ring buffer | `C05_no_bad_access` | none |
| C06 | A restricted reader only ever receives its own entries | `C06_restricted_sees_own` | none |
| C07 | Sender identity in an entry cannot be forged without raw mode | `C07_identity` | none |
| C08 | Flush hides everything written before it | `C08_flush`, `C08_flush_empties` | none |
| C09 | poll() is exact | `C09_poll_exact` | none |
| C10 (R) | GET_NEXT_ENTRY_LEN gives the size needed by the next read | `C10_next_len_refuted`, `C10_next_len_partial` | none |
| C11 | GET_LOG_LEN is the size of the unread backlog | `C11_log_len` | none |
| C12 | An accepted write is stored whole up to the payload limit | `C12_write_stored`, `C12_split_irrelevant`, `C12_write_succeeds` | none |
| C13 | No unnecessary loss | `C13_no_unnecessary_loss` | none |
| C14 | Readers are independent | `C14_independent`, `C14_open_close` | none |
| C15 | Protocol version only changes the header layout | `C15_set_version`, `C15_layouts` | none |
| C16 | A late reader gets the retained backlog and an exact drop count | `C16_late_reader` | none |
| C17 | The device registry stays consistent | `C17_consistent`, `C17_add`, `C17_persistent`, `C17_list`, `C17_accepts`, `C17_blanks` | none |
| C18 | A blocked reader is never stranded | `C18_no_lost_wakeup`, `C18_safe`, `C18_mutex_released`, `C18_delivers` | none |
| C19 | Parsing never leaves the buffer | `C19_payload_in_bounds`, `C19_in_bounds` | none |
| C20 | Parsed strings are always terminated inside the entry | `C20_strings_terminated`, `C20_raw_strings_terminated` | none |
| C21 | A logged text message is read back unchanged | `C21_text_read_back` | none |
| C22 | Binary data is read back unchanged | `C22_binary_read_back`, `C22_bin_writev_read_back` | none |
| C23 | A raw entry is read back unchanged | `C23_raw_read_back`, `C23_no_forgery` | none |
| C24 (R) | Drop reports are well formed | `C24_report_parses_partial`, `C24_count_refuted` | none |
| C25 | Inconsistent raw buffers are refused | `C25_raw_consistent` | none |
| C26 | Chunked binary writes can be reassembled | `C26_reassembly`, `C26_one_buffer` | none |
| C27 | Chunks are never truncated by the kernel | `C27_fits`, `C27_no_room_refused`, `C27_chunk_read_back` | none |
| C28 | The chunk writer stays inside its vectors and terminates | `C28_in_bounds`, `C28_stops_at_first_failure` | none |
| C29 | A tag is registered exactly once under any schedule | `C29_registered_once`, `C29_initialised_once`, `C29_list_is_history` | none |
| C30 | Explicitly set levels are not lost | `C30_set_level_not_lost`, `C30_get_level` | none |
| C31 (R) | Initial level precedence | `C31_initial_level_partial`, `C31_long_names_refuted` | none |
| C32 | Filtering decision | `C32_filter`, `C32_extremes` | none |
| C33 | Setting a level by name affects exactly the named tag | `C33_set_by_name` | none |
| C34 | Tag enumeration is complete and bounded | `C34_names`, `C34_names_in_bounds`, `C34_foreach` | none |
| C35 | Formatted messages are bounded and terminated | `C35_formatted_message`, `C35_error` | none |
| C36 (R) | A custom writer stays in force | `C36_custom_writer_partial`, `C36_get_partial`, `C36_refuted` | none |
| C37 | The writer is initialised exactly once under concurrency | `C37_opens`, `C37_opened_once`, `C37_delivered_once`, `C37_no_crash`, `C37_get_not_null` | none |
| C38 | The chosen device name is never truncated | `C38_path_exact`, `C38_opened_next`, `C38_too_long`, `C38_never_stored` | none |
| C39 (R) | Throttled logging | `C39_safe`, `C39_gap`, `C39_not_starved_partial`, `C39_count_partial`, `C39_first_refuted`, `C39_count_refuted` | none |
| C40 (R) | Change-filtered logging | `C40_change_partial`, `C40_change_converted`, `C40_change_signed`, `C40_wide_refuted` | none |
| C41 | Stderr copy has exactly one line end per text message | `C41_line`, `C41_printed_once`, `C41_binary`, `C41_time` | none |
| C42 | The frame pool of the log reader is never exhausted and never leaks | `C42_pool` | none |
| C43 | The log reader merges devices by time | `C43_merge`, `C43_any_times`, `C43_ulog_mark`, `C43_ulog_covers`, `C43_ulog_accepts` | none |
| C44 | Tail mode shows exactly the last N entries | `C44_tail` | none |
| C45 (R) | Dump mode terminates | `C45_dump_ends_refuted`, `C45_quiet_ends_partial` | none |
| C46 | Rendering never overruns the output buffer | `C46_buffer`, `C46_banner` | none |
| C47 (R) | CSV output is lossless | `C47_shape`, `C47_printed_partial`, `C47_lossless_partial`, `C47_dropped_refuted`, `C47_commas_refuted` | none |
| C48 | Multi-line messages are split on line boundaries | `C48_lines`, `C48_lines_unique` | none |
| C49 (R) | Kernel record unescaping is exact | `C49_bytes`, `C49_shown_partial`, `C49_nul_refuted`, `C49_inside`, `C49_any` | none |
| C50 (R) | Kernel message prefixes are decoded | `C50_line`, `C50_untimed`, `C50_plain`, `C50_inside`, `C50_late_refuted`, `C50_malformed_refuted` | none |
| C51 | Intrusive lists behave as queues | `C51_init`, `C51_add`, `C51_remove`, `C51_visit`, `C51_close` | none |
| C52 (R) | The kernel message relay keeps lines whole | `C52_lines_partial`, `C52_nul_refuted` | none |
| C53 (R) | Shared-memory log samples round-trip | `C53_inside`, `C53_round_trip_partial`, `C53_delivered_partial`, `C53_escape_refuted`, `C53_long_tag_refuted` | none |
| C54 (R) | Lost shared-memory samples are counted | `C54_gaps_partial`, `C54_total_partial`, `C54_half_refuted` | none |
| C55 (R) | syslog wrapper keeps the mask contract | `C55_mask_partial`, `C55_upto_partial`, `C55_zero_refuted`, `C55_low_refuted`, `C55_first_refuted` | none |
| C56 | Foreign log levels map monotonically | `C56_glib`, `C56_glib_emits`, `C56_gst`, `C56_obus` | none |
| C57 (R) | C++ stream logging loses no text | `C57_statements_partial`, `C57_pieces`, `C57_level_refuted`, `C57_saturation_refuted`, `C57_put_refuted` | none |
| C58 (R) | The control client reports each request exactly once | `C58_once_partial`, `C58_lost_refuted`, `C58_spurious_refuted`, `C58_failed_start_refuted`, `C58_reentrant_refuted` | none |
| C59 (R) | The control server lists exactly the registered tags | `C59_list_partial`, `C59_set_partial`, `C59_broadcast_refuted`, `C59_duplicate_refuted` | none |
| C60 | Registry calls cannot deadlock | `C60_calls_can_complete` | none |
| C61 (R) | Changing the device leaks no descriptor | `C61_no_leak_partial`, `C61_refuted` | none |
| C62 (R) | Messages are written to an open descriptor | `C62_open_descriptor_partial`, `C62_refuted` | none |
| C63 (R) | The device named by the environment is opened under its name | `C63_env_device_partial`, `C63_default_device`, `C63_refuted` | none |
| C64 (R) | Device registration handles memory exactly | `C64_no_leak`, `C64_safe_partial`, `C64_name_refuted` | none |
| C65 (R) | Every tail setting is handled | `C65_negative_tail_refuted`, `C65_tail_partial` | none |
| C66 (R) | A dump of the kernel log is complete | `C66_klog_dump_refuted`, `C66_klog_dump_partial` | none |
| C67 (R) | Rendered messages are complete lines | `C67_cut`, `C67_whole_lines_refuted` | none |
| C68 (R) | Decoding an entry of the kmsgd device reads only the bytes of its record, binary entries included | `C68_binary_refuted`, `C68_stale_refuted`, `C68_text_partial` | none |
| C69 (R) | GStreamer entries stay in their buffer | `C69_entry_partial`, `C69_overflow_refuted` | none |
| C70 (R) | syslog messages keep their text | `C70_text_partial`, `C70_long_refuted` | none |
| C71 (R) | openlog names the messages | `C71_ident_partial`, `C71_ident_refuted` | none |
| C72 (R) | Malformed control messages are harmless | `C72_server`, `C72_client_partial`, `C72_client_refuted` | none |
| C73 (R) | Done means sent | `C73_done_partial`, `C73_done_refuted` | none |
| C74 (R) | ulogger relays its input | `C74_stdin_partial`, `C74_stdin_refuted` | none |
| C75 | ulogger logs its arguments | `C75_args` | none |
| C76 (R) | ulogger takes the times it is given | `C76_times_partial`, `C76_line_refuted`, `C76_args_refuted` | none |
| C77 | ulogger copies to stderr what it logs | `C77_copy` | none |
| C78 (R) | ulogger keeps the tag asked for | `C78_fallback_partial`, `C78_tag_refuted` | none |
| C79 | ulogger ends and stays inside its buffers | `C79_total` | none |
| C80 | The driver versions agree | `C80_versions` | none |
| C81 (R) | A write stores only its own data, whatever its source | `C81_source_partial`, `C81_leak_refuted`, `C81_oob_refuted` | none |
| C82 (R) | ThreadX: the tag registry stays sound under any interleaving | `C82_registry_partial`, `C82_visit_partial`, `C82_mutex_refuted` | none |
| C83 | ThreadX: levels | `C83_levels`, `C83_by_name`, `C83_not_ready` | none |
| C84 (R) | ThreadX: enabled messages are printed | `C84_printed_partial`, `C84_str_refuted`, `C84_flags_refuted`, `C84_letter_refuted` | none |
| C85 (R) | ThreadX: samples are well formed | `C85_inside`, `C85_same`, `C85_colour`, `C85_long_name_refuted` | none |
| C86 (R) | ThreadX: every message put is stored | `C86_stored_partial`, `C86_dropped_refuted`, `C86_index_refuted` | none |
| C87 (R) | The relay accounts for every sample | `C87_accounted_partial`, `C87_once_partial`, `C87_same_time_refuted`, `C87_read_error_refuted`, `C87_no_match_refuted`, `C87_wrap_refuted` | none |
| C88 (R) | Python records reach the library line by line | `C88_lines_partial`, `C88_levels`, `C88_prio_refuted`, `C88_custom_level_refuted`, `C88_surrogate_refuted`, `C88_empty_refuted`, `C88_nul_refuted` | none |
| C89 (R) | The python device handler is faithful | `C89_lines_partial`, `C89_plain_partial`, `C89_raw_partial`, `C89_thread_name_refuted` | none |
| C90 (R) | The python bridge delivers once | `C90_bridge_partial`, `C90_forward_again_refuted`, `C90_colour_refuted` | none |
| C91 (R) | Python throttled and changed logs | `C91_throttled_partial`, `C91_changed_partial`, `C91_shared_refuted`, `C91_level_refuted` | none |
| C92 (R) | Servers and clients of the log control meet | `C92_unix_partial`, `C92_process`, `C92_distinct`, `C92_long_refuted`, `C92_cut_name_refuted`, `C92_no_context_refuted` | none |
| C93 (R) | ulogctl asks what its options ask | `C93_letters`, `C93_request_partial`, `C93_two_refuted`, `C93_ends_refuted`, `C93_high_levels_refuted` | none |
| C94 (R) | The log reader opens the devices asked for | `C94_named_partial`, `C94_all`, `C94_places`, `C94_opens`, `C94_kmsgd_refuted`, `C94_long_refuted` | none |
| C95 (R) | The log reader closes what it opened | `C95_closed_partial`, `C95_failed_partial`, `C95_tool_partial`, `C95_unused_refuted`, `C95_stdin_refuted`, `C95_failure_refuted` | none |
| C96 (R) | Clearing empties every device | `C96_clear_partial`, `C96_kmsgd_refuted` | none |
| C97 (R) | The options of ulogcat mean what its help says | `C97_options_partial`, `C97_main_partial`, `C97_refused`, `C97_tail_refuted` | none |
| C98 (R) | The old interface of the log reader | `C98_create`, `C98_first_partial`, `C98_next`, `C98_destroy_partial`, `C98_late_refuted`, `C98_retry_refuted` | none |
| C99 (R) | kmsgd reports the anomalies of the kernel | `C99_events_partial`, `C99_unended_refuted`, `C99_second_refuted` | none |
| C100 (R) | ulogwrapper runs a program with its syslog calls redirected | `C100_program`, `C100_wrapped_partial`, `C100_no_device`, `C100_prefix_refuted`, `C100_fallback_refuted`, `C100_cut_refuted` | none |
| C101 (R) | Messages forwarded to Android keep their severity | `C101_android_partial`, `C101_emergency_refuted` | none |
| C102 | A dump of driver devices shows exactly what the driver holds, merged by time | `C102_dump`, `C102_any_times` | none |
| C103 | The text that comes out is the rendering of the entries, in order and complete | `C103_text` | none |
| C104 | One banner per device, before its first entry, and only with several devices | `C104_banners`, `C104_banner_text` | none |
| C105 | What programs log through the library is what ulogcat shows | `C105_end_to_end`, `C105_any_times` | none |
| C106 | Nothing a device delivers is lost, repeated or reordered | `C106_no_loss` | none |
| C107 | Following the logs of a running system | `C107_follow` | none |
| C108 | Everything is shown once the system is silent | `C108_settles` | none |
| C109 | Raw and binary interfaces open the device asked for and leak nothing | `C109_raw_open`, `C109_bin_open`, `C109_named`, `C109_no_leak` | none |
| C110 | Where raw and binary writes go | `C110_bin_write`, `C110_bin_write_one`, `C110_raw_write` | none |
| C111 (R) | shdlogd releases everything it obtained, once, and uses only what it holds | `C111_released`, `C111_released_partial`, `C111_released_refuted` | none |
| C112 | The options of shdlogd | `C112_options`, `C112_usage` | none |
| C113 (R) | A signal ends shdlogd, and what its result tells | `C113_stops`, `C113_status`, `C113_orderly_refuted` | none |
| C114 | Threads logging to shared memory neither mix, lose, renumber nor block each other | `C114_order`, `C114_ends` | none |
| C115 (R) | ulog_shd_init all or nothing | `C115_init`, `C115_safe`, `C115_failure_refuted` | none |
| C116 (R) | The level control library frees what it allocates | `C116_client_partial`, `C116_create`, `C116_client_refuted`, `C116_server_partial`, `C116_server_refuted` | none |
| C117 (R) | Starting, stopping and destroying control servers and clients | `C117_server`, `C117_client_refuted`, `C117_destroy_refuted` | none |
| C118 (R) | Reading the kernel log | `C118_follow`, `C118_terminated`, `C118_malformed`, `C118_nomem`, `C118_long_refuted` | none |
| C119 (R) | Malformed kernel records | `C119_inside_partial`, `C119_own`, `C119_stale_refuted`, `C119_overrun_refuted` | none |
| C120 (R) | What the log reader outputs when its output may fail | `C120_whole`, `C120_live`, `C120_cut_partial`, `C120_follow`, `C120_tool`, `C120_short_refuted`, `C120_dump_refuted` | none |
| C121 (R) | Threads using the C++ streams do not disturb each other | `C121_apart_partial`, `C121_good`, `C121_memory`, `C121_bad_refuted` | none |
| C122 (R) | Error macros tell the error once and return it | `C122_log`, `C122_return_err`, `C122_return_val_partial`, `C122_return`, `C122_first`, `C122_event`, `C122_return_val_refuted`, `C122_long_refuted` | none |
| C123 (R) | setup_logging makes python messages appear as those of C programs | `C123_log`, `C123_log_partial`, `C123_own_level_refuted`, `C123_hidden_refuted`, `C123_uncaught`, `C123_name`, `C123_no_name`, `C123_level_refuted`, `C123_tag_refuted`, `C123_twice_refuted`, `C123_cut_refuted` | none |
| C124 (R) | ThreadX: tag names, level letters, throttled messages and the start of sharing | `C124_names`, `C124_names_none`, `C124_letters`, `C124_throttle_partial`, `C124_throttle_lost`, `C124_init`, `C124_throttle_refuted`, `C124_unit_refuted` | none |
| C125 (R) | A signal handler that logs ends | `C125_ready_partial`, `C125_free_partial`, `C125_logged_before`, `C125_stuck`, `C125_stuck_output`, `C125_refuted` | none |
| C126 (R) | Redirected libraries obey the level set for them | `C126_glib`, `C126_glib_by_name`, `C126_glib_initial`, `C126_native`, `C126_obus`, `C126_gst_partial`, `C126_gst_twice_refuted`, `C126_gst_level_refuted`, `C126_domain_refuted` | none |
| C127 (R) | Text written to a redirected std::cerr is logged | `C127_redirected_partial`, `C127_pending`, `C127_line_refuted`, `C127_char_refuted`, `C127_mixed_refuted` | none |
| C128 | What the kernel says is what a viewer of the kmsgd device shows | `C128_kernel_end_to_end` | none |
| C129 | A connected control client and server agree | `C129_connected`, `C129_set_then_list` | none |
| C130 | Logging calls show on the screen | `C130_screen`, `C130_fits` | none |
| C131 (R) | Messages of a device are in the order of their times | `C131_order_refuted`, `C131_calls_partial`, `C131_sequential_partial`, `C131_thread_partial` | none |
| C132 (R) | What a run of the tool ulogctl shows and does | `C132_tool`, `C132_takes_effect`, `C132_unknown_refuted` | none |
| C133 (R) | What the example control server logs and where it listens | `C133_ticks`, `C133_refused`, `C133_address_partial`, `C133_port_refuted` | none |
| C134 | What ulogger is given shows on the screen of ulogcat | `C134_runs`, `C134_screen` | none |
| C135 (R) | Users read back what they logged with ulogger | `C135_own_partial`, `C135_own_refuted` | none |
| C136 | Messages of a real-time system reach the screen through shared memory and shdlogd | `C136_screen` | none |
| C137 | Syslog calls of a program reach the screen as asked | `C137_screen` | none |
| C138 | Messages of python programs and of redirected libraries reach the screen as asked | `C138_screen`, `C138_all` | none |
| C139 | Messages of the C++ streams are shown on the screen | `C139_screen` | none |
| C140 (R) | A reader who may only read their own entries is told how many of their own were lost | `C140_own_losses_refuted`, `C140_unseen_refuted`, `C140_at_least_partial` | none |
| C141 (R) | What a run of ulogctl tells when the connection can break | `C141_tool_partial`, `C141_done_refuted`, `C141_error_refuted` | none |
| C142 (R) | A script reading the CSV output gets back what programs logged | `C142_csv_partial`, `C142_lines_refuted` | none |
| C143 (R) | What is on the screen tells who said what | `C143_read_partial`, `C143_forged_refuted`, `C143_levels_refuted` | none |
| C144 (R) | What a line of ulogcat tells in each of its text formats | `C144_lines_partial`, `C144_colours`, `C144_forged_refuted` | none |
| C145 (R) | Signals end the programs of the log control, which release what they obtained | `C145_server_partial`, `C145_tool_partial`, `C145_late_refuted`, `C145_status_refuted`, `C145_request_refuted` | none |
| C146 (R) | A saved output function can be put back | `C146_restored_partial`, `C146_got_again`, `C146_device_refuted` | none |
| C147 (R) | Large binary data sent in chunks can be put together again by a reader of the log | `C147_blobs_partial`, `C147_long_refuted` | none |
| C148 (R) | Devices can be opened, added and listed at the same time | `C148_opened`, `C148_right_one`, `C148_all_finish_partial`, `C148_deadlock_refuted`, `C148_names` | none |
| C149 (R) | A bridged message of C code is output once although python logs to ulog too | `C149_once_partial`, `C149_flood`, `C149_flood_refuted`, `C149_bytes_refuted` | none |
| C150 (R) | Concurrent calls on a device behave as calls made one at a time | `C150_serial_partial`, `C150_modes`, `C150_device`, `C150_accepted`, `C150_raw_refuted`, `C150_no_raw` | none |
| C151 (R) | The colour of a relayed message is the colour it was printed in | `C151_colour_partial`, `C151_cyan_refuted`, `C151_yellow_refuted` | none |
| C152 | Messages read while others write | `C152_sources` | none |
| C153 | Messages of shell scripts on the screen | `C153_screen`, `C153_runs` | none |
| C154 (R) | One entry for each message of a shell script | `C154_once_partial`, `C154_lines_refuted`, `C154_output_refuted` | none |
| C155 (R) | Copies of the messages of shell scripts on the console | `C155_console_partial`, `C155_console_refuted` | none |
| C156 (R) | Variables of shell scripts that log | `C156_variables_partial`, `C156_variables_refuted` | none |
| C157 (R) | A python device handler opens the device it is named for, creating it if it is missing | `C157_open`, `C157_creates`, `C157_other_device_refuted` | none |
| C158 (R) | A python device handler in raw mode logs the ids and names set last, or those of who logs | `C158_identity_partial`, `C158_fork_refuted`, `C158_machine_refuted`, `C158_zero_refuted` | none |
| C159 (R) | The time of a raw entry of the python handler is close to the clock and never goes back | `C159_near`, `C159_any_clock`, `C159_monotone`, `C159_exact_refuted`, `C159_late_refuted` | none |
| C160 (R) | Loading the driver is all or nothing, and unloading gives everything back | `C160_load_partial`, `C160_register_refuted`, `C160_attribute_refuted`, `C160_memory_refuted`, `C160_unload` | none |
| C161 (R) | Records logged through a python device handler are on the screen of ulogcat | `C161_screen_partial`, `C161_plain`, `C161_own_refuted` | none |
| C162 (R) | Tags of shared libraries that are opened and closed | `C162_kept_partial`, `C162_direct`, `C162_closed_refuted`, `C162_reopened_refuted` | none |
