# Design of the fn-log formal model

The model is a set of total, computable Gallina functions transcribed from the
headers in `/repo/src/include`, function by function.  Every definition cites the
file and lines it models and says where it is simplified.  Theorems are stated
against small specifications (`*Spec.v`) that do not use the model's helpers.

This file is generated by `tools/mkdesign.py` from `tools/design_head.md`,
`tools/design_how.py`, `properties.jsonl` and `MANIFEST.json`.

## Conventions

* Integers are `Z`.  C++ fixed-width effects (wrap-around of unsigned types,
  truncating casts, table indices, shifts) are written out where they occur.
* Undefined behaviour (signed overflow, over-wide shift, `clz(0)`, access outside
  an array, null pointer) is the separate outcome `Ub`.  Every theorem that says a
  function returns also says that it does not reach `Ub`.
* A loop that may not end runs on fuel and yields the separate outcome `Fuel`.
  Termination claims are "some fuel suffices" (and more fuel gives the same
  result); non-termination claims are "out of fuel for every fuel".
* Bytes are `Z` in 0..255, buffers are lists of bytes of a fixed length.
* Concurrency is a labelled transition system in which one atomic operation of the
  source is one step, under sequential consistency; schedules are lists of steps
  of any length, for any number of threads and any ring size.
* `LOG_SIZE`, `BUFFER_LEN`, the maxima of channels and devices and the contents of
  the operating system (clock, files, sockets, threads) are parameters that the
  theorems quantify over.
* Names: `Cxx_...` is proved in full; `..._partial` is proved with a gap that the
  note states; `..._refuted` shows by a witness that the natural statement is
  false of the code.  A property is "proved" if its statement, with the conditions
  written in it, is proved; it is "partial" if a part of the statement is false of
  the code (then there is a witness) or missing.
* Each property theorem stands in a `Props*.v` file, is followed by
  `Print Assumptions`, and has an `Example` beside it in which its hypotheses hold
  in a concrete, non-trivial case.
* Examples and witnesses are tests or refutations; no theorem is a bounded check.

## Layout (rocq/theories, in build order)

| file | contents |
| --- | --- |
| `Base.v` | Outcomes, bytes and buffers shared by all models |
| `BaseFacts.v` | Lemmas about Base.v |
| `NumFmt.v` | Model of the integer formatters of src/include/fn_fmt.h (non-WIN32 branches) |
| `NumSpec.v` | What a positional numeral is, independently of any formatter |
| `NumFacts.v` | Lemmas about numerals (NumSpec.v) |
| `NumFmtProofs.v` | Correctness of the integer formatters (NumFmt.v) against NumSpec.v |
| `PropsNum.v` | Property theorems C07-C10: integer and pointer text |
| `LoggerState.v` | The part of FNLog::Logger / SHMLogger / Channel / Device that the filters and the run-time configuration calls read and write (src/include/fn_data.h) |
| `Filter.v` | Model of the admission filter, the dispatch filter and the virtual-device hook: src/include/fn_channel.h, fn_out_virtual_device.h, fn_stream.h |
| `FilterSpec.v` | What the documented filters mean, independently of the code |
| `FilterProofs.v` | Correctness of Filter.v against FilterSpec.v |
| `PropsFilter.v` | Property theorems C01-C05: admission, dispatch, masks, virtual hook |
| `ConfigApi.v` | Model of the run-time configuration calls of src/include/fn_core.h:264-369 |
| `ConfigSpec.v` | The configuration of a logger as a plain table, and what each call does to it |
| `ConfigProofs.v` | ConfigApi.v refines the table of ConfigSpec.v |
| `PropsConfig.v` | Property theorems C06, C61: the run-time configuration calls |
| `DateFmt.v` | Model of write_date_unsafe (src/include/fn_fmt.h:319-368) with its thread-local date cache, and of the libc calendar calls it uses |
| `DateSpec.v` | The Gregorian calendar and the layout of a printed timestamp |
| `CalendarFacts.v` | The day-number algorithm of DateFmt.v against the calendar of DateSpec.v |
| `DateProofs.v` | write_date prints the calendar time of its timestamp |
| `PropsDate.v` | Property theorems C11: printed timestamps |
| `DblFmt.v` | Model of write_double_unsafe / write_float_unsafe (src/include/fn_fmt.h:249-317) |
| `DblSpec.v` | What the printed form of a floating point number should be |
| `DblProofs.v` | write_double prints the truncated value |
| `PropsDbl.v` | Properties C12 and C62: floating point output |
| `Stream.v` | Model of LogStream (src/include/fn_stream.h) on one record's content buffer, of the end of PushChannel that terminates the text, and of LOG_FORMAT. |
| `StreamSpec.v` | What streaming should produce, in terms of text only |
| `StreamProofs.v` | Streaming appends exactly the specified text |
| `RenderProofs.v` | Where there is room a value is rendered as plain text |
| `PrefixProofs.v` | The constructor writes the documented prefix |
| `StreamUnique.v` | The text a value, a prefix or a statement stands for is determined by it |
| `Moves.v` | Model of who owns a reserved slot: construction, move and destruction of LogStream objects (src/include/fn_stream.h:76-113, 176-200) |
| `MovesProofs.v` | Slots held = slots pushed + slots still owned |
| `PropsStream.v` | Properties C13-C18, C56, C60, C63: log streams, prefixes, LOG_FORMAT. |
| `Ring.v` | The lock-free queue of one channel and the threads that use it |
| `RingSpec.v` | What the queue properties talk about, in terms of schedules and of what threads are doing |
| `RingInv.v` | The invariant of the queue and its preservation by every step of a schedule without full laps and without restart |
| `RingProofs.v` | Consequences of the queue invariant for whole schedules |
| `RingLive.v` | Nothing gets stuck: when a record could be published, claimed or released, some thread is about to do it |
| `RingRun.v` | Whole runs: order on single-consumer channels, counters, per-thread order, and what holds when no log statement is in progress |
| `RingQuiet.v` | Runs without stop: per-thread order, counters, quiescence, draining, stopping |
| `RingStop.v` | Stopping an asynchronous channel that no log statement is using |
| `RingPrio.v` | The byte counter of PushChannel with one logging thread; counters over all schedules; single-threaded sync channels; stopped channels |
| `PropsRing.v` | Properties C19-C29, C64, C65: the queue of one channel under every schedule |
| `Recover.v` | Attaching to the shared memory of an earlier process: LoadSharedMemory, fn_load.h:38-141, for a positive shm_key_ and system calls that succeed (the error returns of shmget and shmat, 49-54, 59-63, 65-69 and 77-81, change nothing and are left out) |
| `RecoverSpec.v` | What the recovery properties talk about |
| `RecoverProofs.v` | Proofs about recovery |
| `RecoverRing.v` | Recovery on the queue: what the new process finds and what its writer thread delivers |
| `PropsRecover.v` | Properties C32-C34: attaching to the shared memory of a crashed process |
| `PropsLap.v` | What a full lap of hold_idx_ does to C22, C23, C24 and C32: finished records hidden and lost |
| `FileName.v` | File name templates: PreFmtName, FmtName, MakeFileName and MakePathName, fn_out_file_device.h:18-188, and the std::string operations they use |
| `FileNameSpec.v` | What file name templates mean |
| `FileNameProofs.v` | Proofs about FileName.v |
| `FileDev.v` | The file device: FileHandler::rollback (fn_file.h:370-392), OpenFileDevice and EnterProcOutFileDevice (fn_out_file_device.h:192-339) |
| `FileDevSpec.v` | What rolling and writing log files should do |
| `RollProofs.v` | Proofs about rollback in FileDev.v |
| `FileDevProofs.v` | Proofs about the file device of FileDev.v |
| `FileRunProofs.v` | Runs of the file device: bounds, limits, days, contents |
| `FilePathProofs.v` | The full path of a log file, and records that stay in the open file |
| `PropsFile.v` | Properties of the file device: C35-C41 and C66-C68 |
| `ParseVal.v` | The parsers of single keys and values of the configuration file, fn_parse.h:203-749 |
| `Lexer.v` | Model of the line lexer Lex of the configuration parser, fn_parse.h:934-1134 |
| `ParseCfg.v` | Model of the configuration parser above the line lexer: macros, variables, ParseDevice, ParseChannel and ParseLogger, fn_parse.h:750-926 and 1136-1512 |
| `ParseSpec.v` | What the properties of the configuration parser say |
| `TextSpec.v` | How a configuration is written: lines, values, options |
| `LexProofs.v` | The lexer stays inside the text and always returns |
| `ParseSafe.v` | The configuration parser on every text: what it can deliver, where it stays, and when it returns |
| `ParseInv.v` | The parser above the lexer, on every text: where it stays, when it returns and what it delivers |
| `LexLine.v` | What the lexer makes of a well-formed line |
| `ValSpec.v` | How option values are written: numbers, bit lists, addresses; and the documented keys |
| `ValProofs.v` | Values: numbers, bit lists and addresses are read as they are written |
| `ParseRefute.v` | Runs of the configuration parser that never end, and other concrete runs |
| `ParseDet.v` | The result of the parser does not depend on the initial content of shm_key_, except for that field |
| `ParseMono.v` | The fuel only decides whether the parser's result is known: two results agree |
| `PropsParse.v` | Properties of the configuration parser |
| `SubstSpec.v` | What define and var lines do to the rest of the text |
| `SubstProofs.v` | Substitution of macros and variables |
| `SubstSelf.v` | Names that are defined as themselves (C49) |
| `ParseStuck.v` | Configurations whose parsing does not end (C42) |
| `Samples.v` | The sample configurations of the repository, byte by byte |
| `PropsSubst.v` | Properties of macros and variables in a configuration |
| `CfgSpec.v` | Configurations as lists of options, how they are written down, and what they mean |
| `CfgVals.v` | Single options: what the parser makes of key and value |
| `CfgProofs.v` | A written configuration is read back |
| `PropsCfg.v` | A configuration that is written down is read back |
| `Load.v` | Loading a configuration into a logger, hot update and the life cycle: fn_load.h:22-36, 142-383 and fn_core.h:28-261, 373-422 |
| `LoadSpec.v` | What loading, hot update and the life cycle of a logger are to do |
| `LoadProofs.v` | Loading, hot update and the life cycle of a logger |
| `PropsLoad.v` | Loading, hot update and the life cycle: C51, C52, C53, C55, C77, C78, C79 |
| `Stop.v` | StopLogger and the writer threads it waits for: fn_core.h:76-107, 170-209, fn_channel.h:99-270, fn_load.h:277-383 |
| `StopSpec.v` | What is meant by StopLogger returning under every schedule |
| `StopProofs.v` | StopLogger returns, or a writer waits for the lock that StopLogger holds |
| `PropsStop.v` | StopLogger always returns: C54 |
| `World.v` | One log statement from beginning to end: HoldChannel, the LogStream object, the hook with TransmitChannel, PushChannel, EnterProcChannel, DispatchLog and the output devices (fn_channel.h, fn_stream.h, fn_out_*_device.h) |
| `WorldSpec.v` | What a log statement should do, in terms of the filters (FilterSpec.v), the text it writes (StreamSpec.v) and what leaves the logger |
| `WorldProofs.v` | Proofs about World.v |
| `WorldUdp.v` | What a channel does with incoming datagrams |
| `WorldSeq.v` | Sequences of log statements |
| `PropsWorld.v` | Properties C30, C31, C57, C58, C81-C86: log statements from the call to the devices, forwarded records and forwarded datagrams |
| `HookSpec.v` | What a log statement with a user hook does, independently of World.v's functions: the record the hook sees, the channels it is transmitted to, the own channel |
| `HookProofs.v` | Proofs about log statements with a user hook |
| `PushProofs.v` | PushChannel in any state of the queue, with any number of slots being filled |
| `PropsHook.v` | Properties C87-C89: statements with a user hook, and PushChannel in any state of the queue |
| `FastStart.v` | Starting the default logger without a configuration file: FastStartDefaultLogger and FastStartDebugLogger, fn_macro.h:39-116 |
| `FastSpec.v` | What the comments at the head of default_config_text (fn_macro.h:55-64) promise |
| `FastProofs.v` | Proofs about FastStart.v |
| `RouteSpec.v` | Where the settings of a configuration send a statement |
| `RouteProofs.v` | From loaded and hot-updated settings to the devices that are reached |
| `PropsRoute.v` | From the text of a configuration to the devices that a statement reaches |
| `Sys.v` | The helpers around the operating system: reading a file, the process name, making directories (fn_file.h:197-223, 253-340, fn_core.h:373-393) and the opening of UDP sockets (fn_file.h:453-500, fn_channel.h:201-236, fn_out_udp_device.h:25-33) |
| `SysSpec.v` | What the helpers around the operating system are to do |
| `SysProofs.v` | Proofs about Sys.v |
| `PropsSys.v` | Reading files, names, directories and sockets: C94-C100 |
| `Bulk.v` | The calls of fn_log.h that set one thing for all channels or for all devices of a kind |
| `BulkSpec.v` | What the calls of fn_log.h should do to a device, to a channel and to routing |
| `BulkProofs.v` | Proofs about Bulk.v |
| `PropsBulk.v` | Properties C101-C103: the calls that set one thing for all channels or all devices of a kind |
| `Disk.v` | All file devices of a logger on one file system |
| `DiskSpec.v` | What the files of a logger should hold |
| `DiskProofs.v` | Proofs about Disk.v |
| `DiskSeq.v` | From log statements to the files: proofs |
| `PropsDisk.v` | Properties of all log files together (C104, C105) |
| `MixSpec.v` | Statements and rounds of the writer threads in any order: what should happen |
| `MixProofs.v` | Statements and rounds of the writer threads in any order: proofs |
| `PropsMix.v` | Properties of statements and writer rounds in any order (C106, C107) |
| `LinSpec.v` | Threads logging at the same time compared with the same statements one after the other |
| `LinProofs.v` | What threads logging at the same time write is what the same statements write one after the other |
| `PropsLin.v` | Property C108: threads logging at the same time write what the same statements write one after the other |
| `Mem.v` | The memory accesses of the queue: for every step of Ring.v the places in memory it touches, the way it touches them and the line that does so |
| `MemSpec.v` | Happens-before and data races of a list of memory accesses, after the C++ memory model ([intro.races]) for executions in which every atomic read sees the last write |
| `MemProofs.v` | Every access to a record is ordered by happens-before with the earlier ones: an invariant that says through which index or mark the accesses are handed on |
| `PropsMem.v` | Property C109: the memory order of the queue |
| `Report.v` | What InitFromYMAL prints about a rejected configuration: DebugErrno, fn_parse.h:39-116, and the report of fn_load.h:169-193 |
| `ReportSpec.v` | Lines of a text and the report of a rejected configuration |
| `ReportProofs.v` | Where the parser stands when it rejects a configuration, and what is printed |
| `AcceptSpec.v` | What every line of an accepted configuration looks like |
| `AcceptProofs.v` | Every line of an accepted configuration has been read without an error |
| `PropsAccept.v` | Properties of accepted configurations, line by line: C70, C71 |
| `PropsReport.v` | Property theorems about the report of a rejected configuration |
| `RestartSpec.v` | A logger that is stopped and started again, any number of times, each time while no thread is inside a log statement |
| `RestartProofs.v` | A channel after a quiet restart behaves like a new one: runs do not depend on the history nor on the counters |
| `PropsRestart.v` | Properties of a logger that is stopped and started again, any number of times, each time while no thread is inside a log statement |
| `Shm.v` | Shared memory segments as processes create, attach, leave and remove them: LoadSharedMemory and UnloadSharedMemory (fn_load.h:38-159) with the system calls they make |
| `ShmSpec.v` | What shared memory segments are to do |
| `ShmProofs.v` | Segments through load, unload and the end of a process |
| `PropsShm.v` | Property C112: shared memory segments over the lives of many processes |
| `ShmRace.v` | LoadSharedMemory (fn_load.h:38-141) in steps of one system call or one store to the header, so that the calls of several processes overlap |
| `ShmRaceSpec.v` | What processes that start at the same time are to find |
| `ShmRaceProofs.v` | Proofs for processes that load the same shared memory at the same time |
| `PropsShmRace.v` | Property C115: processes that load the shared memory of one key at the same time |
| `WeakRing.v` | The queue of one channel when memory is not sequentially consistent: every load may return an old value, as the C++ memory model allows for acquire loads |
| `WeakSpec.v` | What the weak memory properties talk about |
| `WeakProofs.v` | Proofs about the queue in weak memory: what a view contains is closed under rules that relate the indices, the marks and the records |
| `WeakInv.v` | Every step of the queue in weak memory keeps the invariant of WeakProofs.v |
| `WeakOut.v` | What is dispatched in weak memory |
| `WeakLaws.v` | The order of the records in weak memory, and one logging thread |
| `WeakOne.v` | One logging thread in weak memory, and the writer thread on its own |
| `WeakLive.v` | In weak memory no thread inside a statement or a writer loop is ever without a step |
| `PropsWeak.v` | Property C116: the queue of a channel when loads may return old values |
| `DblLibc.v` | The libc conversions that write_double_unsafe calls for very small and very large doubles (fn_fmt.h:276, 280), as glibc computes them: gcvt with 16 digits is sprintf with %.16g; both conversions round the exact value to nearest, ties to even |
| `DblLibcSpec.v` | What the texts of doubles mean, and what rounding to decimal digits is |
| `DblLibcProofs.v` | Proofs about the libc conversions and about reading the shown texts |
| `DblReadProofs.v` | Proofs: the text that %.16g and %.08lf produce, and reading it back |
| `DblOrderProofs.v` | Proofs: what a shown double reads as, how near it is, and that the order is kept |
| `PropsDblText.v` | Properties C113 and C114: the text of every double, what it reads as, its order |
| `DateZone.v` | write_date_unsafe (src/include/fn_fmt.h:319-368) in an arbitrary time zone: any number of changes of the offset, and any answers of mktime |
| `DateZoneSpec.v` | What the printed time of an arbitrary time zone should be: which instant the date in use was looked up for, and days on which the clocks do not change |
| `DateZoneProofs.v` | Printed times in an arbitrary time zone |
| `PropsDateZone.v` | Property theorems C117: printed times in an arbitrary time zone |
| `Life.v` | Starting and stopping one logger from several threads |
| `LifeSpec.v` | What the answers of concurrent start and stop calls mean |
| `LifeProofs.v` | Concurrent start and stop calls take effect one after the other |
| `PropsLife.v` | Start and stop calls made by several threads at once: C118 |
| `Nest.v` | Log statements made inside another log statement |
| `NestProofs.v` | Proofs about statements made inside another statement (C119) |
| `PropsNest.v` | Property C119: log statements made inside another log statement |
| `Cost.v` | What a log statement costs: the number of atomic operations one statement makes among those of the other threads, and how often it finds the queue full |
| `CostProofs.v` | Proofs about the number of steps of one statement (C120) |
| `PropsCost.v` | Property C120: what a log statement costs |
| `Multi.v` | Log statements made inside statements to other channels |
| `MultiProofs.v` | Proofs about statements made inside statements to other channels (C121) |
| `PropsMulti.v` | Property C121: log statements made inside statements to other channels |
| `ParseLimit.v` | The parser and the built-in maxima of channels and devices (C122) |
| `PropsLimit.v` | Properties C122, the built-in maxima only decide which configurations are too large, and C123, which channels are synchronous; with them the shipped samples (C74) |
| `Flush.v` | What the log files hold when the process dies: the rounds of EnterProcChannel (fn_channel.h:99-270) with stdio's buffers, flushing and rolling |
| `FlushProofs.v` | Proofs about flushing (C124, C125) |
| `PropsFlush.v` | C124, C125: what is in the log files when the process dies, and flushing a file that is being closed |
| `Torn.v` | A log statement that is made while the settings of its channel are being replaced: the loads of BlockInput (fn_channel.h:329-426) against the stores of HotUpdateLogger (fn_load.h:342-374) |
| `TornSpec.v` | Mixtures of old and new settings (C126) |
| `TornProofs.v` | Proofs about statements during an update (C126) |
| `PropsTorn.v` | C126: a log statement that is made while the settings are replaced |
| `UdpRace.v` | Datagrams on a synchronous channel: every thread that logs runs the reading loop fn_channel.h:239-254, and all use the one udp_buffer_ of the channel (fn_data.h:297) without a lock; only EnterProcDevice (28) takes one |
| `UdpRaceSpec.v` | What becomes of datagrams, in terms of what arrived and what was put out (C127) |
| `UdpRaceProofs.v` | Proofs about datagrams read into the shared record |
| `PropsUdpRace.v` | Datagrams that several threads read into the one record of a synchronous channel: C127 |
| `Socket.v` | The socket of a UDP input on a channel that several threads process: the code fn_channel.h:203-237 and UDPHandler (fn_file.h:421-549) with the descriptors of the process |
| `SocketSpec.v` | Who owns which descriptor (C128) |
| `SocketProofs.v` | Proofs about the socket of a UDP input |
| `PropsSocket.v` | The socket of a UDP input: C128 |
| `TornOut.v` | DispatchLog (fn_channel.h:53-95) while the settings of the channel are being replaced by HotUpdateLogger (fn_load.h:342-374), words and schedules as in Torn.v |
| `TornOutProofs.v` | Proofs about DispatchLog during an update (C129) |
| `PropsTornOut.v` | C129: a record that is dispatched while the settings are replaced |
| `Adding.v` | DispatchLog (fn_channel.h:53-95) while HotUpdateLogger adds a device to the channel: memcpy(&dst_chl.devices_[dst_chl.device_size_++], &src_dvc, sizeof(src_dvc)) (fn_load.h:378) device_size_ is stored first, then the words of the device in the order of memory, fn_data.h:223-: out_type_, in_type_, then config_fields_. The slot held zeros before (fn_parse.h:1494 clears a channel, and an update only adds devices) |
| `AddingSpec.v` | A device that is not there completely (C130) |
| `AddingProofs.v` | Proofs about a device that is being added (C130) |
| `PropsAdding.v` | C130: a record that is dispatched while a device is added to its channel |
| `Durable.v` | What a log file holds after a power failure: FileHandler::open, write, flush and close (fn_file.h:124-187) with the buffer of stdio, the memory of the kernel and the disk |
| `DurableSpec.v` | What was written to a log file (C131) |
| `DurableProofs.v` | Proofs about log files and power failures (C131) |
| `PropsDurable.v` | C131: log files after a power failure |
| `RollCut.v` | A process that is killed in the middle of FileHandler::rollback (fn_file.h:370-392) |
| `RollCutSpec.v` | Rolls that are cut short (C132) |
| `RollCutProofs.v` | Proofs about rolls that are cut short (C132) |
| `PropsRollCut.v` | C132: rolling and killed processes |
| `RollFail.v` | FileHandler::rollback (fn_file.h:370-392) when remove or rename fail |
| `RollFailProofs.v` | Proofs about rolls whose calls fail (C133) |
| `PropsRollFail.v` | C133: rolling when remove and rename fail |
| `RollRace.v` | Several processes that write to the same log file and roll it: FileHandler::rollback (fn_file.h:370-392) and the open that follows it (fn_out_file_device.h:238-299) |
| `RollRaceSpec.v` | Directories of log files (C134) |
| `RollRaceProofs.v` | Proofs about processes that roll the same file (C134) |
| `PropsRollRace.v` | C134: processes that write to the same log file |
| `SharePath.v` | Several file devices of a channel with the same path: OpenFileDevice and EnterProcOutFileDevice (fn_out_file_device.h:192-339) with FileHandler::rollback (fn_file.h:370-392) |
| `SharePathSpec.v` | Devices that share a path (C135) |
| `SharePathProofs.v` | Proofs about devices that share a path (C135) |
| `PropsSharePath.v` | C135: file devices that share a path |

## Properties: what is modelled, how it is proved, what is missing

135 properties: 57 proved, 78 partial.

* **C01 Admission decision is exactly the documented filter** (proved).  Model: `Filter.block_input` on the settings of `LoggerState.logger`.  Proof: induction over the device list; each device test compared with `FilterSpec` by cases over the masks and windows.  Theorems: `C01_admission` (PropsFilter.v).  Note: masked values in 0..63 and window ends inside long long (other values: C04).
* **C02 A record is dispatched to exactly the devices whose filter accepts it, once each, in device order** (proved).  Model: `Filter.dispatch`.  Proof: induction over the device list with the emitted ids as accumulator.  Theorems: `C02_dispatch` (PropsFilter.v).  Note: strictly increasing ids = each at most once.
* **C03 An admitted record reaches at least one device and a filtered record reaches none** (proved).  Model: `Filter.block_input` and `Filter.dispatch`.  Proof: from C01 and C02; witness by computation for priorities above FATAL.  Theorems: `C03_admitted_reaches_device` (PropsFilter.v), `C03_filtered_reaches_none` (PropsFilter.v), `C03_above_fatal_refuted` (PropsFilter.v).  Note: second half for device priorities <= FATAL as stated; false above (refuted witness).
* **C04 Mask filters decide membership of the record's own category/identify** (partial).  Model: the shift and mask test inside `Filter.v`, with the C integer types.  Proof: bit-level reasoning (`Z.testbit`) for 0..63; witness for 64 and above.  Theorems: `C04_mask_partial` (PropsFilter.v), `C04_mask_refuted` (PropsFilter.v).  Note: proved for values 0..63; outside the shift is undefined or aliases modulo 2^32 (refuted).
* **C05 The user hook runs exactly for records matching an enabled virtual device of their channel** (partial).  Model: `Filter.enter_virtual` and `Filter.stream_hook`, the virtual device index of a channel.  Proof: case analysis; witnesses for a switched-off and a missing virtual device.  Theorems: `C05_hook_partial` (PropsFilter.v), `C05_hook_refuted` (PropsFilter.v).  Note: filter decision proved; the enabled flag and the existence of a virtual device are not checked by the code (refuted).
* **C06 Run-time configuration calls read back and touch nothing else** (proved).  Model: `ConfigApi.v`: every get, set and batch call.  Proof: refinement of the table in `ConfigSpec.v`, induction over call sequences.  Theorems: `C06_settings` (PropsConfig.v), `C06_get_device_config` (PropsConfig.v), `C06_get_channel_log` (PropsConfig.v), `C06_get_device_log` (PropsConfig.v).  Note: any sequence of calls.
* **C07 Unsigned integers print as their exact decimal numeral** (proved).  Model: `NumFmt.write_dec_u`: digit table loops on a buffer.  Proof: loop invariant with the positional value of `NumSpec.v`.  Theorems: `C07_unsigned_decimal` (PropsNum.v).  Note: all 64-bit values, all widths <= 30.
* **C08 Signed integers print as their exact decimal numeral** (partial).  Model: `NumFmt.write_dec_s`.  Proof: C07 on the magnitude; witness LLONG_MIN.  Theorems: `C08_signed_decimal_partial` (PropsNum.v), `C08_signed_decimal_refuted` (PropsNum.v).  Note: proved for every value except LLONG_MIN, where the code negates with signed overflow (refuted).
* **C09 Hexadecimal and pointer output is the exact numeral** (partial).  Model: `NumFmt.write_hex`, `write_pointer` with `clz`.  Proof: loop invariant in base 16; witness 0.  Theorems: `C09_hex_partial` (PropsNum.v), `C09_pointer` (PropsNum.v), `C09_hex_refuted` (PropsNum.v).  Note: pointers in full; hex for all non-zero values; hex of 0 calls __builtin_clzll(0) (refuted).
* **C10 Binary output is the exact zero-padded numeral** (partial).  Model: `NumFmt.write_bin`.  Proof: loop invariant in base 2; witness with a width above the digit count.  Theorems: `C10_binary_partial` (PropsNum.v), `C10_binary_refuted` (PropsNum.v).  Note: exact when the width does not exceed the digit count; otherwise padding bytes keep stale content (refuted).
* **C11 Timestamps print the calendar time of that instant, whatever was printed before** (partial).  Model: `DateFmt.write_date` with its thread-local cache as state, `gmtime` by day numbers.  Proof: invariant of the cache over all print sequences; day numbers against the calendar of `DateSpec.v`.  Theorems: `C11_date_partial` (PropsDate.v), `C11_text_unique` (PropsDate.v), `C11_date_refuted` (PropsDate.v).  Note: proved for zones with a fixed offset and timestamps from 1970; false across a zone offset change because of the cached day (refuted; exactly when is C117).
* **C12 Floating point output fits its reserve and is the value truncated to at most four decimals** (proved).  Model: `DblFmt.write_double` on exact dyadic rationals with round-to-nearest-even.  Proof: bounds on the one rounding; digits by C07.  Theorems: `C12_double` (PropsDbl.v), `C12_reserve` (PropsDbl.v), `C12_any` (PropsStream.v).  Note: exact, including the one rounding of the product by 10000; gcvt/printf text is a parameter bounded to 23 bytes.
* **C13 Streaming never writes outside the record buffer and appends exactly the rendered text** (partial).  Model: `Stream.v`: every operand on a buffer of fixed length.  Proof: induction over operand sequences and nesting; frame (bytes outside) and text part.  Theorems: `C13_stream_partial` (PropsStream.v), `C13_determined` (PropsStream.v), `C13_stream_refuted` (PropsStream.v).  Note: any sequence and nesting of operands; not for LLONG_MIN, dumps of zero bytes (both refuted) and dates outside C11_date_partial.
* **C14 Every queued record ends in a newline and a NUL inside the buffer** (proved).  Model: the end of `PushChannel` that terminates the text.  Proof: cases on the length.  Theorems: `C14_push` (PropsStream.v).  Note: every length 0..LOG_SIZE, every LOG_SIZE >= 2.
* **C15 The log prefix has the documented layout and fits** (proved).  Model: the `LogStream` constructor.  Proof: composition of the writers, with room conditions.  Theorems: `C15_prefix` (PropsStream.v), `C15_no_prefix` (PropsStream.v), `C15_unbounded_refuted` (PropsStream.v).  Note: when name, description, shortened path and function name leave 150 bytes; a longer function name overflows the record (refuted).
* **C16 The source path is shortened to its last three components** (proved).  Model: `Stream.short_path`.  Proof: induction over the path from its end.  Theorems: `C16_short_path` (PropsStream.v), `C16_no_path` (PropsStream.v).  Note: all paths.
* **C17 Containers and pairs print name, size and at most five elements** (proved).  Model: `Stream.v` container and pair operands.  Proof: induction over the elements.  Theorems: `C17_container` (PropsStream.v), `C17_pair` (PropsStream.v).  Note: any length and nesting without alignment operands, wherever there is room.
* **C18 printf-style logging is bounded and keeps the formatted text** (proved).  Model: `Stream.log_format`.  Proof: cases on the `snprintf` result.  Theorems: `C18_format` (PropsStream.v).  Note: every snprintf result and every prefix length up to LOG_SIZE.
* **C19 No two threads ever own the same queue slot** (partial).  Model: `Ring.v`: one atomic operation per step.  Proof: inductive invariant with absolute counters over schedules (`RingInv.v`); witness schedule with a full lap.  Theorems: `C19_slots_partial` (PropsRing.v), `C19_slots_refuted` (PropsRing.v).  Note: any number of threads, any ring size; schedules without a restart in which no index makes a full lap between a load and its compare-exchange; with such a lap false (refuted).
* **C20 Asynchronous channels deliver every record exactly once, intact, in hold order** (partial).  Model: `Ring.v`.  Proof: invariant; delivered list is a prefix of the held list.  Theorems: `C20_async_partial` (PropsRing.v), `C20_async_refuted` (PropsRing.v).  Note: same schedules as C19; with a lap a record is delivered cut (refuted).
* **C21 The queue never overfills and never loses a slot** (partial).  Model: `Ring.v`.  Proof: invariant bounds the distance of the indices.  Theorems: `C21_capacity_partial` (PropsRing.v), `C21_waits_partial` (PropsRing.v), `C21_capacity_refuted` (PropsRing.v).  Note: same schedules as C19; with a lap the queue overfills (refuted).
* **C22 Records of one thread come out in the order the thread wrote them** (partial).  Model: `Ring.v`.  Proof: held order restricted to a thread (`RingRun.v`, `RingQuiet.v`).  Theorems: `C22_thread_order_partial` (PropsRing.v), `C22_order_refuted` (PropsLap.v).  Note: same schedules as C19, stop allowed; with a lap a later record of the thread is written over an earlier one (refuted).
* **C23 Nothing stays stuck: when no thread is mid-record every record is visible to the writer** (partial).  Model: `Ring.v`.  Proof: whoever could publish, claim or release is about to do so (`RingLive.v`).  Theorems: `C23_async_partial` (PropsRing.v), `C23_sync_partial` (PropsRing.v), `C23_hidden_refuted` (PropsLap.v).  Note: running channel, same schedules as C19; with a lap a full queue looks empty and is never delivered (refuted).
* **C24 Stopping an async channel delivers everything already published** (partial).  Model: `Ring.v` with stop.  Proof: measure on the writer's remaining steps (`RingStop.v`).  Theorems: `C24_stop_partial` (PropsRing.v), `C24_lost_refuted` (PropsLap.v).  Note: async channel; the writer ends if scheduled, and everything is delivered whenever it has ended; same schedules as C19; with a lap the writer ends and the records are lost (refuted).
* **C25 A record whose log statement completed before stop is delivered even if another thread is mid-record** (partial).  Model: `Ring.v` with stop.  Proof: from the invariant; witness schedule.  Theorems: `C25_published_partial` (PropsRing.v), `C25_completed_refuted` (PropsRing.v).  Note: what write_idx_ has passed is delivered; a completed record behind an unfinished one is lost (refuted).
* **C26 Stop and restart are safe while log statements are in progress** (partial).  Model: `Ring.v` with restart.  Proof: quiet states restart as fresh ones; witness schedule.  Theorems: `C26_quiet_partial` (PropsRing.v), `C26_restart_refuted` (PropsRing.v).  Note: a restart with no log statement in progress gives a fresh queue; otherwise an old log statement writes into the new queue (refuted).
* **C27 Synchronous channels deliver every record exactly once** (partial).  Model: `Ring.v`, sync consumers.  Proof: invariant over claims; witness schedule.  Theorems: `C27_once_partial` (PropsRing.v), `C23_sync_partial` (PropsRing.v), `C27_once_refuted` (PropsRing.v).  Note: same schedules as C19; with a lap a cut record is delivered (refuted).
* **C28 A synchronous log statement has been written when it returns** (partial).  Model: `Ring.v`, sync channel.  Proof: single-thread runs by induction; two witness schedules.  Theorems: `C28_single_partial` (PropsRing.v), `C28_returned_refuted` (PropsRing.v), `C28_order_refuted` (PropsRing.v).  Note: single logging thread; both halves are false with two threads (refuted).
* **C29 Channel counters equal what happened** (partial).  Model: `Ring.v` counters.  Proof: step invariant on all schedules; witness for bytes on sync channels.  Theorems: `C29_counters` (PropsRing.v), `C29_bytes_partial` (PropsRing.v), `C29_sync_bytes_refuted` (PropsRing.v).  Note: the three record counters on every schedule including restarts; bytes on an async channel for the schedules of C19; false on a sync channel (refuted).
* **C30 Transmitting a record copies it faithfully to another channel** (proved).  Model: `World.transmit`.  Proof: computation of the whole call on an idle channel against `WorldSpec.v`.  Theorems: `C30_queued` (PropsWorld.v), `C30_written` (PropsWorld.v), `C30_rejected` (PropsWorld.v), `C30_own` (PropsWorld.v).  Note: for a target channel at rest; a record that is transmitted gets its newline in the target channel like any statement.
* **C31 Any priority value is accounted within its own statistics** (partial).  Model: counter indices of `World.count_written`.  Proof: sums over the seven priorities; witnesses outside.  Theorems: `C31_sums_partial` (PropsWorld.v), `C86_counters` (PropsWorld.v), `C31_counters_refuted` (PropsWorld.v).  Note: Proved for the seven priorities (C86). False outside: priority 8 is added to the lines of the device, -1 to the pushed records, 11 and 22 to memory outside the counters.
* **C32 Crash recovery keeps every reserved record and flags the unfinished ones** (partial).  Model: `Recover.load_shm` on arbitrary memory.  Proof: loop invariant over the indices; composed with the reachable states of `Ring.v`.  Theorems: `C32_segment` (PropsRecover.v), `C32_reachable_partial` (PropsRecover.v), `C32_lap_refuted` (PropsLap.v).  Note: C32_segment: for every segment with right size and id, in-range indices and record lengths within the buffer. C32_reachable_partial: the same for every state a channel's queue can be in at the crash; stopping included. False for schedules in which an index makes a full lap between load and compare-exchange (refuted); crashes after a restart following a quiet stop: C111_crash.
* **C33 No record is lost across a crash** (partial).  Model: `Recover.v` composed with `Ring.v`.  Proof: the recovered queue satisfies the invariant, then C20; witnesses.  Theorems: `C33_async_partial` (PropsRecover.v), `C33_memory` (PropsRecover.v), `C33_unfinished_refuted` (PropsRecover.v), `C33_sync_refuted` (PropsRecover.v), `C33_sync_stuck_refuted` (PropsRecover.v).  Note: Async channels: everything published is delivered, in order, and every reserved record comes out flagged with the part written so far. Refuted as stated: a slot reserved but not yet begun comes out as the old record it held; on sync channels a record delivered but not released can come out mixed with a new one, and a ring full at the crash is never delivered.
* **C34 Attaching to foreign or corrupt shared memory is refused** (partial).  Model: `Recover.load_shm`.  Proof: cases over the header; witnesses for corrupt indices.  Theorems: `C34_header` (PropsRecover.v), `C34_attached` (PropsRecover.v), `C34_returns_partial` (PropsRecover.v), `C34_hold_refuted` (PropsRecover.v), `C34_length_refuted` (PropsRecover.v).  Note: Refuted as stated: hold_idx_ out of range makes the call loop for ever, a negative content_len_ makes it write outside the record. Otherwise it returns, with an error if a write or read index is out of range.
* **C35 Rolling shifts the backup chain by one and loses only the oldest** (proved).  Model: `FileDev.rollback` on a file system as a map.  Proof: induction over the backup numbers.  Theorems: `C35_roll` (PropsFile.v).  Note: rename and remove of existing files succeed; limit below INT_MAX.
* **C36 The number of backups is bounded by the rollback setting** (proved).  Model: `FileDev.dev_run`.  Proof: induction over runs.  Theorems: `C36_bounded` (PropsFile.v), `C35_roll` (PropsFile.v).  Note: for whole runs of the device: no file with a higher backup number appears or changes.
* **C37 A size-limited log file does not exceed its limit** (proved).  Model: `FileDev.dev_run`.  Proof: induction over runs.  Theorems: `C37_sizes` (PropsFile.v), `C37_stays` (PropsFile.v).  Note: also when writes fail; files found at the start may be longer.
* **C38 Daily/hourly rolling puts a record in the file of its own day/hour** (proved).  Model: `FileDev.dev_step` with the calendar of `DateFmt.v`.  Proof: induction over runs; same day iff same stamp.  Theorems: `C38_day` (PropsFile.v), `C38_name` (PropsFile.v).  Note: fixed-offset zones, as stated; see C67 for the others.
* **C39 File device writes append exactly the records' bytes and count them** (proved).  Model: `FileDev.dev_step`.  Proof: case analysis of one step, induction for counts.  Theorems: `C39_step` (PropsFile.v), `C39_takes` (PropsFile.v), `C39_backoff` (PropsFile.v), `C39_failed` (PropsFile.v), `C39_counts` (PropsFile.v), `C39_returns` (PropsFile.v).  Note: priorities 0..6 and fwrite taking the whole record (see C68); stdio buffering not modelled.
* **C40 File name templates expand every documented escape and nothing else** (proved).  Model: `FileName.v`.  Proof: induction over the template.  Theorems: `C40_names` (PropsFile.v), `C40_default` (PropsFile.v), `C40_path` (PropsFile.v).  Note: process name without '$'.
* **C41 Expanding a file name terminates** (partial).  Model: `FileName.v` replacement loop.  Proof: measure on remaining escapes; witness that runs for ever.  Theorems: `C41_terminates_partial` (PropsFile.v), `C41_refuted` (PropsFile.v).  Note: every template, process name without '$'; with the process name $PNAME it loops for ever (refuted).
* **C42 Parsing a configuration terminates** (partial).  Model: `Lexer.v`, `ParseCfg.v`.  Proof: measure on position and remaining substitutions; three witnesses for every fuel.  Theorems: `C42_terminates_partial` (PropsParse.v), `C42_define_self` (PropsSubst.v), `C42_var_self` (PropsSubst.v), `C42_nul_refuted` (PropsParse.v), `C42_bom_refuted` (PropsParse.v), `C42_macro_refuted` (PropsParse.v).  Note: every text without NUL and byte order mark in which no macro or variable is defined as itself (NAME NAME, x=$x, x=${x}); each of the three excluded kinds loops for ever (refuted); a definition as itself does so whenever the name stands behind it (C42_define_self, C42_var_self).
* **C43 The lexer never reads outside the text** (proved).  Model: `Lexer.v`, `ParseCfg.v` with bounds-checked reads.  Proof: invariant on positions for every text.  Theorems: `C43_lexer_inside` (PropsParse.v), `C43_parser_inside` (PropsParse.v).  Note: every text, also with NUL bytes; texts below 2^31 bytes (int counters).
* **C44 A configuration accepted by the parser is well formed** (proved).  Model: `ParseCfg.parse_logger`.  Proof: invariant on the built configuration.  Theorems: `C44_wellformed` (PropsParse.v).  Note: also: all fields are long long values, names fit, the virtual device is the last one, and the whole text has been read.
* **C45 Parsing a written-out configuration gives back that configuration** (proved).  Model: `ParseCfg.parse_logger`.  Proof: induction over the written configuration of `CfgSpec.v`, line by line.  Theorems: `C45_read_back` (PropsCfg.v).  Note: any order of options, indentation, line end, quotes, comments and blank lines; at least one channel; no define or var lines (C49).
* **C46 Bit lists set exactly the listed bits** (proved).  Model: `ParseVal.parse_bit_array`.  Proof: induction over the written list.  Theorems: `C46_bit_list` (PropsParse.v).  Note: entries 0..63 as stated; larger ones are undefined behaviour (C69).
* **C47 A black list rejects exactly its members** (partial).  Model: `ParseVal.parse_bit_array` and `Filter.v`.  Proof: from C46 and C04; witness.  Theorems: `C47_black_list_partial` (PropsParse.v), `C47_black_list_refuted` (PropsParse.v).  Note: true unless all 64 values are listed; then nothing is rejected (refuted).
* **C48 Documented keys are recognised as themselves** (proved).  Model: `ParseVal.parse_reserve`.  Proof: cases over the finite documented key table.  Theorems: `C48_keys` (PropsParse.v).
* **C49 Macro and variable substitution is in place and bounded** (partial).  Model: `ParseCfg.v` define and var.  Proof: induction over occurrences; witness.  Theorems: `C49_define_partial` (PropsSubst.v), `C49_define_long` (PropsSubst.v), `C49_var_partial` (PropsSubst.v), `C49_var_long` (PropsSubst.v), `C49_before` (PropsSubst.v), `C49_define_self` (PropsSubst.v), `C49_var_self` (PropsSubst.v), `C49_define_self_refuted` (PropsSubst.v).  Note: For names that are words and contents other than the name itself: exactly the later whole-word occurrences change, the text before and the length stay, longer contents are rejected. False of a name defined as itself: the substitution never returns, exactly if the name stands in the rest of the text (refuted; C49_define_self, C49_var_self).
* **C50 The parse result depends only on the text** (partial).  Model: `ParseCfg.parse_logger`.  Proof: relational induction over two runs; witness.  Theorems: `C50_text_decides_partial` (PropsParse.v), `C50_shm_refuted` (PropsParse.v).  Note: everything but the shm_key of a text that sets none, which is whatever the memory held (refuted).
* **C51 Hot update applies exactly the new file's settings of existing and new devices** (proved).  Model: `Load.hot_update`.  Proof: merge functions against `LoadSpec.v`.  Theorems: `C51_applied` (PropsLoad.v), `C51_rejected` (PropsLoad.v).  Note: for every logger that calls lead to and every check that is due; channels that the new file lacks are C77.
* **C52 A hot update reaches every channel** (partial).  Model: `Load.hot_update` over checks.  Proof: induction over checks; witnesses.  Theorems: `C52_all_channels_partial` (PropsLoad.v), `C52_switched_off_refuted` (PropsLoad.v), `C52_same_second_unseen` (PropsLoad.v), `C52_same_second_refuted` (PropsLoad.v).  Note: Proved for any order and number of checks if the new file keeps hot_update on and defines the channels. False when it switches hot update off, and for a change within the second of the last modification.
* **C53 Starting and stopping follow the life cycle** (partial).  Model: `Load.v` life cycle machine.  Proof: invariant over call sequences; witnesses.  Theorems: `C53_life_cycle_partial` (PropsLoad.v), `C53_stop_fresh_refuted` (PropsLoad.v), `C53_thrown_refuted` (PropsLoad.v), `C53_slow_refuted` (PropsLoad.v).  Note: Proved for threads that can be created and come up in time or just after the wait, and stops of initialised loggers. False: StopLogger before any load reads a null pointer; a failing thread creation leaves the logger half started; a slow thread blocks the start.
* **C54 StopLogger always returns** (partial).  Model: `Stop.v` transition system.  Proof: well-founded measure under fair schedules; reachable permanent deadlock as witness.  Theorems: `C54_returns_partial` (PropsStop.v), `C54_returns_or_deadlocks` (PropsStop.v), `C54_deadlock_stays` (PropsStop.v), `C54_deadlock_refuted` (PropsStop.v).  Note: Under every fair schedule StopLogger returns with all threads ended and all queues empty, or it deadlocks with a thread that is about to apply a changed file. Proved to return if no thread finds the file changed; the deadlock is reachable and permanent. The file changes finitely often; memory is sequentially consistent.
* **C55 Statistics survive a restart** (partial).  Model: `Load.v`.  Proof: induction over restarts; witness.  Theorems: `C55_restart_partial` (PropsLoad.v), `C55_dropped_refuted` (PropsLoad.v).  Note: Proved for the channels in both configurations. False for channels that a configuration in between lacks.
* **C56 A moved-from stream never pushes** (proved).  Model: `Moves.v`.  Proof: invariant over construction, move, destruction.  Theorems: `C56_moves` (PropsStream.v), `C56_all_destroyed` (PropsStream.v), `C56_moved_from` (PropsStream.v), `C56_defined` (PropsStream.v).  Note: any sequence of constructions, moves and destructions that touches no object before or after its life, which is exactly when it is defined.
* **C57 The screen shows exactly the record** (proved).  Model: `World.out_screen`.  Proof: text up to the NUL.  Theorems: `C57_screen` (PropsWorld.v), `C57_statement` (PropsWorld.v).  Note: the device on any such record, and a whole statement on a channel with a screen.
* **C58 A forwarded UDP datagram is output as received** (partial).  Model: `World.udp_loop`.  Proof: loop over datagrams; witnesses.  Theorems: `C58_file_partial` (PropsWorld.v), `C85_datagrams` (PropsWorld.v), `C58_forwarded_refuted` (PropsWorld.v).  Note: Proved for outputs other than the screen and at most 1000 datagrams that are not empty and do not fill the record. False: the screen shows the tail of an earlier datagram, a datagram that fills the record loses two bytes, an empty one ends the round.
* **C59 UDP addresses are parsed to the given address and port** (proved).  Model: `ParseVal.parse_address`.  Proof: positional value of the parts.  Theorems: `C59_address` (PropsParse.v), `C59_forms` (PropsParse.v).  Note: every host of digits and dots and every port without leading zeros; inet_addr as documented.
* **C60 The binary dump shows every byte** (partial).  Model: `Stream.write_binary`.  Proof: induction over the bytes; witness.  Theorems: `C60_dump_partial` (PropsStream.v), `C60_dump_refuted` (PropsStream.v).  Note: data without zero bytes; a zero byte reaches hex(0), which is undefined (refuted).
* **C61 Configuration calls are safe with any argument and before start** (partial).  Model: `ConfigApi.v`.  Proof: bounds tests by cases; witnesses.  Theorems: `C61_indexed_calls_partial` (PropsConfig.v), `C61_any_argument_refuted` (PropsConfig.v).  Note: indexed calls are safe on a started logger; batch calls with a sentinel field and any call before start are not (refuted).
* **C62 Floating point output keeps the sign** (partial).  Model: `DblFmt.v`.  Proof: sign cases; witness.  Theorems: `C62_sign_partial` (PropsDbl.v), `C62_exact` (PropsDblText.v), `C62_sign_refuted` (PropsDbl.v).  Note: With glibc: written exactly for the negative normal numbers outside the range from 1e-7 to 1e-4 (C62_exact); inside it the code formats |x| (refuted). C62_sign_partial is for any libc and 0.0001<=|x|<=2^60.
* **C63 Percentages show the ratio** (partial).  Model: `Stream.stream_val`.  Proof: from C12; witness.  Theorems: `C63_percent_partial` (PropsStream.v), `C63_negative` (PropsStream.v), `C63_percent_refuted` (PropsStream.v).  Note: ratios from 0.000001; negative ratios print 00.00% (refuted).
* **C64 The pushed-bytes counter equals the bytes pushed** (partial).  Model: `Ring.v` byte counter.  Proof: single-thread runs; witness schedule.  Theorems: `C64_single_partial` (PropsRing.v), `C64_refuted` (PropsRing.v).  Note: one logging thread; with two threads the length of another record can be added (refuted).
* **C65 A stopped channel accepts no new records until it is restarted** (partial).  Model: `Ring.v` with stop.  Proof: invariant; witness schedule.  Theorems: `C65_async_stopped_partial` (PropsRing.v), `C65_sync_refuted` (PropsRing.v).  Note: async channel; a sync channel can come back to life (refuted).
* **C66 Rolling keeps the newest records in order** (proved).  Model: `FileDev.dev_run`.  Proof: invariant: log followed backwards through the backups.  Theorems: `C66_contents` (PropsFile.v).  Note: fwrite takes whole records; the backups found at the start have no gap.
* **C67 Daily rolling follows the calendar in every time zone** (partial).  Model: `FileDev.v` with a zone as a function of time.  Proof: witness; the open file is that of an earlier record and both are of one day by the offset of that record.  Theorems: `C67_dst_refuted` (PropsFile.v), `C67_near_partial` (PropsFile.v), `C67_opened` (PropsFile.v), `C38_name` (PropsFile.v).  Note: false: on the day the clocks go forward the first hour of the next day goes to the old file; true if every record less than a day away was written under the same offset (C67_near_partial), so of fixed offsets (C38_name); in general the day is counted by the offset of the record that opened the file (C67_opened); zones that alternate between two offsets at any times.
* **C68 The byte counters of a file device match the file also when writing fails** (partial).  Model: `FileDev.v` with short writes.  Proof: witness; case analysis of one step without the assumption on `fwrite`, induction for the counts.  Theorems: `C68_short_write_refuted` (PropsFile.v), `C68_step_partial` (PropsFile.v), `C68_counts_partial` (PropsFile.v), `C39_counts` (PropsFile.v).  Note: false: the whole length is counted; true when fwrite takes the whole record (C39_counts). Whatever fwrite takes: exactly that head of the record is in the file, the file is then closed, and the size field of an open file is always its size (C68_step_partial, C68_counts_partial).
* **C69 Numbers in a configuration never overflow** (partial).  Model: `ParseVal.v` with signed overflow.  Proof: witnesses; C43 lists the only undefined steps.  Theorems: `C69_limit_size_refuted` (PropsParse.v), `C69_wlist_refuted` (PropsParse.v), `C43_parser_inside` (PropsParse.v).  Note: false: limit_size and bit lists overflow; these are the only undefined steps (C43_parser_inside).
* **C70 An accepted configuration has at least one channel** (partial).  Model: `ParseCfg.v`.  Proof: witness; true part: the state of the lexer after every byte says what the line looks like so far; the lines before the parser's position have been read without error and stay through substitutions; only an empty last line ends without the test for channels.  Theorems: `C70_keyed_partial` (PropsAccept.v), `C70_channelless` (PropsAccept.v), `C70_has_channel_refuted` (PropsParse.v), `C44_wellformed` (PropsParse.v).  Note: true if the last line has a key (definitions replaced; no NUL or byte order mark); false: an empty text and a text that ends in a comment or an empty line can be accepted without a channel.
* **C71 A misspelt key is reported** (partial).  Model: `ParseVal.parse_reserve`.  Proof: witnesses; the true part is C48; true part: as C70; then the key of a line is unique and shares the first letter with a documented key.  Theorems: `C71_lines_partial` (PropsAccept.v), `C71_rejected_partial` (PropsAccept.v), `C71_misspelt_refuted` (PropsParse.v), `C71_misspelt_config_refuted` (PropsParse.v), `C48_keys` (PropsParse.v).  Note: true of a first letter that no documented key has: the file is rejected wherever the line is (no NUL or byte order mark, in C71_rejected_partial no definitions); false in general: keys are told apart by a few letters.
* **C72 Spaces around the = of a var line do not matter** (partial).  Model: `ParseCfg.v` var.  Proof: witness.  Theorems: `C72_before_partial` (PropsSubst.v), `C72_spaces_refuted` (PropsSubst.v).  Note: True of the blanks before the = and around the items. False behind it: the space after the equals sign counts as part of the value, so the line of the shipped sample is rejected.
* **C73 define accepts the documented list of key:val pairs** (partial).  Model: `ParseCfg.v` define.  Proof: witness.  Theorems: `C73_single_partial` (PropsSubst.v), `C73_never` (PropsSubst.v), `C73_list_refuted` (PropsSubst.v).  Note: False: define takes a single name and content separated by a space; the documented list form is rejected, always if it has no space (C73_never).
* **C74 The shipped sample configurations are accepted** (partial).  Model: `ParseCfg.v` on `Samples.v`.  Proof: computation on the bytes of the files.  Theorems: `C74_log_yaml_partial` (PropsLimit.v), `C74_default_never` (PropsLimit.v), `C74_log_yaml_refuted` (PropsSubst.v), `C74_default_refuted` (PropsSubst.v).  Note: False for both files with the default maxima. log.yaml is accepted exactly by a library built for at least four channels and two devices, default_log.yaml by none: it has a macro without content.
* **C75 The documented output type null is accepted** (partial).  Model: `ParseVal.parse_out_type`.  Proof: witness.  Theorems: `C75_types_partial` (PropsCfg.v), `C75_null_refuted` (PropsCfg.v).  Note: Exactly the values that begin with e, f, u, s or v are taken. False of null: it is an undefined device type.
* **C76 A 64-bit mask is taken as written** (partial).  Model: `ParseVal.v` numbers.  Proof: witness; below 2^63 C45.  Theorems: `C76_mask_refuted` (PropsCfg.v), `C45_read_back` (PropsCfg.v).  Note: False from 2^63 on: the number is cut to 2^63-1; true below (C45_read_back).
* **C77 A channel that the new file lacks keeps its settings** (partial).  Model: `Load.hot_update`.  Proof: merge functions; witness.  Theorems: `C77_absent_partial` (PropsLoad.v), `C77_emptied_refuted` (PropsLoad.v).  Note: Proved for channels other than 0. False for channel 0 and a file without channels.
* **C78 The hook follows a virtual device added by a hot update** (partial).  Model: `Load.hot_update`.  Proof: witness.  Theorems: `C78_kept_partial` (PropsLoad.v), `C78_virtual_refuted` (PropsLoad.v).  Note: True of a virtual device that the channel had: the hook takes its new filters. False of an added one: the number of the virtual device is not updated.
* **C79 A logger can be destroyed after any sequence of calls** (partial).  Model: `Load.v` destructor.  Proof: invariant over calls; witnesses.  Theorems: `C79_destroy_partial` (PropsLoad.v), `C79_destroy_refuted` (PropsLoad.v), `C53_thrown_refuted` (PropsLoad.v).  Note: Proved for started or stopped loggers whose memory is of the kind the last configuration asks for. False when a restart drops the shared memory key, or after a failing thread creation.
* **C80 A load takes exactly the file's settings, a refused file changes nothing** (proved).  Model: `Load.load_and_start`.  Proof: merge functions against `LoadSpec.v`.  Theorems: `C80_loaded` (PropsLoad.v), `C80_refused` (PropsLoad.v).  Note: for threads that can be created and come up in time or just after the wait.
* **C81 A statement on a synchronous channel reaches exactly the devices that accept it** (proved).  Model: `World.log_stmt`.  Proof: Hold, stream, push, dispatch composed on an idle channel.  Theorems: `C81_sync` (PropsWorld.v), `C81_determined` (PropsWorld.v).  Note: no hook and no datagrams on the channel; constant offset from UTC; priorities -3..10.
* **C82 A file holds exactly the lines of the accepted statements, in order** (proved).  Model: `World.log_stmt` over sequences.  Proof: induction over statements.  Theorems: `C82_file` (PropsWorld.v).  Note: all channels synchronous, no hook, no datagrams, files can be opened.
* **C83 A statement on an asynchronous channel waits in order until the writer's round** (proved).  Model: `World.log_stmt`, `World.enter_proc`.  Proof: induction over the waiting records.  Theorems: `C83_queued` (PropsWorld.v), `C83_round` (PropsWorld.v).  Note: one thread at a time; concurrent writers are C19-C23.
* **C84 A rejected statement has no effect** (proved).  Model: `World.log_stmt`.  Proof: case of a blocked statement.  Theorems: `C84_rejected` (PropsWorld.v).
* **C85 Received datagrams never leave the buffer** (proved).  Model: `World.udp_loop`.  Proof: loop invariant.  Theorems: `C85_datagrams` (PropsWorld.v).  Note: the forwarded bytes are given for channels without an input device that prints to the screen (C58).
* **C86 The statistics count each statement exactly once** (proved).  Model: `World.v` counters.  Proof: sums over the dispatched devices.  Theorems: `C86_counters` (PropsWorld.v).  Note: no hook and no datagrams on the channel.
* **C87 The user hook sees each accepted record once, before it is written** (proved).  Model: `World.run_hook`.  Proof: composition of C30 with C81 and C83.  Theorems: `C87_sync` (PropsHook.v), `C87_async` (PropsHook.v), `C87_quiet_sync` (PropsHook.v), `C87_quiet_async` (PropsHook.v).  Note: a hook that transmits; a hook that logs again itself is not modelled.
* **C88 PushChannel publishes exactly the finished records at the front of the queue** (proved).  Model: `World.push`.  Proof: loop invariant over the published prefix.  Theorems: `C88_push` (PropsHook.v), `C88_gap` (PropsHook.v).  Note: one thread at a time; concurrent writers are C19-C23.
* **C89 PushChannel refuses a bad channel, a bad slot and a stopped channel** (proved).  Model: `World.push`.  Proof: cases.  Theorems: `C89_refused` (PropsHook.v).
* **C90 The logger started without a configuration file has the documented channels and routes** (proved).  Model: `FastStart.v`.  Proof: the default text is a written configuration, then C92.  Theorems: `C90_default` (PropsRoute.v).  Note: default maxima; the thread of channel 0 comes up; the parser's unset shm_key is not positive or the logger was loaded before (C50).
* **C91 FastStartDebugLogger lowers the priorities and keeps the error file** (proved).  Model: `FastStart.v`.  Proof: C90 and the set calls of C06.  Theorems: `C91_debug` (PropsRoute.v).  Note: as C90.
* **C92 A loaded configuration routes statements as it is written** (proved).  Model: `Load.v`, `Filter.v`.  Proof: C45, C80 and C02 composed.  Theorems: `C92_loaded` (PropsRoute.v).  Note: the writer threads come up and the memory can be had; a written configuration is one of C45.
* **C93 A hot update routes statements by the new file** (proved).  Model: `Load.hot_update`, `Filter.v`.  Proof: C51 and C02 composed.  Theorems: `C93_updated` (PropsRoute.v).  Note: one check of one channel at a time, as in C51.
* **C94 A configuration file is read whole** (proved).  Model: `Sys.read_content`.  Proof: induction over the chunks.  Theorems: `C94_content` (PropsSys.v).  Note: reading does not fail.
* **C95 A configuration whose file cannot be read to the end is not loaded** (partial).  Model: `Sys.read_content`.  Proof: induction; witness.  Theorems: `C95_prefix_partial` (PropsSys.v), `C95_error_refuted` (PropsSys.v).  Note: Proved: the result is the part before the error. False: nothing tells it from the whole file, and a prefix that parses is loaded.
* **C96 The logger is called like the program** (partial).  Model: `Sys.process_name`.  Proof: induction over the path; witness.  Theorems: `C96_name_partial` (PropsSys.v), `C96_long_refuted` (PropsSys.v).  Note: Proved for paths of up to 499 bytes without newline. False: a longer path is cut before the last component is taken, so the logger is called like a directory.
* **C97 create_dir reports success only when every directory on the way exists** (proved).  Model: `Sys.create_dir`, file system as a parameter.  Proof: induction over the path.  Theorems: `C97_made` (PropsSys.v).  Note: opendir and mkdir are parameters; directories are not removed meanwhile.
* **C98 create_dir succeeds whenever the directories can be made** (partial).  Model: `Sys.create_dir`.  Proof: induction over the path; witness.  Theorems: `C98_total_partial` (PropsSys.v), `C98_race_refuted` (PropsSys.v).  Note: Proved when no other process interferes and every directory can be listed. False: if another process makes the directory between opendir and mkdir, create_dir gives up and the directories below are not made.
* **C99 UDP outputs ask for a socket at most every three seconds and count every line they lose** (proved).  Model: `Sys.out_lines`.  Proof: induction over the lines.  Theorems: `C99_output` (PropsSys.v), `C99_first` (PropsSys.v).  Note: times do not go back.
* **C100 A UDP input listens on the configured address or not at all** (partial).  Model: `Sys.in_rounds`.  Proof: induction over the rounds; witness.  Theorems: `C100_listens_partial` (PropsSys.v), `C100_moved_refuted` (PropsSys.v).  Note: Proved while the configured address stays. False: after a hot update of the address the socket stays bound to the old one.
* **C101 The bulk calls set exactly the setting they name** (partial).  Model: `Bulk.bulk_set`: the calls of fn_log.h as sequences of batch calls.  Proof: from C06 by extensionality of the settings arrays; witness.  Theorems: `C101_exact_partial` (PropsBulk.v), `C101_name_refuted` (PropsBulk.v).  Note: Every call sets exactly one setting (two for a window) of the named kind of device. False of one name: SetAllFilePriority with two numbers sets the category window, not the priority.
* **C102 After a bulk call records go to the expected devices** (proved).  Model: `Bulk.bulk_set`, `Filter.dispatch`.  Proof: C101 and C02 composed.  Theorems: `C102_routes` (PropsBulk.v).  Note: masked values in 0..63 and int arguments.
* **C103 After a bulk call statements are admitted as expected** (proved).  Model: `Bulk.bulk_set`, `Filter.block_input`.  Proof: C101 and C01 composed.  Theorems: `C103_admits` (PropsBulk.v).  Note: priorities up to FATAL.
* **C104 The log files of different devices do not disturb each other** (proved).  Model: `Disk.disk_run`: all file devices on one file system.  Proof: a step depends on and changes only the files of its device (name, name.1, ...); induction over the records.  Theorems: `C104_alone` (PropsDisk.v).  Note: any interleaving, any failures; files are known by name, so names must differ.
* **C105 What is logged is what the files hold** (proved).  Model: `Disk.log_and_write`: `World.log_stmt` with `FileDev.dev_step` for every line handed to a file.  Proof: one statement hands each accepting device one line (C81); C104; every record is taken (C39); C66 for the contents.  Theorems: `C105_end_to_end` (PropsDisk.v).  Note: fixed file names below 250 bytes, no failing system calls, synchronous channels without hook, priorities TRACE..FATAL.
* **C106 Nothing is lost, doubled or reordered between statements and writer rounds** (proved).  Model: `World.acts` with synchronous and asynchronous channels.  Proof: one statement adds one line to the queue or the file, one round moves the queue to the file; induction over the sequence.  Theorems: `C106_conserved` (PropsMix.v), `C106_written` (PropsMix.v).  Note: no hook, no devices that fail; priorities TRACE..FATAL; no UDP arrivals in the sequence.
* **C107 A log call waits exactly when the queue is full** (proved).  Model: `World.acts`.  Proof: the queue length is bounded by the statements since the last round; induction.  Theorems: `C107_returns` (PropsMix.v), `C107_waits` (PropsMix.v).  Note: the waiting call spins; the model shows it as running out of fuel.
* **C108 Concurrent logging equals logging one after the other** (partial).  Model: `Ring.v` (atomic steps) against `World.acts` (whole statements).  Proof: the order in which slots are reserved is compatible with the calls at every moment; C23 gives the bytes of the one side, C106 and the uniqueness of the text (C81_determined) those of the other.  Theorems: `C108_async_partial` (PropsLin.v), `C108_sync_partial` (PropsLin.v), `C108_thread_order_refuted` (PropsLin.v).  Note: async channel, schedules without a lap (as C19), no stop or restart, all calls accepted by the file device; on a sync channel only some order: a thread's second record can be written before its first (refuted).
* **C109 The threads do not race for a record** (partial).  Model: `Mem.v`: the accesses of every step of `Ring.v` with place, memory order and line; `MemSpec.v`: happens-before and races of such a list.  Proof: invariant: through which index or mark all earlier accesses to a slot are handed on (read_idx_ for free slots, write_idx_ for published ones, data_mark_ for ready and for dispatched ones); the absence of an order is shown by a set of accesses closed under happens-before.  Theorems: `C109_text_partial` (PropsMem.v), `C109_races_partial` (PropsMem.v), `C109_running_partial` (PropsMem.v), `C109_length_refuted` (PropsMem.v), `C109_sync_length_refuted` (PropsMem.v), `C109_state_refuted` (PropsMem.v), `C109_state_lines_refuted` (PropsMem.v), `C109_text_refuted` (PropsMem.v).  Note: True of the bytes of records on schedules without a lap (as C19) and without restart. False of channel_state_ (a plain int, written by stop), of content_len_ at line 500, and on a sync channel at line 127; these are shown to be the only races. With a lap the bytes race too. Executions are sequentially consistent interleavings; join and restart are not followed.
* **C110 A rejected configuration is reported with its line** (partial).  Model: `Report.v`: DebugErrno, the quoting loop and the printed text over the parser of `ParseCfg.v`; `ReportSpec.v`: lines of a text by positions.  Proof: inversion of one lexer step, one line, then ParseDevice, ParseChannel and ParseLogger: the parser always stands at the start of a line of the original text or behind a line, with its number; substitution keeps every newline in place.  Theorems: `C110_report_partial` (PropsReport.v), `C110_number` (PropsReport.v), `C110_message_partial` (PropsReport.v), `C110_misplaced_refuted` (PropsReport.v), `C110_beyond_refuted` (PropsReport.v), `C110_message_refuted` (PropsReport.v).  Note: True for texts without NUL and without byte order mark, for every code except 30, 32 and 33: for a known key that is not allowed where it stands the report names and quotes from the following line, which need not exist (refuted). PEC_ILLEGAL_VAR_VALUE is printed as unknown error (refuted). The quoted text is the text after the definitions were applied.
* **C111 A logger can be restarted any number of times without losing a record** (proved).  Model: `Ring.v`; `RestartSpec.v`: sessions separated by quiet restarts.  Proof: simulation: a run does not depend on the history nor on the counters, so a session from a restarted channel is a session of a new one; the history so far is carried along as a prefix in which everything is delivered.  Theorems: `C111_as_new` (PropsRestart.v), `C111_restart` (PropsRestart.v), `C111_order` (PropsRestart.v), `C111_drains` (PropsRestart.v), `C111_sync` (PropsRestart.v), `C111_waits` (PropsRestart.v), `C111_slots` (PropsRestart.v), `C111_crash` (PropsRestart.v).  Note: schedules without a lap (as C19); a restart is one step of the controlling thread from the join until the writer has set RUNNING, no thread calls the logger during that time. Without quiet stops it is false (C26_restart_refuted).
* **C112 Shared memory is kept over crashes and given up at the end** (partial).  Model: `Shm.v`: the kernel's table of segments, shmget/shmat/shmdt/shmctl, `LoadSharedMemory` and `UnloadSharedMemory` over `Recover.load_shm`, processes and their events.  Proof: invariant of all event sequences: ids and keys are unique, a segment's count is the number of attachments of the processes, removed segments exist only while attached, a used segment carries its id; a second invariant for a segment without header.  Theorems: `C112_new` (PropsShm.v), `C112_attach` (PropsShm.v), `C112_alive` (PropsShm.v), `C112_count` (PropsShm.v), `C112_crash` (PropsShm.v), `C112_shutdown` (PropsShm.v), `C112_apart` (PropsShm.v), `C112_private` (PropsShm.v), `C112_refused` (PropsShm.v), `C112_stuck` (PropsShm.v), `C112_keys_refuted` (PropsShm.v), `C112_multiple_refuted` (PropsShm.v), `C112_version_refuted` (PropsShm.v), `C112_retry_refuted` (PropsShm.v), `C112_live_refuted` (PropsShm.v), `C112_foreign_refuted` (PropsShm.v), `C112_rekey_refuted` (PropsShm.v).  Note: Calls of different processes do not overlap and every segment was made by this library. False: keys equal mod 2^32 share a segment and multiples of 2^32 are always refused; if shmat fails for a new segment the key is unusable from then on (C112_stuck); a refused process stays attached; attaching to a segment in use finishes the statements in progress there; a logger that changes between having a key and having none removes a foreign segment or deletes attached memory.
* **C113 A very large or very small number is shown with all its digits** (proved).  Model: `DblLibc.v`: glibc's `%.16g` and `%.08f` of a binary double, over `DblFmt.v`; `DblLibcSpec.v`: nearest decimal with integers only, the two forms of text, a reader for both.  Proof: the decimal exponent is found by comparing exact integers; the nearest integer is unique and monotone; a reader inverts each form.  Theorems: `C113_scientific` (PropsDblText.v), `C113_form` (PropsDblText.v), `C113_fixed` (PropsDblText.v), `C113_read` (PropsDblText.v), `C113_glibc` (PropsDblText.v).  Note: for gcvt and printf of glibc in rounding mode to-nearest; the eight decimals are written without the sign, a subnormal number as 0 (C12).
* **C114 The larger number is never shown as the smaller** (partial).  Model: the same.  Proof: each form is monotone, and the values at the three thresholds are compared by computation.  Theorems: `C114_order_partial` (PropsDblText.v), `C114_order_refuted` (PropsDblText.v).  Note: True of all pairs of numbers outside -0.0001 to -0.0000001. There the sign is not written, so -0.00005 is shown as more than 0 (refuted).
* **C115 Processes that start at the same time share one segment** (partial).  Model: `ShmRace.v`: `LoadSharedMemory` line by line over `Shm.v`, moves of any number of processes in any order.  Proof: invariant of all interleavings: at most one process is making a segment, nobody uses a segment without header; a call without interruption is the call of C112; under calm moves the key's segment, once made, stays and gets its header; a segment without header and maker stays as it is.  Theorems: `C115_alone` (PropsShmRace.v), `C115_one` (PropsShmRace.v), `C115_untouched` (PropsShmRace.v), `C115_fresh` (PropsShmRace.v), `C115_together` (PropsShmRace.v), `C115_retry` (PropsShmRace.v), `C115_stuck` (PropsShmRace.v), `C115_all_refuted` (PropsShmRace.v), `C115_leak_refuted` (PropsShmRace.v), `C115_killed_refuted` (PropsShmRace.v).  Note: A step is one system call or one header store; ResetSHMLogger and the recovery loop are one step each; processes keep their key and every segment was made by this library. False: that everybody who starts gets the segment (13 or 15 is possible); that a refused process is detached; that a process killed at any moment leaves a usable key: killed between lines 58 and 73 it leaves a key that is refused for ever (C115_stuck).
* **C116 The queue works when loads return old values** (partial).  Model: `WeakRing.v`: the queue over a memory of timestamped stores with views (release/acquire as in view-based operational models); `WeakSpec.v`.  Proof: invariant of all executions: every view, of a thread or of a store, is closed under rules such as: who has seen write index w has seen the ready marks below w, who has seen a ready mark has seen the record; with it a compare-exchange only succeeds on the last store; for one logging thread, its own stores are all that matters.  Theorems: `C116_slots` (PropsWeak.v), `C116_race` (PropsWeak.v), `C116_out` (PropsWeak.v), `C116_room` (PropsWeak.v), `C116_started` (PropsWeak.v), `C116_async` (PropsWeak.v), `C116_single_partial` (PropsWeak.v), `C116_stuck` (PropsWeak.v), `C116_enabled` (PropsWeak.v), `C116_publish_refuted` (PropsWeak.v).  Note: True without laps (as C19) except for the last part. Every record being published is true with one logging thread; with two it is false: both can return while the second record is marked but not published, because the loads in PushChannel are acquire loads after the store of another variable (store buffering); it stays until somebody logs again. The witness needs no more than C++ allows, although the model, which has no order of the seq_cst operations, allows more. x86 has no such executions.
* **C117 A printed time is wrong only on the day the clocks change** (proved).  Model: `DateZone.v`: the cache of `DateFmt.v` over a zone given by three arbitrary functions (offset, flag, mktime).  Proof: the cache always holds the day of the instant last looked up, by its offset; the text of a local time determines the time.  Theorems: `C117_shown` (PropsDateZone.v), `C117_exact` (PropsDateZone.v), `C117_near` (PropsDateZone.v), `C117_calm` (PropsDateZone.v), `C117_agrees` (PropsDateZone.v), `C117_steady_refuted` (PropsDateZone.v).  Note: for offsets up to a day, years 0 to 9999, and once a time outside the first 24 hours of 1970 has been printed (C11). The condition that mktime undoes localtime is needed: in a zone that changes its offset at noon without tm_isdst even a first call is wrong (refuted).
* **C118 Start and stop calls made at the same time take effect one after the other** (partial).  Model: `Life.v`: the four calls cut into their checks and blocks of writes, over the one-thread calls of `Load.v`; a lock; any schedule of any number of threads.  Proof: invariant: who holds the lock has brought the logger part of the way of its own call from where the finished calls left it, everybody else sees that; a measure that every step of a thread lowers unless it waits.  Theorems: `C118_serial_partial` (PropsLife.v), `C118_alternate` (PropsLife.v), `C118_returns` (PropsLife.v), `C118_safe` (PropsLife.v), `C118_answers_refuted` (PropsLife.v), `C118_in_use_refuted` (PropsLife.v), `C118_stopped_refuted` (PropsLife.v).  Note: Accesses are taken in one order for all threads, though the checks outside the lock are data races in the language; writer threads' own hot updates and the destructor are left out. True with refusals explained as stated. False: that the answers are those of some order of the calls (a thread can be told that the logger is in use and then that it is not running while another starts it); that a start refused as in use means that some start succeeds; that the writer threads are stopped when StopLogger has returned.
* **C119 A statement made inside another statement** (partial).  Model: `Nest.v`: one program thread as several threads of `Ring.v`, one for each depth, in schedules that keep the discipline of a call stack.  Proof: all of the queue's invariant applies; an open statement keeps write_idx_ at or below its position, so the capacity bound stops every reservation; with room, the writer alone releases everything below the open statement.  Theorems: `C119_outer_first_partial` (PropsNest.v), `C119_blocks_partial` (PropsNest.v), `C119_stuck_partial` (PropsNest.v), `C119_progress_partial` (PropsNest.v), `C119_returns_refuted` (PropsNest.v).  Note: Schedules without a lap (as C19), no restart; the order is for an async channel. That the statement always returns is false: with BUFFER_LEN - 1 inner statements it hangs, and with it every thread that logs to the channel, until the channel is stopped (refuted, and shown for every such state). Inner statements to other channels are C121.
* **C120 A statement retries only when somebody gets ahead** (proved).  Model: `Cost.v`: counts over the schedules of `Ring.v`.  Proof: a potential: what is left of the statement if nobody moves, plus a retry for an index loaded before its last advance; every own step lowers it, every advance pays for the loads it makes late; needs only that the indices are those of the counters, which laps do not disturb.  Theorems: `C120_cost` (PropsCost.v), `C120_standstill` (PropsCost.v), `C120_enabled` (PropsCost.v), `C120_bounded_refuted` (PropsCost.v).  Note: Operations are those of Ring.v: one for each access to a shared variable and for each byte of the record. Schedules of log statements only (start and stop are C109, C111); an async channel with or without laps, a sync one without a lap (as C19), because there a lapped reader may read a text that is still growing.
* **C121 Statements made inside statements to other channels** (partial).  Model: `Multi.v`: one state of `Ring.v` for each channel, statements of one program thread as nodes of a call tree over all channels.  Proof: each channel's part of a schedule is a schedule of `Ring.v`; an open node of the set keeps its slot, so the full test stays true for the waiting ones; for progress take a node in progress on the channel of highest rank: an innermost one has its slot and publishes, or waits for a slot that the writer alone can release because nobody on this channel is waiting for an inner statement.  Theorems: `C121_one_channel` (PropsMulti.v), `C121_slot` (PropsMulti.v), `C121_progress_partial` (PropsMulti.v), `C121_deadlock_stays` (PropsMulti.v), `C121_returns_refuted` (PropsMulti.v).  Note: That statements always return is false (refuted with two channels). Progress with ordered channels is for async channels and schedules without a lap and without restart; the deadlock theorem is for both kinds of channel, without a lap; the other two hold of every schedule of log statements.
* **C122 The built-in maxima only decide what is too large** (proved).  Model: the parser of `ParseCfg.v` with the maxima as parameters.  Proof: the two runs agree step by step until the smaller maximum is met; from there the larger one ends with an error or with more channels or devices, which are only ever added.  Theorems: `C122_answers` (PropsLimit.v), `C122_larger` (PropsLimit.v), `C122_accepted` (PropsLimit.v).
* **C123 A channel is synchronous if the configuration says so** (partial).  Model: `channel_key` of `ParseCfg.v`; `Samples.v`.  Proof: cases of the first character; the sample is read once and C122 carries it to all maxima.  Theorems: `C123_mode_partial` (PropsLimit.v), `C123_sample` (PropsLimit.v), `C123_upper_refuted` (PropsLimit.v), `C123_sample_refuted` (PropsLimit.v).  Note: True of sync: sync: the channel is synchronous exactly if the value begins with a small s, and no value is reported. False of the documented SYNC and of sync_write: 1 in bin/log.yaml and README.md: both are accepted and make an asynchronous channel, in every library that accepts the file.
* **C124 What a killed process takes from the log files** (partial).  Model: `Flush.v`: rounds of EnterProcChannel with stdio buffers, any number of threads.  Proof: invariant: the writes to a device split so that the kernel has the first part and flush_count bounds what each thread has in the second; with one thread the writes are the accepted records up to proc_idx_; the loss is built record by record.  Theorems: `C124_bound` (PropsFlush.v), `C124_crash` (PropsFlush.v), `C124_idle` (PropsFlush.v), `C124_lost_refuted` (PropsFlush.v), `C124_datagram_refuted` (PropsFlush.v).  Note: The bounds are true and exact: for every limit there is a schedule after which FN_LOG_FORCE_FLUSH_QUE + 1 records (10001 as built) have been released from the queue and are in no file, so a queue in shared memory does not have them either (compare C33). A datagram is written behind the flush of its round and stays in the buffer until the channel has processed a record. C124_bound is about schedules in which no closed FILE is used (C125).
* **C125 No thread flushes a file that another has closed** (partial).  Model: `Flush.v` with a number for each fopen.  Proof: a thread in the middle of flush has the number of the open FILE; two threads as witness.  Theorems: `C125_one_thread_partial` (PropsFlush.v), `C125_no_roll_partial` (PropsFlush.v), `C125_two_threads_refuted` (PropsFlush.v).  Note: True if one thread processes the queue (every asynchronous channel) or nothing rolls. False of a synchronous channel with two threads: flush is outside the lock, and the file can be closed between the test of file_ and fflush, which is undefined behaviour.
* **C126 A statement made while the settings change** (partial).  Model: `Torn.v`: BlockInput as a program of loads, HotUpdateLogger as stores in the order of the words.  Proof: loads and stores go through the words in the same order, so between two loads the update can pass exactly the words that are wanted new; run alone, the program is `block_input` of `Filter.v`.  Theorems: `C126_exact` (PropsTorn.v), `C126_channel_setting_partial` (PropsTorn.v), `C126_device_setting_partial` (PropsTorn.v), `C126_looser_partial` (PropsTorn.v), `C126_admits_refuted` (PropsTorn.v), `C126_drops_refuted` (PropsTorn.v), `C126_undefined_refuted` (PropsTorn.v).  Note: False: the possible answers are exactly those of all mixtures, each setting on its own being the old or the new one; so a record that both reject can be admitted, one that both admit can be dropped, and begin + count can overflow although it does in neither. True if one setting changes (the configuration calls), and in one direction if priorities are lowered and devices enabled.
* **C127 Datagrams read by several threads** (partial).  Model: `UdpRace.v`: the reading loop fn_channel.h:239-254 of any number of threads, a socket queue, one record.  Proof: one thread: the record holds the datagram in hand, which is the only one between the output and the queue; many: each byte and each length has a datagram it came from.  Theorems: `C127_one_thread_partial` (PropsUdpRace.v), `C127_bytes_partial` (PropsUdpRace.v), `C127_lost_refuted` (PropsUdpRace.v), `C127_mixed_refuted` (PropsUdpRace.v), `C127_twice_refuted` (PropsUdpRace.v), `C127_behind_refuted` (PropsUdpRace.v), `C127_before_refuted` (PropsUdpRace.v).  Note: False on synchronous channels, where every logging thread reads into the one udp_buffer_ without a lock: a datagram can be lost and another doubled, bytes of two can be mixed, a thread that received nothing can repeat the last one, and a datagram that fills the buffer lets another thread write behind or in front of the text. True for one thread (every asynchronous channel). For any number of threads and shorter datagrams nothing is written outside, and each text put out has the length of a datagram and column by column bytes of datagrams or zeros.
* **C128 The socket of an input device** (partial).  Model: `Socket.v`: fn_channel.h:203-237 and UDPHandler for any number of threads, with the descriptors of the process.  Proof: one thread: the sockets are the handle, or between call and store the descriptor just given; many: while the handle is set no thread gets into open or close.  Theorems: `C128_one_thread_partial` (PropsSocket.v), `C128_visit` (PropsSocket.v), `C128_open_partial` (PropsSocket.v), `C128_leak_refuted` (PropsSocket.v), `C128_foreign_refuted` (PropsSocket.v), `C128_read_refuted` (PropsSocket.v).  Note: False on synchronous channels: two threads can open at once, and the first socket stays open without a handle; two threads that find the device disabled can close a descriptor the process has got meanwhile; a thread can read from such a descriptor. True for one thread (every asynchronous channel), and for any number of threads once the socket is open and while the device stays enabled.
* **C129 A record dispatched while the settings change** (partial).  Model: `TornOut.v`: DispatchLog as a program of loads, against the same stores as in `Torn.v`.  Proof: as for C126: between two loads the update can pass exactly the words that are wanted new; alone the program is `dispatch` of `Filter.v`; with one changed setting a device of a mixture is the old or the new device.  Theorems: `C129_exact` (PropsTornOut.v), `C129_devices_partial` (PropsTornOut.v), `C129_twice_refuted` (PropsTornOut.v), `C129_lost_refuted` (PropsTornOut.v), `C129_stray_refuted` (PropsTornOut.v).  Note: False on synchronous channels: the devices are exactly those of some mixture of old and new settings, so a record can be put out twice or not at all when the output moves from one device to another, and by a device that takes it with neither. If at most one setting of each device changes, every device decides as with the old or the new settings and puts the record out at most once.
* **C130 A record dispatched while a device is added** (partial).  Model: `Adding.v`: the last round of DispatchLog as a program of loads, against the stores of device_size_ and of the device.  Proof: the loads before the priority are followed one by one (the switch is loaded before in_type_, but stored after it), from there on as for C126; `dispatch` of one device more is `dispatch` followed by one round.  Theorems: `C130_exact` (PropsAdding.v), `C130_old_devices` (PropsAdding.v), `C130_plain_partial` (PropsAdding.v), `C130_priority_refuted` (PropsAdding.v), `C130_category_refuted` (PropsAdding.v).  Note: False on synchronous channels: the number of devices is stored before the device is copied, so the record meets exactly a device with some of its settings still zero; the new device can put out records of a priority or category that is not for it. The devices that were there before are not disturbed, the new one puts the record out at most once, and a device with a single setting is there or is not.
* **C131 Closed log files and power failures** (partial).  Model: `Durable.v`: a file as the buffer of stdio, the memory of the kernel and the disk; open, write, flush, close, and what stdio and the kernel do on their own.  Proof: kernel and buffer together are the text that was written; what the kernel has and what the disk has only grow; close puts on the disk exactly what the kernel had before.  Theorems: `C131_exact` (PropsDurable.v), `C131_reopened` (PropsDurable.v), `C131_first_part` (PropsDurable.v), `C131_grows` (PropsDurable.v), `C131_flushed_partial` (PropsDurable.v), `C131_whole_partial` (PropsDurable.v), `C131_closed_refuted` (PropsDurable.v), `C131_later_refuted` (PropsDurable.v).  Note: False: close() calls fsync before fclose, and only fclose hands stdio's buffer to the kernel, so what was written since the last flush can be lost after the file is closed. True of what was flushed, and of the whole file if nothing was written after the last flush. The kernel is taken to write a file from its start to its end.
* **C132 A roll cut short by a killed process** (proved).  Model: `RollCut.v`: rollback with a number of changes that are done before the process is killed.  Proof: a roll cut short did nothing or is a complete roll from some later file on; the hole is where the next roll stops, so both together shift each file once.  Theorems: `C132_resume` (PropsRollCut.v), `C132_again` (PropsRollCut.v), `C132_total` (PropsRollCut.v), `C132_kept` (PropsRollCut.v).  Note: Paths that end in .log (as all log files do), nothing written between the kill and the next roll; each rename and remove is done or not done.
* **C133 A roll whose renames fail** (partial).  Model: `RollFail.v`: rollback with a predicate that says which calls succeed.  Proof: induction over the depth: what each backup is afterwards depends on the two renames that touch it.  Theorems: `C133_exact` (PropsRollFail.v), `C133_no_failure` (PropsRollFail.v), `C133_kept_partial` (PropsRollFail.v), `C133_overwritten_refuted` (PropsRollFail.v).  Note: False: the result of rename is not used, so when one fails the next rename overwrites the file that stayed. The exact result is given; a file is kept unless its own rename fails and that of the file before it does not, in particular when all calls after a failed one fail too.
* **C134 Processes that roll the same log file** (partial).  Model: `RollRace.v`: a directory of numbered entries for files, any number of processes, one system call per step.  Proof: invariant: entries in order of age, within the setting; an undisturbed roll by induction over the checks and then over the renames; rolls one after the other by induction.  Theorems: `C134_order` (PropsRollRace.v), `C134_opened` (PropsRollRace.v), `C134_ends` (PropsRollRace.v), `C134_alone_partial` (PropsRollRace.v), `C134_serial_partial` (PropsRollRace.v), `C134_lost_refuted` (PropsRollRace.v), `C134_removed_refuted` (PropsRollRace.v).  Note: False: when two processes roll at the same time the second renames the new, almost empty file over the backup of the full one; and a process keeps writing to a file that the other has renamed and at last removed. True: whatever the interleaving, the backups stay numbered from the newest to the oldest within the setting, and a roll ends after 2 n + 4 steps of the process itself with the log file open; a roll that is not disturbed moves every file up by one, so after rolls one after the other a file is in the directory exactly as long as its number is within the setting.
* **C135 File devices that share a path** (partial).  Model: `SharePath.v`: the log file and its backups as a list, for every device its open file and its size field.  Proof: the bytes of each device in each file as a ghost count: at most the size field, so at most the limit; without stuff_up the open files are distinct.  Theorems: `C135_own_partial` (PropsSharePath.v), `C135_bound_partial` (PropsSharePath.v), `C135_count_partial` (PropsSharePath.v), `C135_bytes` (PropsSharePath.v), `C135_backups` (PropsSharePath.v), `C135_place` (PropsSharePath.v), `C135_reached` (PropsSharePath.v), `C135_limit_refuted` (PropsSharePath.v), `C135_removed_refuted` (PropsSharePath.v).  Note: False: with stuff_up two devices fill one file to twice the limit, and with or without it a device goes on writing to a file that the rolls of another have removed. True: without stuff_up no two devices write to the same file, no new file exceeds the limit and the files of an earlier run are not changed; with stuff_up a file grows by at most the limit for each device, a bound that is reached; the size field of a device on its own is the size of the file; every byte goes to one file, there are never more backups than set, and a file is removed exactly when more files were made after it than the setting.

## What is modelled, by source file

| source | modelled | not modelled |
| --- | --- | --- |
| `fn_fmt.h` | all integer, hex, binary, pointer, date and double writers | other C libraries than glibc for the text of `gcvt`/`sprintf` inside the double writer (`DblLibc.v` gives glibc's; all other theorems hold for any text of bounded length), other rounding modes than to-nearest |
| `fn_stream.h` | the constructor with its prefix, every `<<` operand, dumps, containers, moves, the destructor with hook and push | user types with their own `operator<<` |
| `fn_macro.h` | `LOG_FORMAT`, `FastStartDefaultLogger`, `FastStartDebugLogger`, the default configuration text | the macros that only spell these calls, `LogTemplatePack` (a sequence of `<<`) |
| `fn_channel.h` | `BlockInput`, `DispatchLog`, `HoldChannel`, `PushChannel`, `EnterProcChannel` (async and sync), `TransmitChannel`, the UDP input loop, counters | sleeping times |
| `fn_core.h` | start, stop, destroy, load, the get, set and batch calls, `InitLogger` | the Windows console mode |
| `fn_load.h` | `LoadSharedMemory`, `UnloadSharedMemory`, `InitFromYMAL` with its error report, `InitFromYMALFile`, `HotUpdateLogger` | segments of other programs, a second process inside the recovery loop at the same time |
| `fn_parse.h` | the whole lexer and parser, macros and variables, every value parser, `DebugErrno` | nothing |
| `fn_file.h` | `open`, `write`, `rollback`, `short_path`, `read_line`, `read_content`, `process_name`, `create_dir`, the UDP handler, the buffers of stdio (`Flush.v`), `fsync` on close (`Durable.v`) | permissions |
| `fn_out_file_device.h`, `fn_out_screen_device.h`, `fn_out_udp_device.h`, `fn_out_empty_device.h`, `fn_out_virtual_device.h` | all; a hook that logs is an inner statement of `Nest.v` or `Multi.v` | - |
| `fn_data.h` | constants, the fields that the functions above use | layout, alignment and padding, `freq_limits_` (not used by the code) |
| `fn_log.h` | the bulk set calls | - |
| samples | the bytes of two configuration files | programs, tests, benchmarks |

The transition systems are: `Ring.v` (queue of one channel, one atomic
operation per step), `WeakRing.v` (the same queue in release/acquire memory), `Stop.v` (the logger lock, the writer threads and
`StopLogger`), `Life.v` (start and stop calls of several threads), `Nest.v` and
`Multi.v` (statements inside statements, on one channel and on several), `Flush.v` (rounds of the
processing loop with the buffers of stdio), `Torn.v` and `TornOut.v` (the loads of a statement and of
DispatchLog against the stores of an update), `Adding.v` (DispatchLog while a device is
added), `RollRace.v` (processes that roll the same file), `SharePath.v` (devices that share a path), `UdpRace.v` (threads that read datagrams into one record), `Socket.v` (the descriptors of a UDP input), and `World.v` (whole statements, one thread at a time, with every
device and counter).  `Ring.v` and `World.v` describe the same functions at two
grains: `Ring.v` all interleavings of the index operations with records as texts,
`World.v` the bytes, filters, devices and counters of one statement after the other.
C108 relates the two: what any interleaving dispatches is what the same statements
give one after the other in some order.

## Trusted base

* The kernel of Coq 8.16.1, including its `vm_compute` machine (used in examples,
  refutation witnesses and closed computations only).
* The transcription from C++ to Gallina, by reading; no code was run.  The mutation
  log `seeded/LOG.jsonl` shows which wrong transcriptions the theorems notice.
* Sequential consistency of the atomic operations, except in C116, which follows the
  queue through all executions of release/acquire memory (C109 shows which plain
  accesses the acquire and release operations order in sequentially consistent
  executions, and which they do not); the C++ compiler; libc calls as
  described in the comment of the definition that stands for them.
* Windows and macOS branches are outside the model.

### Assumptions

`Print Assumptions` stands under each property theorem.  For every one of them the
answer is "Closed under the global context": no axiom is used, neither of our own
nor of the standard library.

Files of the standard library that are loaded (not used by any theorem) declare
these constants without body in the module type instance `Coq.ssr.ssrunder.Under_rel`:
`Over_rel`, `Under_rel_from_rel`, `over_rel`, `over_rel_done`, `Under_rel`,
`Under_relE`, `under_rel_done`.

No functor, module type, `Declare Module`, plugin, `Admitted`, axiom, or switched-off
kernel check occurs in `rocq/theories`.

## Mutation testing

`tools/mutate.py` builds the committed files in a scratch directory, applies one
wrong edit to a model definition, rebuilds what depends on it and records which
proofs fail.  `seeded/LOG.jsonl` has one line per attempt: the definition, the edit,
the claim that it breaks, the theorems that failed, and, for edits that first went
unnoticed, the theorem that was tightened.  Edits that no theorem can notice because
they do not change behaviour are logged as such.
