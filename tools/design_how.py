# For each property: what is modelled, and how it is proved.
HOW = {
"C01": ("`Filter.block_input` on the settings of `LoggerState.logger`", "induction over the device list; each device test compared with `FilterSpec` by cases over the masks and windows"),
"C02": ("`Filter.dispatch`", "induction over the device list with the emitted ids as accumulator"),
"C03": ("`Filter.block_input` and `Filter.dispatch`", "from C01 and C02; witness by computation for priorities above FATAL"),
"C04": ("the shift and mask test inside `Filter.v`, with the C integer types", "bit-level reasoning (`Z.testbit`) for 0..63; witness for 64 and above"),
"C05": ("`Filter.enter_virtual` and `Filter.stream_hook`, the virtual device index of a channel", "case analysis; witnesses for a switched-off and a missing virtual device"),
"C06": ("`ConfigApi.v`: every get, set and batch call", "refinement of the table in `ConfigSpec.v`, induction over call sequences"),
"C07": ("`NumFmt.write_dec_u`: digit table loops on a buffer", "loop invariant with the positional value of `NumSpec.v`"),
"C08": ("`NumFmt.write_dec_s`", "C07 on the magnitude; witness LLONG_MIN"),
"C09": ("`NumFmt.write_hex`, `write_pointer` with `clz`", "loop invariant in base 16; witness 0"),
"C10": ("`NumFmt.write_bin`", "loop invariant in base 2; witness with a width above the digit count"),
"C11": ("`DateFmt.write_date` with its thread-local cache as state, `gmtime` by day numbers", "invariant of the cache over all print sequences; day numbers against the calendar of `DateSpec.v`"),
"C12": ("`DblFmt.write_double` on exact dyadic rationals with round-to-nearest-even", "bounds on the one rounding; digits by C07"),
"C13": ("`Stream.v`: every operand on a buffer of fixed length", "induction over operand sequences and nesting; frame (bytes outside) and text part"),
"C14": ("the end of `PushChannel` that terminates the text", "cases on the length"),
"C15": ("the `LogStream` constructor", "composition of the writers, with room conditions"),
"C16": ("`Stream.short_path`", "induction over the path from its end"),
"C17": ("`Stream.v` container and pair operands", "induction over the elements"),
"C18": ("`Stream.log_format`", "cases on the `snprintf` result"),
"C19": ("`Ring.v`: one atomic operation per step", "inductive invariant with absolute counters over schedules (`RingInv.v`); witness schedule with a full lap"),
"C20": ("`Ring.v`", "invariant; delivered list is a prefix of the held list"),
"C21": ("`Ring.v`", "invariant bounds the distance of the indices"),
"C22": ("`Ring.v`", "held order restricted to a thread (`RingRun.v`, `RingQuiet.v`)"),
"C23": ("`Ring.v`", "whoever could publish, claim or release is about to do so (`RingLive.v`)"),
"C24": ("`Ring.v` with stop", "measure on the writer's remaining steps (`RingStop.v`)"),
"C25": ("`Ring.v` with stop", "from the invariant; witness schedule"),
"C26": ("`Ring.v` with restart", "quiet states restart as fresh ones; witness schedule"),
"C27": ("`Ring.v`, sync consumers", "invariant over claims; witness schedule"),
"C28": ("`Ring.v`, sync channel", "single-thread runs by induction; two witness schedules"),
"C29": ("`Ring.v` counters", "step invariant on all schedules; witness for bytes on sync channels"),
"C30": ("`World.transmit`", "computation of the whole call on an idle channel against `WorldSpec.v`"),
"C31": ("counter indices of `World.count_written`", "sums over the seven priorities; witnesses outside"),
"C32": ("`Recover.load_shm` on arbitrary memory", "loop invariant over the indices; composed with the reachable states of `Ring.v`"),
"C33": ("`Recover.v` composed with `Ring.v`", "the recovered queue satisfies the invariant, then C20; witnesses"),
"C34": ("`Recover.load_shm`", "cases over the header; witnesses for corrupt indices"),
"C35": ("`FileDev.rollback` on a file system as a map", "induction over the backup numbers"),
"C36": ("`FileDev.dev_run`", "induction over runs"),
"C37": ("`FileDev.dev_run`", "induction over runs"),
"C38": ("`FileDev.dev_step` with the calendar of `DateFmt.v`", "induction over runs; same day iff same stamp"),
"C39": ("`FileDev.dev_step`", "case analysis of one step, induction for counts"),
"C40": ("`FileName.v`", "induction over the template"),
"C41": ("`FileName.v` replacement loop", "measure on remaining escapes; witness that runs for ever"),
"C42": ("`Lexer.v`, `ParseCfg.v`", "measure on position and remaining substitutions; three witnesses for every fuel"),
"C43": ("`Lexer.v`, `ParseCfg.v` with bounds-checked reads", "invariant on positions for every text"),
"C44": ("`ParseCfg.parse_logger`", "invariant on the built configuration"),
"C45": ("`ParseCfg.parse_logger`", "induction over the written configuration of `CfgSpec.v`, line by line"),
"C46": ("`ParseVal.parse_bit_array`", "induction over the written list"),
"C47": ("`ParseVal.parse_bit_array` and `Filter.v`", "from C46 and C04; witness"),
"C48": ("`ParseVal.parse_reserve`", "cases over the finite documented key table"),
"C49": ("`ParseCfg.v` define and var", "induction over occurrences; witness"),
"C50": ("`ParseCfg.parse_logger`", "relational induction over two runs; witness"),
"C51": ("`Load.hot_update`", "merge functions against `LoadSpec.v`"),
"C52": ("`Load.hot_update` over checks", "induction over checks; witnesses"),
"C53": ("`Load.v` life cycle machine", "invariant over call sequences; witnesses"),
"C54": ("`Stop.v` transition system", "well-founded measure under fair schedules; reachable permanent deadlock as witness"),
"C55": ("`Load.v`", "induction over restarts; witness"),
"C56": ("`Moves.v`", "invariant over construction, move, destruction"),
"C57": ("`World.out_screen`", "text up to the NUL"),
"C58": ("`World.udp_loop`", "loop over datagrams; witnesses"),
"C59": ("`ParseVal.parse_address`", "positional value of the parts"),
"C60": ("`Stream.write_binary`", "induction over the bytes; witness"),
"C61": ("`ConfigApi.v`", "bounds tests by cases; witnesses"),
"C62": ("`DblFmt.v`", "sign cases; witness"),
"C63": ("`Stream.stream_val`", "from C12; witness"),
"C64": ("`Ring.v` byte counter", "single-thread runs; witness schedule"),
"C65": ("`Ring.v` with stop", "invariant; witness schedule"),
"C66": ("`FileDev.dev_run`", "invariant: log followed backwards through the backups"),
"C67": ("`FileDev.v` with a zone as a function of time", "witness; the open file is that of an earlier record and both are of one day by the offset of that record"),
"C68": ("`FileDev.v` with short writes", "witness; case analysis of one step without the assumption on `fwrite`, induction for the counts"),
"C69": ("`ParseVal.v` with signed overflow", "witnesses; C43 lists the only undefined steps"),
"C70": ("`ParseCfg.v`", "witness; true part: the state of the lexer after every byte says what the line looks like so far; the lines before the parser's position have been read without error and stay through substitutions; only an empty last line ends without the test for channels"),
"C71": ("`ParseVal.parse_reserve`", "witnesses; the true part is C48; true part: as C70; then the key of a line is unique and shares the first letter with a documented key"),
"C72": ("`ParseCfg.v` var", "witness"),
"C73": ("`ParseCfg.v` define", "witness"),
"C74": ("`ParseCfg.v` on `Samples.v`", "computation on the bytes of the files"),
"C75": ("`ParseVal.parse_out_type`", "witness"),
"C76": ("`ParseVal.v` numbers", "witness; below 2^63 C45"),
"C77": ("`Load.hot_update`", "merge functions; witness"),
"C78": ("`Load.hot_update`", "witness"),
"C79": ("`Load.v` destructor", "invariant over calls; witnesses"),
"C80": ("`Load.load_and_start`", "merge functions against `LoadSpec.v`"),
"C81": ("`World.log_stmt`", "Hold, stream, push, dispatch composed on an idle channel"),
"C82": ("`World.log_stmt` over sequences", "induction over statements"),
"C83": ("`World.log_stmt`, `World.enter_proc`", "induction over the waiting records"),
"C84": ("`World.log_stmt`", "case of a blocked statement"),
"C85": ("`World.udp_loop`", "loop invariant"),
"C86": ("`World.v` counters", "sums over the dispatched devices"),
"C87": ("`World.run_hook`", "composition of C30 with C81 and C83"),
"C88": ("`World.push`", "loop invariant over the published prefix"),
"C89": ("`World.push`", "cases"),
"C90": ("`FastStart.v`", "the default text is a written configuration, then C92"),
"C91": ("`FastStart.v`", "C90 and the set calls of C06"),
"C92": ("`Load.v`, `Filter.v`", "C45, C80 and C02 composed"),
"C93": ("`Load.hot_update`, `Filter.v`", "C51 and C02 composed"),
"C94": ("`Sys.read_content`", "induction over the chunks"),
"C95": ("`Sys.read_content`", "induction; witness"),
"C96": ("`Sys.process_name`", "induction over the path; witness"),
"C97": ("`Sys.create_dir`, file system as a parameter", "induction over the path"),
"C98": ("`Sys.create_dir`", "induction over the path; witness"),
"C99": ("`Sys.out_lines`", "induction over the lines"),
"C100": ("`Sys.in_rounds`", "induction over the rounds; witness"),
"C101": ("`Bulk.bulk_set`: the calls of fn_log.h as sequences of batch calls", "from C06 by extensionality of the settings arrays; witness"),
"C102": ("`Bulk.bulk_set`, `Filter.dispatch`", "C101 and C02 composed"),
"C103": ("`Bulk.bulk_set`, `Filter.block_input`", "C101 and C01 composed"),
"C104": ("`Disk.disk_run`: all file devices on one file system", "a step depends on and changes only the files of its device (name, name.1, ...); induction over the records"),
"C105": ("`Disk.log_and_write`: `World.log_stmt` with `FileDev.dev_step` for every line handed to a file", "one statement hands each accepting device one line (C81); C104; every record is taken (C39); C66 for the contents"),
"C106": ("`World.acts` with synchronous and asynchronous channels", "one statement adds one line to the queue or the file, one round moves the queue to the file; induction over the sequence"),
"C107": ("`World.acts`", "the queue length is bounded by the statements since the last round; induction"),
"C108": ("`Ring.v` (atomic steps) against `World.acts` (whole statements)", "the order in which slots are reserved is compatible with the calls at every moment; C23 gives the bytes of the one side, C106 and the uniqueness of the text (C81_determined) those of the other"),
"C109": ("`Mem.v`: the accesses of every step of `Ring.v` with place, memory order and line; `MemSpec.v`: happens-before and races of such a list", "invariant: through which index or mark all earlier accesses to a slot are handed on (read_idx_ for free slots, write_idx_ for published ones, data_mark_ for ready and for dispatched ones); the absence of an order is shown by a set of accesses closed under happens-before"),
"C110": ("`Report.v`: DebugErrno, the quoting loop and the printed text over the parser of `ParseCfg.v`; `ReportSpec.v`: lines of a text by positions", "inversion of one lexer step, one line, then ParseDevice, ParseChannel and ParseLogger: the parser always stands at the start of a line of the original text or behind a line, with its number; substitution keeps every newline in place"),
"C111": ("`Ring.v`; `RestartSpec.v`: sessions separated by quiet restarts", "simulation: a run does not depend on the history nor on the counters, so a session from a restarted channel is a session of a new one; the history so far is carried along as a prefix in which everything is delivered"),
"C112": ("`Shm.v`: the kernel's table of segments, shmget/shmat/shmdt/shmctl, `LoadSharedMemory` and `UnloadSharedMemory` over `Recover.load_shm`, processes and their events", "invariant of all event sequences: ids and keys are unique, a segment's count is the number of attachments of the processes, removed segments exist only while attached, a used segment carries its id; a second invariant for a segment without header"),
"C113": ("`DblLibc.v`: glibc's `%.16g` and `%.08f` of a binary double, over `DblFmt.v`; `DblLibcSpec.v`: nearest decimal with integers only, the two forms of text, a reader for both", "the decimal exponent is found by comparing exact integers; the nearest integer is unique and monotone; a reader inverts each form"),
"C114": ("the same", "each form is monotone, and the values at the three thresholds are compared by computation"),
"C115": ("`ShmRace.v`: `LoadSharedMemory` line by line over `Shm.v`, moves of any number of processes in any order", "invariant of all interleavings: at most one process is making a segment, nobody uses a segment without header; a call without interruption is the call of C112; under calm moves the key's segment, once made, stays and gets its header; a segment without header and maker stays as it is"),
"C116": ("`WeakRing.v`: the queue over a memory of timestamped stores with views (release/acquire as in view-based operational models); `WeakSpec.v`", "invariant of all executions: every view, of a thread or of a store, is closed under rules such as: who has seen write index w has seen the ready marks below w, who has seen a ready mark has seen the record; with it a compare-exchange only succeeds on the last store; for one logging thread, its own stores are all that matters"),
"C117": ("`DateZone.v`: the cache of `DateFmt.v` over a zone given by three arbitrary functions (offset, flag, mktime)", "the cache always holds the day of the instant last looked up, by its offset; the text of a local time determines the time"),
"C118": ("`Life.v`: the four calls cut into their checks and blocks of writes, over the one-thread calls of `Load.v`; a lock; any schedule of any number of threads", "invariant: who holds the lock has brought the logger part of the way of its own call from where the finished calls left it, everybody else sees that; a measure that every step of a thread lowers unless it waits"),
"C119": ("`Nest.v`: one program thread as several threads of `Ring.v`, one for each depth, in schedules that keep the discipline of a call stack", "all of the queue's invariant applies; an open statement keeps write_idx_ at or below its position, so the capacity bound stops every reservation; with room, the writer alone releases everything below the open statement"),
"C120": ("`Cost.v`: counts over the schedules of `Ring.v`", "a potential: what is left of the statement if nobody moves, plus a retry for an index loaded before its last advance; every own step lowers it, every advance pays for the loads it makes late; needs only that the indices are those of the counters, which laps do not disturb"),
"C121": ("`Multi.v`: one state of `Ring.v` for each channel, statements of one program thread as nodes of a call tree over all channels", "each channel's part of a schedule is a schedule of `Ring.v`; an open node of the set keeps its slot, so the full test stays true for the waiting ones; for progress take a node in progress on the channel of highest rank: an innermost one has its slot and publishes, or waits for a slot that the writer alone can release because nobody on this channel is waiting for an inner statement"),
"C122": ("the parser of `ParseCfg.v` with the maxima as parameters", "the two runs agree step by step until the smaller maximum is met; from there the larger one ends with an error or with more channels or devices, which are only ever added"),
"C123": ("`channel_key` of `ParseCfg.v`; `Samples.v`", "cases of the first character; the sample is read once and C122 carries it to all maxima"),
"C124": ("`Flush.v`: rounds of EnterProcChannel with stdio buffers, any number of threads", "invariant: the writes to a device split so that the kernel has the first part and flush_count bounds what each thread has in the second; with one thread the writes are the accepted records up to proc_idx_; the loss is built record by record"),
"C125": ("`Flush.v` with a number for each fopen", "a thread in the middle of flush has the number of the open FILE; two threads as witness"),
"C126": ("`Torn.v`: BlockInput as a program of loads, HotUpdateLogger as stores in the order of the words", "loads and stores go through the words in the same order, so between two loads the update can pass exactly the words that are wanted new; run alone, the program is `block_input` of `Filter.v`"),
"C127": ("`UdpRace.v`: the reading loop fn_channel.h:239-254 of any number of threads, a socket queue, one record", "one thread: the record holds the datagram in hand, which is the only one between the output and the queue; many: each byte and each length has a datagram it came from"),
"C128": ("`Socket.v`: fn_channel.h:203-237 and UDPHandler for any number of threads, with the descriptors of the process", "one thread: the sockets are the handle, or between call and store the descriptor just given; many: while the handle is set no thread gets into open or close"),
"C129": ("`TornOut.v`: DispatchLog as a program of loads, against the same stores as in `Torn.v`", "as for C126: between two loads the update can pass exactly the words that are wanted new; alone the program is `dispatch` of `Filter.v`; with one changed setting a device of a mixture is the old or the new device"),
"C130": ("`Adding.v`: the last round of DispatchLog as a program of loads, against the stores of device_size_ and of the device", "the loads before the priority are followed one by one (the switch is loaded before in_type_, but stored after it), from there on as for C126; `dispatch` of one device more is `dispatch` followed by one round"),
"C131": ("`Durable.v`: a file as the buffer of stdio, the memory of the kernel and the disk; open, write, flush, close, and what stdio and the kernel do on their own", "kernel and buffer together are the text that was written; what the kernel has and what the disk has only grow; close puts on the disk exactly what the kernel had before"),
"C132": ("`RollCut.v`: rollback with a number of changes that are done before the process is killed", "a roll cut short did nothing or is a complete roll from some later file on; the hole is where the next roll stops, so both together shift each file once"),
"C133": ("`RollFail.v`: rollback with a predicate that says which calls succeed", "induction over the depth: what each backup is afterwards depends on the two renames that touch it"),
"C134": ("`RollRace.v`: a directory of numbered entries for files, any number of processes, one system call per step", "invariant: entries in order of age, within the setting; an undisturbed roll by induction over the checks and then over the renames; rolls one after the other by induction"),
"C135": ("`SharePath.v`: the log file and its backups as a list, for every device its open file and its size field", "the bytes of each device in each file as a ghost count: at most the size field, so at most the limit; without stuff_up the open files are distinct"),
}
