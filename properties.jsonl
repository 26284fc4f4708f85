{"id": "C01", "title": "Admission decision is exactly the documented filter", "statement": "BlockInput lets a record through exactly when: the logger has memory attached and is RUNNING, the channel id exists, the channel is RUNNING, the record's priority is at least the channel priority, its category/identify lie in the channel's [begin, begin+count) windows (a count <= 0 means no window) and in the channel's bit masks (0 means no mask), and at least one enabled, non-input device of that channel passes the same tests with its own settings (a priority above FATAL is compared as FATAL there).", "quantifier": "every logger state, every number of channels and devices, every 64-bit configuration value, every record whose masked category/identify are in 0..63 and whose windows do not overflow a long long", "why_tests_cant": "the decision is a conjunction over 12 configuration words per device times an unbounded record space; tests sample a handful of configurations", "anchors": ["src/include/fn_channel.h:BlockInput"]}
{"id": "C02", "title": "A record is dispatched to exactly the devices whose filter accepts it, once each, in device order", "statement": "Processing one record calls the output routine of device d exactly once if d is enabled, is not an input device and accepts the record's priority, category and identify, and not at all otherwise; devices are visited in increasing device id.", "quantifier": "every channel with any number of devices, every configuration value, every record with in-range masked fields", "why_tests_cant": "the set of (device list, filter, record) combinations is unbounded", "anchors": ["src/include/fn_channel.h:DispatchLog", "src/include/fn_channel.h:EnterProcDevice"]}
{"id": "C03", "title": "An admitted record reaches at least one device and a filtered record reaches none", "statement": "If the configuration is not changed in between, a record admitted by BlockInput is accepted by at least one device when it is dispatched, and a record rejected because of the devices' filters would be accepted by no device at dispatch (for device priorities within TRACE..FATAL).", "quantifier": "every configuration and every record", "why_tests_cant": "requires agreement of two separately written copies of the same filter on all inputs", "anchors": ["src/include/fn_channel.h:BlockInput", "src/include/fn_channel.h:DispatchLog"]}
{"id": "C04", "title": "Mask filters decide membership of the record's own category/identify", "statement": "With a non-zero mask configured, a record passes the mask test if and only if its category (identify) is between 0 and 63 and that bit of the mask is set; any other category or identify is rejected.", "quantifier": "every 64-bit mask, every int category, every long long identify", "why_tests_cant": "tests use small in-range categories; the claim is about all 2^32 categories and 2^64 identifies", "anchors": ["src/include/fn_channel.h:BlockInput", "src/include/fn_channel.h:DispatchLog", "src/include/fn_out_virtual_device.h:EnterProcOutVirtualDevice"]}
{"id": "C05", "title": "The user hook runs exactly for records matching an enabled virtual device of their channel", "statement": "When a stream object is destroyed, the registered virtual-device hook is called at most once, on the creating thread and before the record is queued, and it is called exactly if the record's channel has an enabled virtual device whose priority, window and mask filters accept the record.", "quantifier": "every channel configuration (including channels without a virtual device), every record", "why_tests_cant": "needs all configurations, including those where the channel never mentions a virtual device", "anchors": ["src/include/fn_stream.h:LogStream::~LogStream", "src/include/fn_out_virtual_device.h:EnterProcOutVirtualDevice", "src/include/fn_parse.h:ParseChannel"]}
{"id": "C06", "title": "Run-time configuration calls read back and touch nothing else", "statement": "After SetDeviceConfig(ch, dev, field, v) with valid ids, GetDeviceConfig of that triple returns v and every other device field, channel field and size is unchanged; calls with an id or field out of range change nothing and getters return 0; BatchSet* with an existing field change exactly the matching devices/channels. This holds for any sequence of calls.", "quantifier": "every sequence of Set/Get/BatchSet calls with arbitrary arguments on any started logger", "why_tests_cant": "isolation must hold for all index pairs and all call sequences", "anchors": ["src/include/fn_core.h:SetDeviceConfig", "src/include/fn_core.h:GetDeviceConfig", "src/include/fn_core.h:SetChannelConfig", "src/include/fn_core.h:BatchSetDeviceConfig", "src/include/fn_core.h:BatchSetChannelConfig", "src/include/fn_core.h:GetChannelLog", "src/include/fn_core.h:GetDeviceLog"]}
{"id": "C07", "title": "Unsigned integers print as their exact decimal numeral", "statement": "Streaming an unsigned 64-bit integer (with a minimum width up to 30) writes its decimal numeral without superfluous leading zeros, left-padded with '0' to the width, returns the number of bytes written, and changes no byte outside them.", "quantifier": "all 2^64 values, all widths <= 30, all destinations with room", "why_tests_cant": "2^64 inputs; digit-pair table and buffer index arithmetic must be right for each", "anchors": ["src/include/fn_fmt.h:write_dec_unsafe", "src/include/fn_stream.h:LogStream::write_ulonglong"]}
{"id": "C08", "title": "Signed integers print as their exact decimal numeral", "statement": "Streaming a signed 64-bit integer writes '-' for negative values followed by the decimal numeral of the absolute value, padded to the width, for every value of long long.", "quantifier": "all 2^64 signed values, all widths <= 30", "why_tests_cant": "the extreme value -2^63 and every width/sign combination matter", "anchors": ["src/include/fn_fmt.h:write_dec_unsafe(long long)", "src/include/fn_stream.h:LogStream::write_longlong"]}
{"id": "C09", "title": "Hexadecimal and pointer output is the exact numeral", "statement": "write_hex_unsafe<WIDE> writes the upper-case hexadecimal numeral of its argument, zero-padded to WIDE, and nothing else; write_pointer writes 'null' for nullptr and '0x' plus the numeral otherwise.", "quantifier": "all 2^64 values including 0, all widths >= 0", "why_tests_cant": "2^64 inputs with odd/even digit counts and paddings", "anchors": ["src/include/fn_fmt.h:write_hex_unsafe", "src/include/fn_fmt.h:write_pointer_unsafe"]}
{"id": "C10", "title": "Binary output is the exact zero-padded numeral", "statement": "write_bin_unsafe<WIDE> writes the binary numeral of its argument left-padded with '0' to WIDE and returns the number of characters.", "quantifier": "all 2^64 values, all widths >= 0", "why_tests_cant": "padding and zero need every width/value combination", "anchors": ["src/include/fn_fmt.h:write_bin_unsafe"]}
{"id": "C11", "title": "Timestamps print the calendar time of that instant, whatever was printed before", "statement": "The 23-byte '[YYYYMMDD hh:mm:ss.mmm]' text printed for a timestamp depends only on that timestamp (and its milliseconds, capped at 999) and shows its local date and time of day, independently of the per-thread date cache, i.e. of all earlier timestamps printed on the thread.", "quantifier": "every sequence of timestamps printed on a thread, every timestamp with a 4-digit year, every fixed-offset time zone", "why_tests_cant": "correctness depends on the whole history of the thread-local cache", "anchors": ["src/include/fn_fmt.h:write_date_unsafe"]}
{"id": "C12", "title": "Floating point output fits its reserve and is the value truncated to at most four decimals", "statement": "For every normal double with 0.0001 <= |x| <= 2^60 the text written is the sign, the integer part, and (if non-zero) the first four decimals of the rounded product with trailing zeros beyond two decimals removed, at most 25 bytes long; the integer numeral and decimals read back to that truncated value.", "quantifier": "every normal IEEE-754 double in the range", "why_tests_cant": "2^64 bit patterns and rounding behaviour at carry boundaries (0.99999...)", "anchors": ["src/include/fn_fmt.h:write_double_unsafe"]}
{"id": "C13", "title": "Streaming never writes outside the record buffer and appends exactly the rendered text", "statement": "For any sequence of << operations on a stream, no byte outside the record's content buffer is written, bytes already written are never changed, the length never exceeds LOG_SIZE, and the resulting text is the old text followed by each operand's rendering, where strings are cut at LOG_SIZE and a number/pointer/date is either appended whole or skipped when fewer than its reserve bytes are left.", "quantifier": "every sequence and nesting of streamed values (strings, numbers, pointers, pairs, containers, dates, alignments), every LOG_SIZE allowed by the static_asserts", "why_tests_cant": "needs every operation sequence around the capacity boundary", "anchors": ["src/include/fn_stream.h:LogStream", "src/include/fn_data.h:LogData"]}
{"id": "C14", "title": "Every queued record ends in a newline and a NUL inside the buffer", "statement": "After a record is pushed its text is the streamed text cut to LOG_SIZE-2 bytes followed by one newline, its length is at most LOG_SIZE-1, and the byte after it is NUL.", "quantifier": "every record length 0..LOG_SIZE", "why_tests_cant": "boundary must hold at every length", "anchors": ["src/include/fn_channel.h:PushChannel"]}
{"id": "C15", "title": "The log prefix has the documented layout and fits", "statement": "A stream created with a prefix mask starts with exactly the selected fields in the order timestamp, priority, thread, name, description, [file:line], (function), then a space; prefix_len equals the length of that text; it never leaves the buffer when the (shortened) source path plus function name fit the space promised by the static_asserts.", "quantifier": "every prefix mask, every file/function name within the bound, every logger name/description, line, thread", "why_tests_cant": "2^7 masks times unbounded names", "anchors": ["src/include/fn_stream.h:LogStream::LogStream", "src/include/fn_file.h:short_path", "src/include/fn_fmt.h:write_log_priority_unsafe", "src/include/fn_fmt.h:write_log_thread_unsafe"]}
{"id": "C16", "title": "The source path is shortened to its last three components", "statement": "short_path returns an offset such that the remaining suffix contains at most two separators; it is 0 when the path has fewer than three separators, otherwise the suffix starts right after the third separator from the end. No byte outside the path is read.", "quantifier": "every byte string and length", "why_tests_cant": "all strings", "anchors": ["src/include/fn_file.h:short_path"]}
{"id": "C17", "title": "Containers and pairs print name, size and at most five elements", "statement": "Streaming a container prints '<name>:(<size>)[' then the first five elements separated by ', ', then '..., ' if there are more, then ']'; a pair prints '<first:second>'; nested containers follow the same rule.", "quantifier": "every container of any length and nesting depth, while the buffer has room", "why_tests_cant": "unbounded sizes and nesting", "anchors": ["src/include/fn_stream.h:LogStream::write_container"]}
{"id": "C18", "title": "printf-style logging is bounded and keeps the formatted text", "statement": "LOG_FORMAT appends the formatted text cut so that the length stays below LOG_SIZE, for every result of snprintf including errors and truncation.", "quantifier": "every snprintf return value and every prefix length", "why_tests_cant": "needs all return values around the remaining space", "anchors": ["src/include/fn_macro.h:LOG_FORMAT"]}
{"id": "C19", "title": "No two threads ever own the same queue slot", "statement": "At every moment of every interleaving of logging threads and the channel's writer thread, at most one thread is filling a given slot, and the writer never reads a slot that a logging thread may still be filling.", "quantifier": "every number of threads, every interleaving of their atomic steps, every ring size", "why_tests_cant": "schedules cannot be enumerated by tests; the violation window is a few instructions", "anchors": ["src/include/fn_channel.h:HoldChannel", "src/include/fn_channel.h:PushChannel", "src/include/fn_channel.h:EnterProcChannel"]}
{"id": "C20", "title": "Asynchronous channels deliver every record exactly once, intact, in hold order", "statement": "On an async channel the sequence of (text) records handed to each device is a prefix of the sequence of records in the order in which their slots were reserved; each record is delivered complete and exactly once.", "quantifier": "every number of threads, every interleaving, every ring size, unbounded run length", "why_tests_cant": "exactly-once and integrity must hold on all schedules", "anchors": ["src/include/fn_channel.h:HoldChannel", "src/include/fn_channel.h:PushChannel", "src/include/fn_channel.h:EnterProcChannel"]}
{"id": "C21", "title": "The queue never overfills and never loses a slot", "statement": "The number of reserved-but-not-released slots never exceeds BUFFER_LEN-1, so a record not yet written is never overwritten; a full queue makes the caller wait rather than drop.", "quantifier": "every schedule", "why_tests_cant": "capacity must hold in all interleavings", "anchors": ["src/include/fn_channel.h:HoldChannel"]}
{"id": "C22", "title": "Records of one thread come out in the order the thread wrote them", "statement": "If a thread finishes record A before starting record B on the same async channel, A is delivered before B.", "quantifier": "every schedule, every thread", "why_tests_cant": "ordering over all interleavings", "anchors": ["src/include/fn_channel.h:HoldChannel", "src/include/fn_channel.h:EnterProcChannel"]}
{"id": "C23", "title": "Nothing stays stuck: when no thread is mid-record every record is visible to the writer", "statement": "Whenever every logging thread is outside of a log statement, all reserved records are published, and letting the writer thread run delivers all of them and empties the queue.", "quantifier": "every schedule reaching a quiescent state", "why_tests_cant": "a missed publication needs a particular race between two finishing threads", "anchors": ["src/include/fn_channel.h:PushChannel", "src/include/fn_channel.h:EnterProcChannel"]}
{"id": "C24", "title": "Stopping an async channel delivers everything already published", "statement": "When StopLogger is called while no log statement is in progress, the writer thread delivers every record before it terminates; the queue is empty when StopLogger returns.", "quantifier": "every schedule and queue content at stop time", "why_tests_cant": "depends on all stop points", "anchors": ["src/include/fn_core.h:StopChannels", "src/include/fn_core.h:CleanChannels", "src/include/fn_channel.h:EnterProcChannel"]}
{"id": "C25", "title": "A record whose log statement completed before stop is delivered even if another thread is mid-record", "statement": "A record for which PushLog returned 0 before StopLogger was called is written to the devices.", "quantifier": "every schedule of loggers and stopper", "why_tests_cant": "needs the schedule where another thread's slot precedes the finished one", "anchors": ["src/include/fn_channel.h:PushChannel", "src/include/fn_core.h:StopChannels"]}
{"id": "C26", "title": "Stop and restart are safe while log statements are in progress", "statement": "Stopping and restarting a logger while other threads are inside log statements never makes a device receive an incomplete record.", "quantifier": "every schedule of stop/start against loggers", "why_tests_cant": "the README promises start/stop from any thread; the failing window is a few instructions", "anchors": ["src/include/fn_core.h:CleanChannels", "src/include/fn_core.h:StopChannels", "src/include/fn_channel.h:PushChannel"]}
{"id": "C27", "title": "Synchronous channels deliver every record exactly once", "statement": "On a sync channel, where each logging thread also drains the queue, every record is dispatched by exactly one thread, complete, and its slot is not reused before its dispatch has finished.", "quantifier": "every number of threads and every interleaving", "why_tests_cant": "multi-consumer races", "anchors": ["src/include/fn_channel.h:EnterProcChannel", "src/include/fn_channel.h:PushChannel"]}
{"id": "C28", "title": "A synchronous log statement has been written when it returns", "statement": "On a sync channel, when the log statement returns its record has been handed to the devices, and records reach a device in hold order.", "quantifier": "single-threaded use: every history; multi-threaded use: every interleaving", "why_tests_cant": "ordering in all schedules", "anchors": ["src/include/fn_channel.h:PushChannel", "src/include/fn_channel.h:EnterProcChannel"]}
{"id": "C29", "title": "Channel counters equal what happened", "statement": "CHANNEL_LOG_HOLD, CHANNEL_LOG_PUSH and CHANNEL_LOG_PROCESSED equal the number of reserved, published and delivered records; CHANNEL_LOG_PROCESSED_BYTES equals the number of bytes delivered (async channel).", "quantifier": "every schedule", "why_tests_cant": "counter/effect correspondence over all interleavings", "anchors": ["src/include/fn_channel.h:EnterProcChannel", "src/include/fn_channel.h:HoldChannel", "src/include/fn_channel.h:PushChannel"]}
{"id": "C30", "title": "Transmitting a record copies it faithfully to another channel", "statement": "TransmitChannel pushes to the target channel a record with the same text, priority, time, thread, source location and prefix length, with the given category and identify, subject to the target channel's filter; transmitting to the record's own channel does nothing.", "quantifier": "every record of one of the seven priorities, every target channel and filter", "why_tests_cant": "all field values", "anchors": ["src/include/fn_channel.h:TransmitChannel"]}
{"id": "C31", "title": "Any priority value is accounted within its own statistics", "statement": "Pushing and writing a record of any admitted priority changes only the priority/line/byte counters it belongs to.", "quantifier": "every int priority that passes the filter", "why_tests_cant": "needs priorities beyond the enum, which the public API accepts", "anchors": ["src/include/fn_channel.h:PushChannel", "src/include/fn_out_file_device.h:EnterProcOutFileDevice", "src/include/fn_fmt.h:write_log_priority_unsafe"]}
{"id": "C32", "title": "Crash recovery keeps every reserved record and flags the unfinished ones", "statement": "When a logger attaches to the shared memory of a crashed process, every record published but not yet released is kept unchanged and in order; every reserved but unpublished record is published as FATAL with its text cut to fit plus '!!!core recover!!!' and a newline, within the buffer; afterwards all indices agree and processing restarts at the oldest unreleased record.", "quantifier": "every crash point, i.e. every reachable queue state, every slot content", "why_tests_cant": "a crash can occur between any two instructions", "anchors": ["src/include/fn_load.h:LoadSharedMemory"]}
{"id": "C33", "title": "No record is lost across a crash", "statement": "Every record reserved before the crash and not yet fully delivered is delivered (at least once) after recovery.", "quantifier": "every crash point of every execution", "why_tests_cant": "all crash points in all schedules", "anchors": ["src/include/fn_load.h:LoadSharedMemory", "src/include/fn_channel.h:EnterProcChannel"]}
{"id": "C34", "title": "Attaching to foreign or corrupt shared memory is refused", "statement": "LoadSharedMemory returns an error and leaves the logger unattached if the segment's recorded size or id differs or a queue index is out of range; it always terminates.", "quantifier": "every content of the segment header and indices", "why_tests_cant": "all corrupt contents", "anchors": ["src/include/fn_load.h:LoadSharedMemory"]}
{"id": "C35", "title": "Rolling shifts the backup chain by one and loses only the oldest", "statement": "After rolling path with limit n: path no longer exists, the contiguous chain of backups path, path.1, path.2, ... is shifted up by one, a backup that would get a number above n is deleted, and no other file changes.", "quantifier": "every file system content, every path ending in .log, every n >= 1", "why_tests_cant": "all file-system contents, including gaps in the chain", "anchors": ["src/include/fn_file.h:FileHandler::rollback"]}
{"id": "C36", "title": "The number of backups is bounded by the rollback setting", "statement": "If at most n backups path.1..path.n of a log exist before rolling with limit n, at most n exist afterwards, for any number of rolls.", "quantifier": "any number of rolls from any file system", "why_tests_cant": "unbounded sequences", "anchors": ["src/include/fn_file.h:FileHandler::rollback", "src/include/fn_out_file_device.h:OpenFileDevice"]}
{"id": "C37", "title": "A size-limited log file does not exceed its limit", "statement": "With limit_size and rollback set and stuff_up off, after any sequence of writes the current file and every backup created is at most limit bytes unless it consists of a single oversized record.", "quantifier": "every sequence of record lengths and timestamps", "why_tests_cant": "needs all sequences around the limit", "anchors": ["src/include/fn_out_file_device.h:OpenFileDevice", "src/include/fn_out_file_device.h:EnterProcOutFileDevice"]}
{"id": "C38", "title": "Daily/hourly rolling puts a record in the file of its own day/hour", "statement": "With rolldaily (rollhourly) set, after each successful write the open file was created for the day (hour) that contains the record's timestamp.", "quantifier": "every sequence of timestamps, including going backwards, every fixed-offset time zone", "why_tests_cant": "all timestamp sequences", "anchors": ["src/include/fn_out_file_device.h:OpenFileDevice"]}
{"id": "C39", "title": "File device writes append exactly the records' bytes and count them", "statement": "Every record accepted while the file is open is appended unmodified and in order; total line/byte counters and the current-size field equal what was written; while the file cannot be opened records are dropped and a new attempt is made only after 5 seconds of record time.", "quantifier": "every sequence of records and of open successes/failures", "why_tests_cant": "unbounded histories with failures", "anchors": ["src/include/fn_out_file_device.h:EnterProcOutFileDevice", "src/include/fn_out_file_device.h:OpenFileDevice"]}
{"id": "C40", "title": "File name templates expand every documented escape and nothing else", "statement": "For a template built from text without '$' and '%' and the escapes $PNAME $PID $YEAR $MON $DAY $HOUR $MIN $SEC %F, the file name is the text with every escape replaced by its value, followed by .log; the default template is used when it is empty.", "quantifier": "every template of any length, every time, every process name without '$' and '%'", "why_tests_cant": "all templates", "anchors": ["src/include/fn_out_file_device.h:FmtName", "src/include/fn_out_file_device.h:PreFmtName", "src/include/fn_out_file_device.h:MakeFileName"]}
{"id": "C41", "title": "Expanding a file name terminates", "statement": "MakeFileName terminates for every template and every process name.", "quantifier": "every template and process name", "why_tests_cant": "non-termination cannot be observed by a finite test set", "anchors": ["src/include/fn_out_file_device.h:FmtName"]}
{"id": "C42", "title": "Parsing a configuration terminates", "statement": "ParseLogger returns for every text.", "quantifier": "every byte string", "why_tests_cant": "non-termination; all inputs", "anchors": ["src/include/fn_parse.h:ParseLogger", "src/include/fn_parse.h:Lex", "src/include/fn_parse.h:PredefinedInplace"]}
{"id": "C43", "title": "The lexer never reads outside the text", "statement": "While parsing any text, no byte before the text or after its terminating NUL is read, and all key and value ranges lie inside it.", "quantifier": "every byte string", "why_tests_cant": "memory safety over all inputs", "anchors": ["src/include/fn_parse.h:Lex", "src/include/fn_parse.h:ParseReserve"]}
{"id": "C44", "title": "A configuration accepted by the parser is well formed", "statement": "If ParseLogger succeeds, channel ids are 0..n-1 with n at most the maximum, device ids of each channel are 0..m-1 with m at most the maximum, priorities are within TRACE..FATAL, and file/path strings are NUL-terminated inside their arrays.", "quantifier": "every byte string accepted", "why_tests_cant": "all accepted inputs", "anchors": ["src/include/fn_parse.h:ParseLogger", "src/include/fn_parse.h:ParseChannel", "src/include/fn_parse.h:ParseDevice"]}
{"id": "C45", "title": "Parsing a written-out configuration gives back that configuration", "statement": "For every configuration with channels, devices and their documented options written out as 'key: value' lines with consistent indentation, ParseLogger succeeds and yields exactly those settings.", "quantifier": "every number of channels/devices within the maxima, every option value that fits its field (the documented values that are not accepted are C75 and C76)", "why_tests_cant": "round trip over all configurations", "anchors": ["src/include/fn_parse.h:ParseLogger", "src/include/fn_parse.h:Lex"]}
{"id": "C46", "title": "Bit lists set exactly the listed bits", "statement": "A wlist/blist value written as comma-separated numbers and ranges a-b (either order) with entries 0..63 yields the mask with exactly the listed bits.", "quantifier": "every list of items of any length, any blanks around items", "why_tests_cant": "all lists", "anchors": ["src/include/fn_parse.h:ParseBitArray"]}
{"id": "C47", "title": "A black list rejects exactly its members", "statement": "With category_blist (identify_blist) configured, a category 0..63 is rejected by the mask test exactly when it is listed.", "quantifier": "every list of entries in 0..63", "why_tests_cant": "all 2^64 lists including the full list", "anchors": ["src/include/fn_parse.h:ParseDevice", "src/include/fn_parse.h:ParseBitArray", "src/include/fn_channel.h:BlockInput"]}
{"id": "C48", "title": "Documented keys are recognised as themselves", "statement": "Every documented configuration key is recognised as its own option, and classifying a key never reads beyond the key.", "quantifier": "every key string", "why_tests_cant": "all strings for the memory-safety part", "anchors": ["src/include/fn_parse.h:ParseReserve"]}
{"id": "C49", "title": "Macro and variable substitution is in place and bounded", "statement": "Substituting a define/var changes only later occurrences of the name as a whole word, keeps the text length, leaves everything before the definition unchanged, and rejects replacements longer than the name.", "quantifier": "every text, name and value", "why_tests_cant": "all texts", "anchors": ["src/include/fn_parse.h:PredefinedInplace", "src/include/fn_parse.h:PredefinedMacro", "src/include/fn_parse.h:PredefinedVar"]}
{"id": "C50", "title": "The parse result depends only on the text", "statement": "Parsing the same text twice gives the same settings; an absent shm_key means private memory.", "quantifier": "every text, every previous content of the parser's memory", "why_tests_cant": "indeterminate memory is invisible to most tests", "anchors": ["src/include/fn_parse.h:ParseLogger", "src/include/fn_load.h:InitFromYMAL"]}
{"id": "C51", "title": "Hot update applies exactly the new file's settings of existing and new devices", "statement": "A successful hot update of a channel replaces all its channel settings and the settings of every device that the new file defines, appends devices that are new, keeps the others, keeps statistics and device types, and never exceeds the device maximum; a file that fails to parse changes no setting.", "quantifier": "every pair of old and new configuration", "why_tests_cant": "all pairs", "anchors": ["src/include/fn_load.h:HotUpdateLogger"]}
{"id": "C52", "title": "A hot update reaches every channel", "statement": "After the configuration file changes, once every channel has run its periodic check all channels use the new file's settings.", "quantifier": "every new configuration, every order of channel checks", "why_tests_cant": "depends on cross-channel order", "anchors": ["src/include/fn_load.h:HotUpdateLogger"]}
{"id": "C53", "title": "Starting and stopping follow the life cycle", "statement": "Start succeeds only from the uninitialised state and Stop only from the running state, other calls return an error and change nothing; after a successful Stop the logger can be started again, and after a failed start it is uninitialised.", "quantifier": "every sequence of start/stop calls and every configuration outcome", "why_tests_cant": "all call sequences", "anchors": ["src/include/fn_core.h:StartLogger", "src/include/fn_core.h:StopLogger", "src/include/fn_core.h:ParseAndStartLogger", "src/include/fn_core.h:LoadAndStartLogger"]}
{"id": "C54", "title": "StopLogger always returns", "statement": "StopLogger terminates under every schedule once logging threads are idle.", "quantifier": "every schedule of stopper and writer thread", "why_tests_cant": "a deadlock needs one particular schedule", "anchors": ["src/include/fn_core.h:StopLogger", "src/include/fn_core.h:StopChannels", "src/include/fn_load.h:HotUpdateLogger"]}
{"id": "C55", "title": "Statistics survive a restart", "statement": "Stopping and starting a logger with a new configuration keeps all channel and device counters and replaces all settings.", "quantifier": "every old state and new configuration", "why_tests_cant": "all states", "anchors": ["src/include/fn_load.h:InitFromYMAL"]}
{"id": "C56", "title": "A moved-from stream never pushes", "statement": "However stream objects are moved around, each reserved slot is pushed exactly once, when the last owner is destroyed.", "quantifier": "every sequence of moves and destructions", "why_tests_cant": "all sequences", "anchors": ["src/include/fn_stream.h:LogStream(LogStream&&)", "src/include/fn_stream.h:LogStream::~LogStream"]}
{"id": "C57", "title": "The screen shows exactly the record", "statement": "For a record without NUL bytes the screen device prints exactly its text, wrapped in the priority's colour codes for INFO and above.", "quantifier": "every record and each of the seven priorities", "why_tests_cant": "all contents", "anchors": ["src/include/fn_out_screen_device.h:EnterProcOutScreenDevice"]}
{"id": "C58", "title": "A forwarded UDP datagram is output as received", "statement": "A datagram received by a UDP input device is written to that device's output with exactly the received bytes.", "quantifier": "every sequence of datagrams", "why_tests_cant": "depends on the previous content of the shared buffer", "anchors": ["src/include/fn_channel.h:EnterProcChannel", "src/include/fn_out_screen_device.h:EnterProcOutScreenDevice"]}
{"id": "C59", "title": "UDP addresses are parsed to the given address and port", "statement": "udp_addr 'a.b.c.d:port' yields that IPv4 address and port for every address and port; shorter forms and octal numbers yield what inet_addr documents, and any other text of digits and dots 255.255.255.255.", "quantifier": "all addresses and ports 1..65535", "why_tests_cant": "2^48 inputs", "anchors": ["src/include/fn_parse.h:ParseAddres", "src/include/fn_parse.h:ParseAddresIP"]}
{"id": "C60", "title": "The binary dump shows every byte", "statement": "write_binary prints, for every 32-byte row, each byte as a character (or '.') and as two hex digits, for any byte values, and stays inside the buffer.", "quantifier": "every byte string", "why_tests_cant": "all contents, including zero bytes", "anchors": ["src/include/fn_stream.h:LogStream::write_binary"]}
{"id": "C61", "title": "Configuration calls are safe with any argument and before start", "statement": "SetChannelConfig, SetDeviceConfig, GetDeviceConfig, GetChannelLog, GetDeviceLog and the BatchSet calls have no undefined behaviour for any enum value (including the MAX_ID sentinels) and on a logger that was never started.", "quantifier": "every argument, every logger state", "why_tests_cant": "needs the sentinel and never-started cases of every call", "anchors": ["src/include/fn_core.h:BatchSetChannelConfig", "src/include/fn_core.h:BatchSetDeviceConfig", "src/include/fn_core.h:GetDeviceConfig"]}
{"id": "C62", "title": "Floating point output keeps the sign", "statement": "The text written for a negative double starts with '-', and the text for a positive one does not.", "quantifier": "every normal double", "why_tests_cant": "needs every binade; the failing interval is narrow", "anchors": ["src/include/fn_fmt.h:write_double_unsafe"]}
{"id": "C63", "title": "Percentages show the ratio", "statement": "Streaming a LogPercent of a ratio prints one hundred times the ratio as a decimal number followed by '%'.", "quantifier": "every float ratio", "why_tests_cant": "needs negative and tiny ratios as well as every binade", "anchors": ["src/include/fn_stream.h:LogStream::operator<<(LogPercent)"]}
{"id": "C64", "title": "The pushed-bytes counter equals the bytes pushed", "statement": "When no log statement is in progress, CHANNEL_LOG_PRIORITY (the byte counters indexed by priority, summed) equals the total length of the records pushed to the channel.", "quantifier": "every schedule of logging threads and writer", "why_tests_cant": "needs a thread to be overtaken by a full lap of the ring between two adjacent statements", "anchors": ["src/include/fn_channel.h:PushChannel"]}
{"id": "C65", "title": "A stopped channel accepts no new records until it is restarted", "statement": "Once StopLogger has stopped a channel, a log statement started afterwards reserves no slot and delivers nothing until the logger is started again.", "quantifier": "every schedule of stop against logging threads", "why_tests_cant": "the failing schedule needs a thread between two adjacent loads of the channel state", "anchors": ["src/include/fn_core.h:StopChannels", "src/include/fn_channel.h:EnterProcChannel"]}
{"id": "C66", "title": "Rolling keeps the newest records in order", "statement": "For a file device whose name does not depend on the time: after any run, the backups from the oldest to the newest followed by the current file are the original content followed by the records counted as written, in order and unmodified, except that a beginning of it may be missing, and then only if all backups allowed are present.", "quantifier": "every sequence of records, times and open failures, every setting of limit, rollback, daily, hourly and stuff_up", "why_tests_cant": "unbounded histories of rolls and failures", "anchors": ["src/include/fn_out_file_device.h:OpenFileDevice", "src/include/fn_file.h:FileHandler::rollback"]}
{"id": "C67", "title": "Daily rolling follows the calendar in every time zone", "statement": "With rolldaily set, a record is written to the file of the local calendar day of its timestamp, also on a day on which the offset of the time zone changes.", "quantifier": "every time zone and timestamp", "why_tests_cant": "needs a timestamp within an hour of midnight after a change of offset", "anchors": ["src/include/fn_out_file_device.h:OpenFileDevice"]}
{"id": "C68", "title": "The byte counters of a file device match the file also when writing fails", "statement": "TOTAL_WRITE_BYTE grows by the number of bytes written to the file, also when fwrite takes only part of a record.", "quantifier": "every result of fwrite", "why_tests_cant": "needs a full disk at a chosen record", "anchors": ["src/include/fn_out_file_device.h:EnterProcOutFileDevice"]}
{"id": "C69", "title": "Numbers in a configuration never overflow", "statement": "Parsing a configuration performs no arithmetic that overflows and no shift by 64 or more, whatever numbers it contains.", "quantifier": "every text", "why_tests_cant": "needs numbers beyond the range of the options, which tests do not write", "anchors": ["src/include/fn_parse.h:ParseBitArray", "src/include/fn_parse.h:ParseDevice"]}
{"id": "C70", "title": "An accepted configuration has at least one channel", "statement": "If ParseLogger succeeds, the configuration has at least one channel.", "quantifier": "every text accepted", "why_tests_cant": "only some of the ways to reach the end of the text are checked", "anchors": ["src/include/fn_parse.h:ParseLogger"]}
{"id": "C71", "title": "A misspelt key is reported", "statement": "A line whose key is not one of the documented keys makes ParseLogger fail.", "quantifier": "every key string", "why_tests_cant": "unbounded set of misspellings", "anchors": ["src/include/fn_parse.h:ParseReserve"]}
{"id": "C72", "title": "Spaces around the = of a var line do not matter", "statement": "A var line gives its name the same value whether or not there are spaces around the equals sign.", "quantifier": "every name, value and spacing", "why_tests_cant": "the tests only use spaced values that happen to fit", "anchors": ["src/include/fn_parse.h:PredefinedVar", "dist/include/fn-log/default_log.yaml"]}
{"id": "C73", "title": "define accepts the documented list of key:val pairs", "statement": "A define line written as documented, a list of key:val pairs, replaces each key in the following text by its value.", "quantifier": "every list of pairs", "why_tests_cant": "the tests use the space separated form only", "anchors": ["README.md:define", "src/include/fn_parse.h:PredefinedMacro"]}
{"id": "C74", "title": "The shipped sample configurations are accepted", "statement": "With the default build settings the parser accepts bin/log.yaml and dist/include/fn-log/default_log.yaml.", "quantifier": "both files", "why_tests_cant": "no test loads them", "anchors": ["bin/log.yaml", "dist/include/fn-log/default_log.yaml", "src/include/fn_parse.h:ParseLogger"]}
{"id": "C75", "title": "The documented output type null is accepted", "statement": "A device whose out_type is null, the documented default, is accepted.", "quantifier": "every configuration with out_type null", "why_tests_cant": "the tests leave the option out", "anchors": ["README.md:out_type", "src/include/fn_parse.h:ParseOutType"]}
{"id": "C76", "title": "A 64-bit mask is taken as written", "statement": "category_wmask and identify_wmask, documented as a bitmap by u64, give the mask with exactly the bits of the written number.", "quantifier": "every number below 2^64", "why_tests_cant": "the tests use small masks", "anchors": ["README.md:category_wmask", "src/include/fn_parse.h:ParseDevice", "src/include/fn_parse.h:ParseChannel"]}
{"id": "C77", "title": "A channel that the new file lacks keeps its settings", "statement": "When a hot update reads a file that does not define the channel, the channel keeps all its settings.", "quantifier": "every old configuration and new file", "why_tests_cant": "the tests never shrink a configuration while running", "anchors": ["src/include/fn_load.h:HotUpdateLogger"]}
{"id": "C78", "title": "The hook follows a virtual device added by a hot update", "statement": "After a hot update that adds a virtual device to a channel without one, the user hook is filtered by that device.", "quantifier": "every old configuration and new file", "why_tests_cant": "the tests do not add devices while running", "anchors": ["src/include/fn_load.h:HotUpdateLogger", "src/include/fn_stream.h:~LogStream"]}
{"id": "C79", "title": "A logger can be destroyed after any sequence of calls", "statement": "Whatever sequence of load, start, stop and hot update calls was made, destroying the logger ends, releases its memory and has no undefined behaviour.", "quantifier": "every sequence of calls and every configuration", "why_tests_cant": "all call sequences", "anchors": ["src/include/fn_core.h:~Logger", "src/include/fn_load.h:UnloadSharedMemory"]}
{"id": "C80", "title": "A load takes exactly the file's settings, a refused file changes nothing", "statement": "After a successful load the channels and devices are those of the file, and name, description, hot update switch and shared memory key are the file's, a name or description that the file lacks staying as it was; a file that fails to parse leaves the logger unchanged.", "quantifier": "every earlier history and every file", "why_tests_cant": "all pairs of histories and files", "anchors": ["src/include/fn_load.h:InitFromYMAL", "src/include/fn_load.h:InitFromYMALFile", "src/include/fn_core.h:LoadAndStartLogger"]}
{"id": "C81", "title": "A statement on a synchronous channel reaches exactly the devices that accept it", "statement": "A log statement that the filters admit is rendered, cut to the record, ended by a newline and handed once to every device of the channel that accepts it, in the order of the devices, before the statement ends; the counters grow by exactly what was written, the queue is empty again, and no other channel changes.", "quantifier": "every logger state at rest, statement, operands and outcome of opening and sending", "why_tests_cant": "all combinations of devices, filters and texts", "anchors": ["src/include/fn_stream.h:~LogStream", "src/include/fn_channel.h:HoldChannel", "src/include/fn_channel.h:PushChannel", "src/include/fn_channel.h:EnterProcChannel"]}
{"id": "C82", "title": "A file holds exactly the lines of the accepted statements, in order", "statement": "After any sequence of statements on synchronous channels the bytes handed to a file device are the lines of exactly those statements that its channel and the device accept, in the order of the statements.", "quantifier": "every sequence of statements, every number of channels and devices", "why_tests_cant": "all sequences", "anchors": ["src/include/fn_channel.h:EnterProcChannel", "src/include/fn_out_file_device.h:EnterProcOutFileDevice"]}
{"id": "C83", "title": "A statement on an asynchronous channel waits in order until the writer's round", "statement": "A log statement on an asynchronous channel puts its line behind the waiting lines and writes nothing; a round of the writer thread hands all waiting lines, in order, to the devices that accept them and leaves the queue empty.", "quantifier": "every queue content, statement and device list", "why_tests_cant": "all queue positions and contents", "anchors": ["src/include/fn_channel.h:PushChannel", "src/include/fn_channel.h:EnterProcChannel", "src/include/fn_channel.h:DispatchLog"]}
{"id": "C84", "title": "A rejected statement has no effect", "statement": "A log statement that the filters do not admit leaves queues, counters, devices and files as they were and writes nothing.", "quantifier": "every logger state and statement", "why_tests_cant": "all filters and statements", "anchors": ["src/include/fn_stream.h:LogStream", "src/include/fn_channel.h:BlockInput", "src/include/fn_channel.h:HoldChannel"]}
{"id": "C85", "title": "Received datagrams never leave the buffer", "statement": "A round of the writer thread with any datagrams waiting on the input sockets accesses no memory outside the buffer, writes the waiting lines in order, and hands each datagram read to its own device only.", "quantifier": "every sequence of datagrams of any length and content, every outcome of the sockets", "why_tests_cant": "all datagram lengths around the buffer size and all earlier buffer contents", "anchors": ["src/include/fn_channel.h:EnterProcChannel", "src/include/fn_file.h:UDPHandler::read"]}
{"id": "C86", "title": "The statistics count each statement exactly once", "statement": "A statement of one of the seven priorities that a synchronous channel admits adds one to the held, pushed and processed lines and its length to the bytes of its priority and to the processed bytes of the channel, and one line and its length to each device that took it; all other sums stay.", "quantifier": "every statement of the seven priorities and every channel at rest", "why_tests_cant": "all priorities, texts and devices", "anchors": ["src/include/fn_channel.h:PushChannel", "src/include/fn_channel.h:EnterProcChannel", "src/include/fn_out_file_device.h:EnterProcOutFileDevice"]}
{"id": "C87", "title": "The user hook sees each accepted record once, before it is written", "statement": "A statement on a channel whose virtual device accepts it calls the user hook exactly once, with the statement's arguments and its text ended by NUL, before the line reaches any device of the channel; every channel the hook transmits to gets the line under that channel's filters, the virtual device counts one line and its bytes, and the own channel then gets the line as without hook. If the virtual device does not accept it, the hook is not called and the statement does what it does without hook.", "quantifier": "every hook that transmits to any list of channels at rest, every statement and logger state at rest", "why_tests_cant": "all hooks, filters and texts", "anchors": ["src/include/fn_stream.h:~LogStream", "src/include/fn_out_virtual_device.h:EnterProcOutVirtualDevice", "src/include/fn_channel.h:TransmitChannel"]}
{"id": "C88", "title": "PushChannel publishes exactly the finished records at the front of the queue", "statement": "PushChannel ends the line of its slot with a newline, changes no other slot, and advances the write index over exactly the longest run of finished slots at the front of the queue; while the oldest slot is still being filled it publishes nothing, and the push counter grows by the number of published slots.", "quantifier": "every queue state, slot and text, any number of slots being filled", "why_tests_cant": "all interleavings of slots being filled and finished", "anchors": ["src/include/fn_channel.h:PushChannel"]}
{"id": "C89", "title": "PushChannel refuses a bad channel, a bad slot and a stopped channel", "statement": "PushChannel returns E_INVALID_CHANNEL_SIZE for a channel number outside the logger, E_OUT_RINGBUFFER for a slot number outside the queue and E_LOGGER_NOT_RUNNING for a channel that is not running, and changes nothing.", "quantifier": "every logger state, channel number and slot number", "why_tests_cant": "all numbers", "anchors": ["src/include/fn_channel.h:PushChannel"]}
{"id": "C90", "title": "The logger started without a configuration file has the documented channels and routes", "statement": "FastStartDefaultLogger on a logger that is not in use returns 0 and leaves an asynchronous channel 0 that writes every statement to $PNAME, errors and above also to $PNAME_error and info and above also to the screen, and a synchronous channel 1 that writes every statement to $PNAME_sync and info and above also to $PNAME_sync_info and the screen; the files are limited to 100 MB with 4 backups.", "quantifier": "every logger that is not in use, loaded before or not; every priority, category and identity", "why_tests_cant": "all earlier loads and all priorities, categories and identities", "anchors": ["src/include/fn_macro.h:FastStartDefaultLogger", "src/include/fn_core.h:ParseAndStartLogger", "src/include/fn_parse.h:ParseLogger", "src/include/fn_channel.h:BlockInput", "src/include/fn_channel.h:DispatchLog"]}
{"id": "C91", "title": "FastStartDebugLogger lowers the priorities and keeps the error file", "statement": "FastStartDebugLogger does the same and then the screens show debug and above, every file takes all statements, and the error file of channel 0 still takes errors and above only.", "quantifier": "every logger that is not in use; every priority, category and identity", "why_tests_cant": "all earlier loads and all priorities, categories and identities", "anchors": ["src/include/fn_macro.h:FastStartDebugLogger", "src/include/fn_core.h:BatchSetDeviceConfig", "src/include/fn_core.h:SetDeviceConfig"]}
{"id": "C92", "title": "A loaded configuration routes statements as it is written", "statement": "When LoadAndStartLogger loads a file with any documented configuration, it returns 0, and from then on a statement on a channel is admitted exactly if the options written for the channel accept it and those of one of its enabled devices do, and it goes to exactly the devices whose written options accept it, in their order.", "quantifier": "every documented configuration text within the maxima, every statement within the scope of its masks and windows", "why_tests_cant": "all configurations and statements", "anchors": ["src/include/fn_core.h:LoadAndStartLogger", "src/include/fn_load.h:InitFromYMALFile", "src/include/fn_parse.h:ParseLogger", "src/include/fn_channel.h:BlockInput", "src/include/fn_channel.h:DispatchLog"]}
{"id": "C93", "title": "A hot update routes statements by the new file", "statement": "After a hot update of a running channel with any documented configuration that keeps the channel's devices and their inputs and may add devices, statements on the channel are admitted and routed by the options written in the new file, and statements on the other channels as before.", "quantifier": "every reachable running logger, every documented new file, every statement within scope", "why_tests_cant": "all pairs of configurations and statements", "anchors": ["src/include/fn_load.h:HotUpdateLogger", "src/include/fn_parse.h:ParseLogger", "src/include/fn_channel.h:BlockInput", "src/include/fn_channel.h:DispatchLog"]}
{"id": "C94", "title": "A configuration file is read whole", "statement": "FileHandler::read_content returns exactly the bytes of the file, in particular when its size is a multiple of the buffer size, and ends.", "quantifier": "every file content and every buffer size", "why_tests_cant": "all sizes around every multiple of the buffer size, on platforms with other BUFSIZ", "anchors": ["src/include/fn_file.h:FileHandler::read_content"]}
{"id": "C95", "title": "A configuration whose file cannot be read to the end is not loaded", "statement": "When reading a configuration file fails behind some byte, the part before it is not taken for the whole configuration.", "quantifier": "every file content and place of the error", "why_tests_cant": "injecting read errors at every place", "anchors": ["src/include/fn_file.h:FileHandler::read_content", "src/include/fn_load.h:InitFromYMALFile"]}
{"id": "C96", "title": "The logger is called like the program", "statement": "The default name of a logger is the last component of the path the program was started with, cut to 249 bytes, whatever the arguments are.", "quantifier": "every path and every argument list", "why_tests_cant": "all path lengths and contents", "anchors": ["src/include/fn_file.h:FileHandler::process_name", "src/include/fn_file.h:FileHandler::read_line", "src/include/fn_core.h:InitLogger"]}
{"id": "C97", "title": "create_dir reports success only when every directory on the way exists", "statement": "When FileHandler::create_dir returns true, every non-empty part of the path before a slash is a directory; it makes only such parts and only those that were not directories before, and returns false only if mkdir of a missing part failed.", "quantifier": "every path and every file system in which directories stay", "why_tests_cant": "all paths with any number and place of slashes, all earlier directories", "anchors": ["src/include/fn_file.h:FileHandler::create_dir"]}
{"id": "C98", "title": "create_dir succeeds whenever the directories can be made", "statement": "FileHandler::create_dir returns true for every path whose missing directories can be made one in the other, also when another process makes some of them at the same time.", "quantifier": "every path, file system and interference", "why_tests_cant": "races with another process between opendir and mkdir", "anchors": ["src/include/fn_file.h:FileHandler::create_dir"]}
{"id": "C99", "title": "UDP outputs ask for a socket at most every three seconds and count every line they lose", "statement": "For any sequence of lines at times that do not go back, a UDP output asks for a socket at most every three seconds and never while it has one; every line is handed to sendto or counted as lost, a line that sendto refuses is counted as lost too, and from the first line three seconds after a failure on every line is handed over if a socket can be had.", "quantifier": "every sequence of lines, times and results of the system calls", "why_tests_cant": "all sequences of failures over time", "anchors": ["src/include/fn_file.h:UDPHandler::open", "src/include/fn_out_udp_device.h:EnterProcOutUDPDevice"]}
{"id": "C100", "title": "A UDP input listens on the configured address or not at all", "statement": "In every round of the writer thread an open input socket is bound to the configured address, a disabled input has no socket, and a socket that could not be bound is closed and tried again after three seconds.", "quantifier": "every sequence of rounds, settings and results of the system calls", "why_tests_cant": "all sequences of failures, switches and address changes over time", "anchors": ["src/include/fn_channel.h:EnterProcChannel", "src/include/fn_file.h:UDPHandler::open", "src/include/fn_file.h:UDPHandler::bind"]}
{"id": "C101", "title": "The bulk calls set exactly the setting they name", "statement": "EnableAll..., SetAll...Priority, SetAll...Category, SetAllFileLimitSize and SetAllFileRollbackCount set the named setting of every used device of the named kind (of every channel) to the argument and change nothing else in the logger.", "quantifier": "every started logger and every argument", "why_tests_cant": "all loggers, device tables and argument values", "anchors": ["src/include/fn_log.h:EnableAllFileDevice", "src/include/fn_log.h:SetAllFilePriority", "src/include/fn_log.h:SetAllScreenCategory", "src/include/fn_core.h:BatchSetDeviceConfig"]}
{"id": "C102", "title": "After a bulk call records go to the expected devices", "statement": "After a bulk call a record goes to the devices of other kinds as before, and to a device of the named kind exactly if the new setting and its other settings let it; the order of the devices stays.", "quantifier": "every started logger, call and record", "why_tests_cant": "all combinations of settings, calls and records", "anchors": ["src/include/fn_log.h:EnableAllScreenDevice", "src/include/fn_log.h:SetAllScreenPriority", "src/include/fn_channel.h:DispatchLog"]}
{"id": "C103", "title": "After a bulk call statements are admitted as expected", "statement": "After a bulk call a statement is admitted exactly if logger and channel run, the channel settings with the new value let it in and at least one device is left that takes it.", "quantifier": "every started logger, call and statement of a valid priority", "why_tests_cant": "all combinations of settings, calls and statements", "anchors": ["src/include/fn_log.h:SetAllChannelPriority", "src/include/fn_log.h:SetAllChannelCategory", "src/include/fn_channel.h:BlockInput"]}
{"id": "C104", "title": "The log files of different devices do not disturb each other", "statement": "When no two file devices use the same file name, then after any interleaving of records every device has the files, backups, open file and counters it would have if it had been the only one, and no other file has changed.", "quantifier": "every set of file devices, every interleaving of records, every file system and every failure of opening or writing", "why_tests_cant": "all interleavings of rollbacks and writes of many devices", "anchors": ["src/include/fn_out_file_device.h:EnterProcOutFileDevice", "src/include/fn_out_file_device.h:OpenFileDevice", "src/include/fn_file.h:FileHandler::rollback"]}
{"id": "C105", "title": "What is logged is what the files hold", "statement": "For any sequence of log statements on synchronous channels, each file device's current file and backups together hold what they held before followed by exactly the lines of the statements that channel and device accept, in the order of the statements; only a beginning of that text may have gone, with the oldest backups, and only when the configured number of backups is used up.", "quantifier": "every logger with synchronous channels, every statement sequence, every device settings and earlier files", "why_tests_cant": "all statement sequences against all settings of filters, size limits and rolling", "anchors": ["src/include/fn_log.h:LOG_STREAM", "src/include/fn_channel.h:DispatchLog", "src/include/fn_out_file_device.h:EnterProcOutFileDevice", "src/include/fn_file.h:FileHandler::rollback"]}
{"id": "C106", "title": "Nothing is lost, doubled or reordered between statements and writer rounds", "statement": "On a logger with synchronous and asynchronous channels, for any order of log statements and rounds of the writer threads: what a file device has been given plus what still waits for it in the queue is exactly what it was before followed by the lines of the statements that channel and device accept, in the order of the statements. After a last round of the writer, or on a synchronous channel, all of it has been given to the file.", "quantifier": "every logger, every sequence of statements and rounds", "why_tests_cant": "all interleavings of statements and rounds over any number of channels", "anchors": ["src/include/fn_log.h:LOG_STREAM", "src/include/fn_core.h:PushLog", "src/include/fn_channel.h:EnterProcChannel"]}
{"id": "C107", "title": "A log call waits exactly when the queue is full", "statement": "A sequence of statements and writer rounds always runs to its end as long as no statement meets an asynchronous queue with all slots but one in use; a statement that meets one waits for the writer.", "quantifier": "every logger, every sequence of statements and rounds", "why_tests_cant": "all fill levels and interleavings", "anchors": ["src/include/fn_channel.h:HoldChannel", "src/include/fn_channel.h:PushChannel"]}
{"id": "C108", "title": "Concurrent logging equals logging one after the other", "statement": "Whatever threads log at the same time on one channel: once no call is in progress and the writer thread has had time, the bytes in the file are exactly those that the same log statements produce when made one after the other, in some order in which every call that returned before another began comes first and each thread's calls keep their order.", "quantifier": "every schedule of any number of threads, every statement", "why_tests_cant": "all interleavings of atomic steps of unboundedly many threads", "anchors": ["src/include/fn_channel.h:HoldChannel", "src/include/fn_channel.h:PushChannel", "src/include/fn_channel.h:EnterProcChannel", "src/include/fn_log.h:LOG_STREAM"]}
{"id": "C109", "title": "The threads do not race for a record", "statement": "Whatever threads log, dispatch and stop at the same time, two accesses of different threads to the same record or to the same shared variable of a channel, one of them a write, are ordered by the acquire and release operations of the queue: the reader of a record sees all of it, and a slot is refilled only after it has been read.", "quantifier": "every schedule of any number of threads, every pair of accesses", "why_tests_cant": "all interleavings; a data race shows in a test only by chance, if at all", "anchors": ["src/include/fn_channel.h:HoldChannel", "src/include/fn_channel.h:PushChannel", "src/include/fn_channel.h:EnterProcChannel", "src/include/fn_core.h:StopChannels"]}
{"id": "C110", "title": "A rejected configuration is reported with its line", "statement": "When a configuration text is rejected, the report that InitFromYMAL prints names the error with its code and a message, gives the number of the line that caused it (lines counted from one, ended by CR, LF or either pair), and quotes the text from the start of that line: all of it, or 380 bytes and then up to the next line feed. Definitions replaced in the text do not move lines.", "quantifier": "every text the parser rejects", "why_tests_cant": "all texts, all kinds of error at every position, all line endings", "anchors": ["src/include/fn_load.h:InitFromYMAL", "src/include/fn_parse.h:DebugErrno", "src/include/fn_parse.h:Lex", "src/include/fn_parse.h:ParseLogger"]}
{"id": "C111", "title": "A logger can be restarted any number of times without losing a record", "statement": "When a logger is stopped and started again, any number of times, each time while no thread is inside a log statement: the channel is empty and like new after every restart, every record accepted in any session is delivered exactly once, an asynchronous channel delivers all of them in the order in which they were accepted, each thread's in its own order, no two threads ever use the same slot, and after a crash in a later session the records not yet delivered are recovered as in the first.", "quantifier": "every number of sessions, every schedule within and between them", "why_tests_cant": "unboundedly many sessions and interleavings; a test restarts a logger a few times", "anchors": ["src/include/fn_core.h:StopLogger", "src/include/fn_core.h:StartLogger", "src/include/fn_core.h:CleanChannels", "src/include/fn_channel.h:HoldChannel", "src/include/fn_channel.h:EnterProcChannel"]}
{"id": "C112", "title": "Shared memory is kept over crashes and given up at the end", "statement": "For any sequence of processes that start, load the shared memory of their key, log, die or destroy their logger: the first process with a key gets a new segment with empty queues; one that comes after a crash gets the memory left behind; a logger's memory exists as long as it uses it, whatever other processes do; a process that destroys its logger gives the key free and the segment goes with its last user; processes with different keys do not touch each other's segments; a call that the system refuses changes nothing and can be repeated.", "quantifier": "every number of processes and keys, every order of their calls, every choice of system failures", "why_tests_cant": "unboundedly many processes, crashes and failures of shmget and shmat that a test cannot provoke", "anchors": ["src/include/fn_load.h:LoadSharedMemory", "src/include/fn_load.h:UnloadSharedMemory", "src/include/fn_load.h:ResetSHMLogger", "src/include/fn_core.h:Logger::~Logger"]}
{"id": "C113", "title": "A very large or very small number is shown with all its digits", "statement": "A normal number of at most 0.0000001 or of more than 2^60 is written in the form d.ddde+XX with the sixteen digits nearest to it, ties to even, no trailing zeros, and the exponent that belongs to them; one between 0.0000001 and 0.0001 with eight decimals, correctly rounded. There is exactly one such text. Read back it differs from the number by at most half a unit in the last of these places; every other text reads back as the number cut after four decimals.", "quantifier": "every finite double", "why_tests_cant": "2^64 doubles; rounding at ties, carries and powers of ten", "anchors": ["src/include/fn_fmt.h:write_double_unsafe"]}
{"id": "C114", "title": "The larger number is never shown as the smaller", "statement": "Whatever two numbers are logged: if the one is not larger than the other, then what is written for the one, read back, is not larger than what is written for the other, even if the two are written in different forms.", "quantifier": "every two finite doubles", "why_tests_cant": "all pairs of doubles, in particular around the three thresholds between the four forms", "anchors": ["src/include/fn_fmt.h:write_double_unsafe"]}
{"id": "C115", "title": "Processes that start at the same time share one segment", "statement": "However the calls of LoadSharedMemory of any number of processes interleave, also with processes that log, end or are killed: a logger's segment always exists, is attached and carries its header; two loggers with one key have one segment unless it was removed; nothing a process does before it checks the header touches the memory of a running logger; no process is given memory that another is still preparing. If no system call fails and nobody is killed, then when all calls are back at least one process has the segment, the others were refused with 13 or 15, and each of these gets the segment if it calls again.", "quantifier": "every number of processes, every interleaving of their system calls and header stores, every choice of failures and kills", "why_tests_cant": "a window of a few instructions between processes that a test cannot hold open", "anchors": ["src/include/fn_load.h:LoadSharedMemory", "src/include/fn_load.h:UnloadSharedMemory", "src/include/fn_load.h:ResetSHMLogger"]}
{"id": "C116", "title": "The queue works when loads return old values", "statement": "Under the memory orders written in the code, with every load free to return any value that the C++ rules for acquire and release allow, and not only in sequentially consistent interleavings: no two threads work on the same slot; a thread about to write or read a record has seen every earlier access to it; every record is dispatched at most once and with the text its thread wrote; the four indices stay in order and at most one record less than the ring has slots is under way; each thread's statements are reserved in its order; an async channel dispatches in the order of reservation; and when a statement has returned and no other is in progress, every record is published, so that the writer thread dispatches it.", "quantifier": "every number of threads, every execution of the acquire/release memory model, every ring size", "why_tests_cant": "weak memory executions do not occur on the machine the tests run on, or only by chance", "anchors": ["src/include/fn_channel.h:HoldChannel", "src/include/fn_channel.h:PushChannel", "src/include/fn_channel.h:EnterProcChannel"]}
{"id": "C117", "title": "A printed time is wrong only on the day the clocks change", "statement": "In every time zone, with any number of changes of its offset: if mktime undoes localtime, the time shown is that of the instant by the offset in force at the instant for which the thread last asked the calendar, which lies less than a day away; so it is right exactly if the offset has not changed in between, and always if all times the thread printed within a day of it had the same offset. With any mktime that keeps the contract of the C standard it is right on a thread that prints times of days without a change only.", "quantifier": "every time zone, every sequence of timestamps of the thread, forwards or backwards in time", "why_tests_cant": "tests run in one zone and rarely across a change of the clocks", "anchors": ["src/include/fn_fmt.h:write_date_unsafe", "src/include/fn_file.h:time_to_tm"]}
{"id": "C118", "title": "Start and stop calls made at the same time take effect one after the other", "statement": "Whatever threads call StartLogger, ParseAndStartLogger, LoadAndStartLogger and StopLogger on one logger at the same time: the calls that do something do it one after the other, each exactly as if it were alone, and leave the logger as that order of calls leaves it; a call that is refused changes nothing, and was refused because the logger was as the answer says or because another call was under way; successful starts and stops alternate, so that of several starts at once at most one succeeds; every call returns if the writer threads come up or give up, and the logger is then started or stopped; and nothing is undefined once the logger is loaded.", "quantifier": "every number of threads and calls, every interleaving of the checks and writes, every configuration text, every behaviour of the writer threads", "why_tests_cant": "the windows between the check without the lock and the one behind it are a few instructions wide; unboundedly many threads and calls", "anchors": ["src/include/fn_core.h:StartLogger", "src/include/fn_core.h:StopLogger", "src/include/fn_core.h:ParseAndStartLogger", "src/include/fn_core.h:LoadAndStartLogger", "src/include/fn_load.h:InitFromYMAL", "src/include/fn_load.h:InitFromYMALFile"]}
{"id": "C119", "title": "A statement made inside another statement", "statement": "If evaluating an operand of a log statement, or the hook of the virtual device, makes further log statements to the same channel, at any depth: the outer line is delivered, complete, before the inner ones, although these are finished first; until the outer statement is finished nothing that was reserved after it is delivered, also on a synchronous channel; an inner statement gets a slot as soon as the writer thread has caught up, as long as fewer than BUFFER_LEN - 1 records have been reserved since the oldest unfinished statement; and with that many the statement, and every other thread that logs to the channel, waits until the channel is stopped.", "quantifier": "every number of threads, every depth and number of inner statements, every interleaving, every ring size", "why_tests_cant": "the hang needs as many inner statements as the ring has slots; the order depends on when other threads and the writer run", "anchors": ["src/include/fn_stream.h:LogStream::LogStream", "src/include/fn_stream.h:LogStream::~LogStream", "src/include/fn_channel.h:HoldChannel", "src/include/fn_channel.h:PushChannel", "src/include/fn_out_virtual_device.h:EnterProcOutVirtualDevice"]}
{"id": "C120", "title": "A statement retries only when somebody gets ahead", "statement": "The number of atomic operations a log statement makes is at most twelve (sixteen on a synchronous channel), one for each byte, four for each time it finds the queue full, four for each reservation and six for each publication that any thread makes meanwhile and, on a synchronous channel, FN_LOG_MAX_LOG_SIZE + 9 for each record taken for writing and four for each slot released meanwhile. From any point of an execution on, while none of the four indices advances a thread makes a bounded number of operations within its statement unless it finds the queue full; and a thread that is inside a statement always has a next operation. No bound holds without the count of full queues: on a full queue whose writer does not run a statement polls for as long as one lets it.", "quantifier": "every ring size and line size, every number of threads, every interleaving of log statements (on a synchronous channel: without a lap)", "why_tests_cant": "a bound on retries under every interleaving cannot be observed; a stress test only shows that the retries it met were few", "anchors": ["src/include/fn_channel.h:HoldChannel", "src/include/fn_channel.h:PushChannel", "src/include/fn_channel.h:EnterProcChannel"]}
{"id": "C121", "title": "Statements made inside statements to other channels", "statement": "Log statements to one channel do nothing to the queue of another, also when they are made inside one another. On an asynchronous channel a statement that has its slot returns within 14 + length + 12 * BUFFER_LEN operations when it runs alone, whatever the others have done. If statements are only made inside statements to channels that come earlier in some order of the channels, then whenever a statement is in progress there is one that returns when only it and the writer thread of its channel run. Without such an order statements of two threads can wait for each other: then none of them moves and nobody gets a slot on their channels until one of these is stopped, and two threads with one inner statement each are enough for that.", "quantifier": "every number of channels and threads, every depth and number of inner statements, every interleaving, every ring size", "why_tests_cant": "the deadlock needs two full queues at the same moment as two crossing statements; its absence is a statement about all interleavings of all channels", "anchors": ["src/include/fn_stream.h:LogStream::LogStream", "src/include/fn_stream.h:LogStream::~LogStream", "src/include/fn_channel.h:HoldChannel", "src/include/fn_channel.h:PushChannel", "src/include/fn_out_virtual_device.h:EnterProcOutVirtualDevice"]}
{"id": "C122", "title": "The built-in maxima only decide what is too large", "statement": "Building the library with another maximum of channels or devices changes nothing about how a configuration text is read except that a text may then have too many of them: with smaller maxima the answer is the same, or it is the error for too many channels or devices; a text that is accepted is accepted with the same result under larger maxima, and under smaller ones exactly if the configuration that was read is within them.", "quantifier": "every text, every pair of maxima, every name resolution", "why_tests_cant": "all texts against all maxima; a test has one build", "anchors": ["src/include/fn_parse.h:ParseLogger", "src/include/fn_parse.h:ParseChannel", "src/include/fn_data.h:FN_LOG_MAX_CHANNEL_SIZE", "src/include/fn_data.h:FN_LOG_MAX_DEVICE_SIZE"]}
{"id": "C123", "title": "A channel is synchronous if the configuration says so", "statement": "A channel whose configuration asks for synchronous writing in one of the documented ways (sync: sync, sync: SYNC, the sync_write: 1 of the shipped sample) is synchronous, any other is asynchronous.", "quantifier": "every value of the key", "why_tests_cant": "a channel that is not synchronous writes the same lines, only later", "anchors": ["src/include/fn_parse.h:ParseChannelType", "src/include/fn_parse.h:ParseChannel"]}
{"id": "C124", "title": "What a killed process takes from the log files", "statement": "A record that has left the queue is in its log file when the process is killed. Only text in the buffers of stdio is lost: of each thread at most the last FN_LOG_FORCE_FLUSH_QUE + 1 records that it wrote to a file, none once it has flushed at the end of its round, so a synchronous log statement that has returned is safe, and an asynchronous channel has everything in the files whenever it has caught up. Datagrams written to a file are there as well after the round.", "quantifier": "every schedule of any number of threads, every number of devices and filter, every limit, at every moment, whatever stdio hands over on its own", "why_tests_cant": "the process has to be killed between two particular operations", "anchors": ["src/include/fn_channel.h:EnterProcChannel", "src/include/fn_file.h:FileHandler", "src/include/fn_data.h:FN_LOG_FORCE_FLUSH_QUE", "src/include/fn_out_file_device.h:EnterProcOutFileDevice"]}
{"id": "C125", "title": "No thread flushes a file that another has closed", "statement": "FileHandler::flush is never applied to a FILE that has been closed by rolling.", "quantifier": "every schedule of any number of threads, with rolling at any record", "why_tests_cant": "the window is between a test of a pointer and the call behind it", "anchors": ["src/include/fn_channel.h:EnterProcChannel", "src/include/fn_file.h:FileHandler", "src/include/fn_out_file_device.h:EnterProcOutFileDevice"]}
{"id": "C126", "title": "A statement made while the settings change", "statement": "A log statement that is made while a hot update or a configuration call replaces settings of its channel is admitted as by the old or as by the new settings.", "quantifier": "every old and new configuration, every record, every interleaving of the loads and stores", "why_tests_cant": "the window is a few loads wide, and the answers depend on the combination of settings", "anchors": ["src/include/fn_channel.h:BlockInput", "src/include/fn_load.h:HotUpdateLogger", "src/include/fn_core.h:SetChannelConfig", "src/include/fn_core.h:SetDeviceConfig"]}
{"id": "C127", "title": "Datagrams read by several threads", "statement": "Every datagram that an input device of a channel receives is put out once, unchanged up to the limit of a record, in the order of arrival, whichever threads log to the channel, and nothing is written outside the record used for it.", "quantifier": "every sequence of datagrams, every number of threads, every interleaving of the reading loops", "why_tests_cant": "the threads have to meet between recvfrom and the store of the length, and the harm shows only in the forwarded text", "anchors": ["src/include/fn_channel.h:EnterProcChannel", "src/include/fn_channel.h:InitLogData", "src/include/fn_file.h:UDPHandler"]}
{"id": "C128", "title": "The socket of an input device", "statement": "An input device has at most one socket open; the descriptor in its handle is that socket or none; and processing a channel never reads from or closes a descriptor that belongs to the rest of the process.", "quantifier": "every number of threads, every interleaving of them with the enabling and disabling of the device, with failures of socket and bind and with the descriptors the process opens", "why_tests_cant": "descriptors leak or are closed twice only if two threads meet within a few instructions, and the victim is elsewhere in the process", "anchors": ["src/include/fn_channel.h:EnterProcChannel", "src/include/fn_file.h:UDPHandler"]}
{"id": "C129", "title": "A record dispatched while the settings change", "statement": "A record that is dispatched while a hot update replaces settings of its channel is put out by the devices of the old settings or by those of the new ones.", "quantifier": "every old and new configuration, every record, every interleaving of the loads and stores", "why_tests_cant": "two threads have to log to a synchronous channel within the few stores of an update", "anchors": ["src/include/fn_channel.h:DispatchLog", "src/include/fn_load.h:HotUpdateLogger"]}
{"id": "C130", "title": "A record dispatched while a device is added", "statement": "A record that is dispatched while a hot update adds a device to its channel is put out as by the channel without the device or as by the channel with it.", "quantifier": "every channel, every new device, every record, every interleaving of the loads and stores", "why_tests_cant": "two threads have to log to a synchronous channel within the copy of one device", "anchors": ["src/include/fn_channel.h:DispatchLog", "src/include/fn_load.h:HotUpdateLogger"]}
{"id": "C131", "title": "Closed log files and power failures", "statement": "When a log file has been closed, by a roll or by StopLogger, a power failure loses nothing of what was written to it.", "quantifier": "every sequence of opens, writes, flushes and closes, every moment at which stdio or the kernel write on their own", "why_tests_cant": "needs a power failure in the moment after a file was closed", "anchors": ["src/include/fn_file.h:FileHandler::close", "src/include/fn_file.h:FileHandler::flush", "src/include/fn_file.h:FileHandler::open"]}
{"id": "C132", "title": "A roll cut short by a killed process", "statement": "If the process is killed in the middle of a roll, at any point and any number of times, no file but the oldest is lost, and the next roll gives the files that one undisturbed roll would have given.", "quantifier": "every set of files, every rollback setting, every moment of the kill, any number of kills", "why_tests_cant": "needs a kill between two renames", "anchors": ["src/include/fn_file.h:FileHandler::rollback"]}
{"id": "C133", "title": "A roll whose renames fail", "statement": "If renaming or removing a file fails during a roll, no backup but the oldest is lost.", "quantifier": "every set of files, every rollback setting, every set of failing calls", "why_tests_cant": "needs a file system on which single renames fail", "anchors": ["src/include/fn_file.h:FileHandler::rollback"]}
{"id": "C134", "title": "Processes that roll the same log file", "statement": "Processes that write to the same log file, such as two instances of one program, lose no records but those of the oldest backup.", "quantifier": "any number of processes, every interleaving of their file operations, every rollback setting", "why_tests_cant": "two processes have to roll within the same few calls", "anchors": ["src/include/fn_file.h:FileHandler::rollback", "src/include/fn_out_file_device.h:OpenFileDevice"]}
{"id": "C135", "title": "File devices that share a path", "statement": "When several file devices of a channel write to the same path with limit_size and rollback set, no log file grows beyond limit_size, and no device writes to a file that has been removed.", "quantifier": "any number of devices, every sequence of records not larger than the limit, every limit and rollback setting, with and without stuff_up", "why_tests_cant": "every device counts only its own bytes, so the excess depends on how the records of the devices alternate", "anchors": ["src/include/fn_out_file_device.h:OpenFileDevice", "src/include/fn_out_file_device.h:EnterProcOutFileDevice", "src/include/fn_file.h:FileHandler::rollback"]}
