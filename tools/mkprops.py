#!/usr/bin/env python3
# Generates /verif/properties.jsonl (kept as a script so that edits stay reviewable).
import json
P=[]
def p(title,statement,quantifier,why,anchors):
    P.append(dict(id="C%02d"%(len(P)+1),title=title,statement=statement,quantifier=quantifier,why_tests_cant=why,anchors=anchors))

# ---------------- filtering
p("Admission decision is exactly the documented filter",
  "BlockInput lets a record through exactly when: the logger has memory attached and is RUNNING, the channel id exists, the channel is RUNNING, the record's priority is at least the channel priority, its category/identify lie in the channel's [begin, begin+count) windows (a count <= 0 means no window) and in the channel's bit masks (0 means no mask), and at least one enabled, non-input device of that channel passes the same tests with its own settings (a priority above FATAL is compared as FATAL there).",
  "every logger state, every number of channels and devices, every 64-bit configuration value, every record whose masked category/identify are in 0..63 and whose windows do not overflow a long long",
  "the decision is a conjunction over 12 configuration words per device times an unbounded record space; tests sample a handful of configurations",
  ["src/include/fn_channel.h:BlockInput"])
p("A record is dispatched to exactly the devices whose filter accepts it, once each, in device order",
  "Processing one record calls the output routine of device d exactly once if d is enabled, is not an input device and accepts the record's priority, category and identify, and not at all otherwise; devices are visited in increasing device id.",
  "every channel with any number of devices, every configuration value, every record with in-range masked fields",
  "the set of (device list, filter, record) combinations is unbounded",
  ["src/include/fn_channel.h:DispatchLog","src/include/fn_channel.h:EnterProcDevice"])
p("An admitted record reaches at least one device and a filtered record reaches none",
  "If the configuration is not changed in between, a record admitted by BlockInput is accepted by at least one device when it is dispatched, and a record rejected because of the devices' filters would be accepted by no device at dispatch (for device priorities within TRACE..FATAL).",
  "every configuration and every record",
  "requires agreement of two separately written copies of the same filter on all inputs",
  ["src/include/fn_channel.h:BlockInput","src/include/fn_channel.h:DispatchLog"])
p("Mask filters decide membership of the record's own category/identify",
  "With a non-zero mask configured, a record passes the mask test if and only if its category (identify) is between 0 and 63 and that bit of the mask is set; any other category or identify is rejected.",
  "every 64-bit mask, every int category, every long long identify",
  "tests use small in-range categories; the claim is about all 2^32 categories and 2^64 identifies",
  ["src/include/fn_channel.h:BlockInput","src/include/fn_channel.h:DispatchLog","src/include/fn_out_virtual_device.h:EnterProcOutVirtualDevice"])
p("The user hook runs exactly for records matching an enabled virtual device of their channel",
  "When a stream object is destroyed, the registered virtual-device hook is called at most once, on the creating thread and before the record is queued, and it is called exactly if the record's channel has an enabled virtual device whose priority, window and mask filters accept the record.",
  "every channel configuration (including channels without a virtual device), every record",
  "needs all configurations, including those where the channel never mentions a virtual device",
  ["src/include/fn_stream.h:LogStream::~LogStream","src/include/fn_out_virtual_device.h:EnterProcOutVirtualDevice","src/include/fn_parse.h:ParseChannel"])
p("Run-time configuration calls read back and touch nothing else",
  "After SetDeviceConfig(ch, dev, field, v) with valid ids, GetDeviceConfig of that triple returns v and every other device field, channel field and size is unchanged; calls with an id or field out of range change nothing and getters return 0; BatchSet* with an existing field change exactly the matching devices/channels. This holds for any sequence of calls.",
  "every sequence of Set/Get/BatchSet calls with arbitrary arguments on any started logger",
  "isolation must hold for all index pairs and all call sequences",
  ["src/include/fn_core.h:SetDeviceConfig","src/include/fn_core.h:GetDeviceConfig","src/include/fn_core.h:SetChannelConfig","src/include/fn_core.h:BatchSetDeviceConfig","src/include/fn_core.h:BatchSetChannelConfig","src/include/fn_core.h:GetChannelLog","src/include/fn_core.h:GetDeviceLog"])
# ---------------- formatting
p("Unsigned integers print as their exact decimal numeral",
  "Streaming an unsigned 64-bit integer (with a minimum width up to 30) writes its decimal numeral without superfluous leading zeros, left-padded with '0' to the width, returns the number of bytes written, and changes no byte outside them.",
  "all 2^64 values, all widths <= 30, all destinations with room",
  "2^64 inputs; digit-pair table and buffer index arithmetic must be right for each",
  ["src/include/fn_fmt.h:write_dec_unsafe","src/include/fn_stream.h:LogStream::write_ulonglong"])
p("Signed integers print as their exact decimal numeral",
  "Streaming a signed 64-bit integer writes '-' for negative values followed by the decimal numeral of the absolute value, padded to the width, for every value of long long.",
  "all 2^64 signed values, all widths <= 30",
  "the extreme value -2^63 and every width/sign combination matter",
  ["src/include/fn_fmt.h:write_dec_unsafe(long long)","src/include/fn_stream.h:LogStream::write_longlong"])
p("Hexadecimal and pointer output is the exact numeral",
  "write_hex_unsafe<WIDE> writes the upper-case hexadecimal numeral of its argument, zero-padded to WIDE, and nothing else; write_pointer writes 'null' for nullptr and '0x' plus the numeral otherwise.",
  "all 2^64 values including 0, all widths >= 0",
  "2^64 inputs with odd/even digit counts and paddings",
  ["src/include/fn_fmt.h:write_hex_unsafe","src/include/fn_fmt.h:write_pointer_unsafe"])
p("Binary output is the exact zero-padded numeral",
  "write_bin_unsafe<WIDE> writes the binary numeral of its argument left-padded with '0' to WIDE and returns the number of characters.",
  "all 2^64 values, all widths >= 0",
  "padding and zero need every width/value combination",
  ["src/include/fn_fmt.h:write_bin_unsafe"])
p("Timestamps print the calendar time of that instant, whatever was printed before",
  "The 23-byte '[YYYYMMDD hh:mm:ss.mmm]' text printed for a timestamp depends only on that timestamp (and its milliseconds, capped at 999) and shows its local date and time of day, independently of the per-thread date cache, i.e. of all earlier timestamps printed on the thread.",
  "every sequence of timestamps printed on a thread, every timestamp with a 4-digit year, every fixed-offset time zone",
  "correctness depends on the whole history of the thread-local cache",
  ["src/include/fn_fmt.h:write_date_unsafe"])
p("Floating point output fits its reserve and is the value truncated to at most four decimals",
  "For every normal double with 0.0001 <= |x| <= 2^60 the text written is the sign, the integer part, and (if non-zero) the first four decimals of the rounded product with trailing zeros beyond two decimals removed, at most 25 bytes long; the integer numeral and decimals read back to that truncated value.",
  "every normal IEEE-754 double in the range",
  "2^64 bit patterns and rounding behaviour at carry boundaries (0.99999...)",
  ["src/include/fn_fmt.h:write_double_unsafe"])
p("Streaming never writes outside the record buffer and appends exactly the rendered text",
  "For any sequence of << operations on a stream, no byte outside the record's content buffer is written, bytes already written are never changed, the length never exceeds LOG_SIZE, and the resulting text is the old text followed by each operand's rendering, where strings are cut at LOG_SIZE and a number/pointer/date is either appended whole or skipped when fewer than its reserve bytes are left.",
  "every sequence and nesting of streamed values (strings, numbers, pointers, pairs, containers, dates, alignments), every LOG_SIZE allowed by the static_asserts",
  "needs every operation sequence around the capacity boundary",
  ["src/include/fn_stream.h:LogStream","src/include/fn_data.h:LogData"])
p("Every queued record ends in a newline and a NUL inside the buffer",
  "After a record is pushed its text is the streamed text cut to LOG_SIZE-2 bytes followed by one newline, its length is at most LOG_SIZE-1, and the byte after it is NUL.",
  "every record length 0..LOG_SIZE",
  "boundary must hold at every length",
  ["src/include/fn_channel.h:PushChannel"])
p("The log prefix has the documented layout and fits",
  "A stream created with a prefix mask starts with exactly the selected fields in the order timestamp, priority, thread, name, description, [file:line], (function), then a space; prefix_len equals the length of that text; it never leaves the buffer when the (shortened) source path plus function name fit the space promised by the static_asserts.",
  "every prefix mask, every file/function name within the bound, every logger name/description, line, thread",
  "2^7 masks times unbounded names",
  ["src/include/fn_stream.h:LogStream::LogStream","src/include/fn_file.h:short_path","src/include/fn_fmt.h:write_log_priority_unsafe","src/include/fn_fmt.h:write_log_thread_unsafe"])
p("The source path is shortened to its last three components",
  "short_path returns an offset such that the remaining suffix contains at most two separators; it is 0 when the path has fewer than three separators, otherwise the suffix starts right after the third separator from the end. No byte outside the path is read.",
  "every byte string and length",
  "all strings",
  ["src/include/fn_file.h:short_path"])
p("Containers and pairs print name, size and at most five elements",
  "Streaming a container prints '<name>:(<size>)[' then the first five elements separated by ', ', then '..., ' if there are more, then ']'; a pair prints '<first:second>'; nested containers follow the same rule.",
  "every container of any length and nesting depth, while the buffer has room",
  "unbounded sizes and nesting",
  ["src/include/fn_stream.h:LogStream::write_container"])
p("printf-style logging is bounded and keeps the formatted text",
  "LOG_FORMAT appends the formatted text cut so that the length stays below LOG_SIZE, for every result of snprintf including errors and truncation.",
  "every snprintf return value and every prefix length",
  "needs all return values around the remaining space",
  ["src/include/fn_macro.h:LOG_FORMAT"])
# ---------------- ring buffer
p("No two threads ever own the same queue slot",
  "At every moment of every interleaving of logging threads and the channel's writer thread, at most one thread is filling a given slot, and the writer never reads a slot that a logging thread may still be filling.",
  "every number of threads, every interleaving of their atomic steps, every ring size",
  "schedules cannot be enumerated by tests; the violation window is a few instructions",
  ["src/include/fn_channel.h:HoldChannel","src/include/fn_channel.h:PushChannel","src/include/fn_channel.h:EnterProcChannel"])
p("Asynchronous channels deliver every record exactly once, intact, in hold order",
  "On an async channel the sequence of (text) records handed to each device is a prefix of the sequence of records in the order in which their slots were reserved; each record is delivered complete and exactly once.",
  "every number of threads, every interleaving, every ring size, unbounded run length",
  "exactly-once and integrity must hold on all schedules",
  ["src/include/fn_channel.h:HoldChannel","src/include/fn_channel.h:PushChannel","src/include/fn_channel.h:EnterProcChannel"])
p("The queue never overfills and never loses a slot",
  "The number of reserved-but-not-released slots never exceeds BUFFER_LEN-1, so a record not yet written is never overwritten; a full queue makes the caller wait rather than drop.",
  "every schedule",
  "capacity must hold in all interleavings",
  ["src/include/fn_channel.h:HoldChannel"])
p("Records of one thread come out in the order the thread wrote them",
  "If a thread finishes record A before starting record B on the same async channel, A is delivered before B.",
  "every schedule, every thread",
  "ordering over all interleavings",
  ["src/include/fn_channel.h:HoldChannel","src/include/fn_channel.h:EnterProcChannel"])
p("Nothing stays stuck: when no thread is mid-record every record is visible to the writer",
  "Whenever every logging thread is outside of a log statement, all reserved records are published, and letting the writer thread run delivers all of them and empties the queue.",
  "every schedule reaching a quiescent state",
  "a missed publication needs a particular race between two finishing threads",
  ["src/include/fn_channel.h:PushChannel","src/include/fn_channel.h:EnterProcChannel"])
p("Stopping an async channel delivers everything already published",
  "When StopLogger is called while no log statement is in progress, the writer thread delivers every record before it terminates; the queue is empty when StopLogger returns.",
  "every schedule and queue content at stop time",
  "depends on all stop points",
  ["src/include/fn_core.h:StopChannels","src/include/fn_core.h:CleanChannels","src/include/fn_channel.h:EnterProcChannel"])
p("A record whose log statement completed before stop is delivered even if another thread is mid-record",
  "A record for which PushLog returned 0 before StopLogger was called is written to the devices.",
  "every schedule of loggers and stopper",
  "needs the schedule where another thread's slot precedes the finished one",
  ["src/include/fn_channel.h:PushChannel","src/include/fn_core.h:StopChannels"])
p("Stop and restart are safe while log statements are in progress",
  "Stopping and restarting a logger while other threads are inside log statements never makes a device receive an incomplete record.",
  "every schedule of stop/start against loggers",
  "the README promises start/stop from any thread; the failing window is a few instructions",
  ["src/include/fn_core.h:CleanChannels","src/include/fn_core.h:StopChannels","src/include/fn_channel.h:PushChannel"])
p("Synchronous channels deliver every record exactly once",
  "On a sync channel, where each logging thread also drains the queue, every record is dispatched by exactly one thread, complete, and its slot is not reused before its dispatch has finished.",
  "every number of threads and every interleaving",
  "multi-consumer races",
  ["src/include/fn_channel.h:EnterProcChannel","src/include/fn_channel.h:PushChannel"])
p("A synchronous log statement has been written when it returns",
  "On a sync channel, when the log statement returns its record has been handed to the devices, and records reach a device in hold order.",
  "single-threaded use: every history; multi-threaded use: every interleaving",
  "ordering in all schedules",
  ["src/include/fn_channel.h:PushChannel","src/include/fn_channel.h:EnterProcChannel"])
p("Channel counters equal what happened",
  "CHANNEL_LOG_HOLD, CHANNEL_LOG_PUSH and CHANNEL_LOG_PROCESSED equal the number of reserved, published and delivered records; CHANNEL_LOG_PROCESSED_BYTES equals the number of bytes delivered (async channel).",
  "every schedule",
  "counter/effect correspondence over all interleavings",
  ["src/include/fn_channel.h:EnterProcChannel","src/include/fn_channel.h:HoldChannel","src/include/fn_channel.h:PushChannel"])
p("Transmitting a record copies it faithfully to another channel",
  "TransmitChannel pushes to the target channel a record with the same text, priority, time, thread, source location and prefix length, with the given category and identify, subject to the target channel's filter; transmitting to the record's own channel does nothing.",
  "every record of one of the seven priorities, every target channel and filter",
  "all field values",
  ["src/include/fn_channel.h:TransmitChannel"])
p("Any priority value is accounted within its own statistics",
  "Pushing and writing a record of any admitted priority changes only the priority/line/byte counters it belongs to.",
  "every int priority that passes the filter",
  "needs priorities beyond the enum, which the public API accepts",
  ["src/include/fn_channel.h:PushChannel","src/include/fn_out_file_device.h:EnterProcOutFileDevice","src/include/fn_fmt.h:write_log_priority_unsafe"])
# ---------------- crash recovery
p("Crash recovery keeps every reserved record and flags the unfinished ones",
  "When a logger attaches to the shared memory of a crashed process, every record published but not yet released is kept unchanged and in order; every reserved but unpublished record is published as FATAL with its text cut to fit plus '!!!core recover!!!' and a newline, within the buffer; afterwards all indices agree and processing restarts at the oldest unreleased record.",
  "every crash point, i.e. every reachable queue state, every slot content",
  "a crash can occur between any two instructions",
  ["src/include/fn_load.h:LoadSharedMemory"])
p("No record is lost across a crash",
  "Every record reserved before the crash and not yet fully delivered is delivered (at least once) after recovery.",
  "every crash point of every execution",
  "all crash points in all schedules",
  ["src/include/fn_load.h:LoadSharedMemory","src/include/fn_channel.h:EnterProcChannel"])
p("Attaching to foreign or corrupt shared memory is refused",
  "LoadSharedMemory returns an error and leaves the logger unattached if the segment's recorded size or id differs or a queue index is out of range; it always terminates.",
  "every content of the segment header and indices",
  "all corrupt contents",
  ["src/include/fn_load.h:LoadSharedMemory"])
# ---------------- file device
p("Rolling shifts the backup chain by one and loses only the oldest",
  "After rolling path with limit n: path no longer exists, the contiguous chain of backups path, path.1, path.2, ... is shifted up by one, a backup that would get a number above n is deleted, and no other file changes.",
  "every file system content, every path ending in .log, every n >= 1",
  "all file-system contents, including gaps in the chain",
  ["src/include/fn_file.h:FileHandler::rollback"])
p("The number of backups is bounded by the rollback setting",
  "If at most n backups path.1..path.n of a log exist before rolling with limit n, at most n exist afterwards, for any number of rolls.",
  "any number of rolls from any file system",
  "unbounded sequences",
  ["src/include/fn_file.h:FileHandler::rollback","src/include/fn_out_file_device.h:OpenFileDevice"])
p("A size-limited log file does not exceed its limit",
  "With limit_size and rollback set and stuff_up off, after any sequence of writes the current file and every backup created is at most limit bytes unless it consists of a single oversized record.",
  "every sequence of record lengths and timestamps",
  "needs all sequences around the limit",
  ["src/include/fn_out_file_device.h:OpenFileDevice","src/include/fn_out_file_device.h:EnterProcOutFileDevice"])
p("Daily/hourly rolling puts a record in the file of its own day/hour",
  "With rolldaily (rollhourly) set, after each successful write the open file was created for the day (hour) that contains the record's timestamp.",
  "every sequence of timestamps, including going backwards, every fixed-offset time zone",
  "all timestamp sequences",
  ["src/include/fn_out_file_device.h:OpenFileDevice"])
p("File device writes append exactly the records' bytes and count them",
  "Every record accepted while the file is open is appended unmodified and in order; total line/byte counters and the current-size field equal what was written; while the file cannot be opened records are dropped and a new attempt is made only after 5 seconds of record time.",
  "every sequence of records and of open successes/failures",
  "unbounded histories with failures",
  ["src/include/fn_out_file_device.h:EnterProcOutFileDevice","src/include/fn_out_file_device.h:OpenFileDevice"])
p("File name templates expand every documented escape and nothing else",
  "For a template built from text without '$' and '%' and the escapes $PNAME $PID $YEAR $MON $DAY $HOUR $MIN $SEC %F, the file name is the text with every escape replaced by its value, followed by .log; the default template is used when it is empty.",
  "every template of any length, every time, every process name without '$' and '%'",
  "all templates",
  ["src/include/fn_out_file_device.h:FmtName","src/include/fn_out_file_device.h:PreFmtName","src/include/fn_out_file_device.h:MakeFileName"])
p("Expanding a file name terminates",
  "MakeFileName terminates for every template and every process name.",
  "every template and process name",
  "non-termination cannot be observed by a finite test set",
  ["src/include/fn_out_file_device.h:FmtName"])
# ---------------- configuration
p("Parsing a configuration terminates",
  "ParseLogger returns for every text.",
  "every byte string",
  "non-termination; all inputs",
  ["src/include/fn_parse.h:ParseLogger","src/include/fn_parse.h:Lex","src/include/fn_parse.h:PredefinedInplace"])
p("The lexer never reads outside the text",
  "While parsing any text, no byte before the text or after its terminating NUL is read, and all key and value ranges lie inside it.",
  "every byte string",
  "memory safety over all inputs",
  ["src/include/fn_parse.h:Lex","src/include/fn_parse.h:ParseReserve"])
p("A configuration accepted by the parser is well formed",
  "If ParseLogger succeeds, channel ids are 0..n-1 with n at most the maximum, device ids of each channel are 0..m-1 with m at most the maximum, priorities are within TRACE..FATAL, and file/path strings are NUL-terminated inside their arrays.",
  "every byte string accepted",
  "all accepted inputs",
  ["src/include/fn_parse.h:ParseLogger","src/include/fn_parse.h:ParseChannel","src/include/fn_parse.h:ParseDevice"])
p("Parsing a written-out configuration gives back that configuration",
  "For every configuration with channels, devices and their documented options written out as 'key: value' lines with consistent indentation, ParseLogger succeeds and yields exactly those settings.",
  "every number of channels/devices within the maxima, every option value that fits its field (the documented values that are not accepted are C75 and C76)",
  "round trip over all configurations",
  ["src/include/fn_parse.h:ParseLogger","src/include/fn_parse.h:Lex"])
p("Bit lists set exactly the listed bits",
  "A wlist/blist value written as comma-separated numbers and ranges a-b (either order) with entries 0..63 yields the mask with exactly the listed bits.",
  "every list of items of any length, any blanks around items",
  "all lists",
  ["src/include/fn_parse.h:ParseBitArray"])
p("A black list rejects exactly its members",
  "With category_blist (identify_blist) configured, a category 0..63 is rejected by the mask test exactly when it is listed.",
  "every list of entries in 0..63",
  "all 2^64 lists including the full list",
  ["src/include/fn_parse.h:ParseDevice","src/include/fn_parse.h:ParseBitArray","src/include/fn_channel.h:BlockInput"])
p("Documented keys are recognised as themselves",
  "Every documented configuration key is recognised as its own option, and classifying a key never reads beyond the key.",
  "every key string",
  "all strings for the memory-safety part",
  ["src/include/fn_parse.h:ParseReserve"])
p("Macro and variable substitution is in place and bounded",
  "Substituting a define/var changes only later occurrences of the name as a whole word, keeps the text length, leaves everything before the definition unchanged, and rejects replacements longer than the name.",
  "every text, name and value",
  "all texts",
  ["src/include/fn_parse.h:PredefinedInplace","src/include/fn_parse.h:PredefinedMacro","src/include/fn_parse.h:PredefinedVar"])
p("The parse result depends only on the text",
  "Parsing the same text twice gives the same settings; an absent shm_key means private memory.",
  "every text, every previous content of the parser's memory",
  "indeterminate memory is invisible to most tests",
  ["src/include/fn_parse.h:ParseLogger","src/include/fn_load.h:InitFromYMAL"])
p("Hot update applies exactly the new file's settings of existing and new devices",
  "A successful hot update of a channel replaces all its channel settings and the settings of every device that the new file defines, appends devices that are new, keeps the others, keeps statistics and device types, and never exceeds the device maximum; a file that fails to parse changes no setting.",
  "every pair of old and new configuration",
  "all pairs",
  ["src/include/fn_load.h:HotUpdateLogger"])
p("A hot update reaches every channel",
  "After the configuration file changes, once every channel has run its periodic check all channels use the new file's settings.",
  "every new configuration, every order of channel checks",
  "depends on cross-channel order",
  ["src/include/fn_load.h:HotUpdateLogger"])
p("Starting and stopping follow the life cycle",
  "Start succeeds only from the uninitialised state and Stop only from the running state, other calls return an error and change nothing; after a successful Stop the logger can be started again, and after a failed start it is uninitialised.",
  "every sequence of start/stop calls and every configuration outcome",
  "all call sequences",
  ["src/include/fn_core.h:StartLogger","src/include/fn_core.h:StopLogger","src/include/fn_core.h:ParseAndStartLogger","src/include/fn_core.h:LoadAndStartLogger"])
p("StopLogger always returns",
  "StopLogger terminates under every schedule once logging threads are idle.",
  "every schedule of stopper and writer thread",
  "a deadlock needs one particular schedule",
  ["src/include/fn_core.h:StopLogger","src/include/fn_core.h:StopChannels","src/include/fn_load.h:HotUpdateLogger"])
p("Statistics survive a restart",
  "Stopping and starting a logger with a new configuration keeps all channel and device counters and replaces all settings.",
  "every old state and new configuration",
  "all states",
  ["src/include/fn_load.h:InitFromYMAL"])
p("A moved-from stream never pushes",
  "However stream objects are moved around, each reserved slot is pushed exactly once, when the last owner is destroyed.",
  "every sequence of moves and destructions",
  "all sequences",
  ["src/include/fn_stream.h:LogStream(LogStream&&)","src/include/fn_stream.h:LogStream::~LogStream"])
# ---------------- other devices
p("The screen shows exactly the record",
  "For a record without NUL bytes the screen device prints exactly its text, wrapped in the priority's colour codes for INFO and above.",
  "every record and each of the seven priorities",
  "all contents",
  ["src/include/fn_out_screen_device.h:EnterProcOutScreenDevice"])
p("A forwarded UDP datagram is output as received",
  "A datagram received by a UDP input device is written to that device's output with exactly the received bytes.",
  "every sequence of datagrams",
  "depends on the previous content of the shared buffer",
  ["src/include/fn_channel.h:EnterProcChannel","src/include/fn_out_screen_device.h:EnterProcOutScreenDevice"])
p("UDP addresses are parsed to the given address and port",
  "udp_addr 'a.b.c.d:port' yields that IPv4 address and port for every address and port; shorter forms and octal numbers yield what inet_addr documents, and any other text of digits and dots 255.255.255.255.",
  "all addresses and ports 1..65535",
  "2^48 inputs",
  ["src/include/fn_parse.h:ParseAddres","src/include/fn_parse.h:ParseAddresIP"])
p("The binary dump shows every byte",
  "write_binary prints, for every 32-byte row, each byte as a character (or '.') and as two hex digits, for any byte values, and stays inside the buffer.",
  "every byte string",
  "all contents, including zero bytes",
  ["src/include/fn_stream.h:LogStream::write_binary"])
p("Configuration calls are safe with any argument and before start",
  "SetChannelConfig, SetDeviceConfig, GetDeviceConfig, GetChannelLog, GetDeviceLog and the BatchSet calls have no undefined behaviour for any enum value (including the MAX_ID sentinels) and on a logger that was never started.",
  "every argument, every logger state",
  "needs the sentinel and never-started cases of every call",
  ["src/include/fn_core.h:BatchSetChannelConfig","src/include/fn_core.h:BatchSetDeviceConfig","src/include/fn_core.h:GetDeviceConfig"])

p("Floating point output keeps the sign",
  "The text written for a negative double starts with '-', and the text for a positive one does not.",
  "every normal double", "needs every binade; the failing interval is narrow",
  ["src/include/fn_fmt.h:write_double_unsafe"])
p("Percentages show the ratio",
  "Streaming a LogPercent of a ratio prints one hundred times the ratio as a decimal number followed by '%'.",
  "every float ratio", "needs negative and tiny ratios as well as every binade",
  ["src/include/fn_stream.h:LogStream::operator<<(LogPercent)"])

p("The pushed-bytes counter equals the bytes pushed",
  "When no log statement is in progress, CHANNEL_LOG_PRIORITY (the byte counters indexed by priority, summed) equals the total length of the records pushed to the channel.",
  "every schedule of logging threads and writer", "needs a thread to be overtaken by a full lap of the ring between two adjacent statements",
  ["src/include/fn_channel.h:PushChannel"])
p("A stopped channel accepts no new records until it is restarted",
  "Once StopLogger has stopped a channel, a log statement started afterwards reserves no slot and delivers nothing until the logger is started again.",
  "every schedule of stop against logging threads", "the failing schedule needs a thread between two adjacent loads of the channel state",
  ["src/include/fn_core.h:StopChannels","src/include/fn_channel.h:EnterProcChannel"])

p("Rolling keeps the newest records in order",
  "For a file device whose name does not depend on the time: after any run, the backups from the oldest to the newest followed by the current file are the original content followed by the records counted as written, in order and unmodified, except that a beginning of it may be missing, and then only if all backups allowed are present.",
  "every sequence of records, times and open failures, every setting of limit, rollback, daily, hourly and stuff_up",
  "unbounded histories of rolls and failures",
  ["src/include/fn_out_file_device.h:OpenFileDevice","src/include/fn_file.h:FileHandler::rollback"])
p("Daily rolling follows the calendar in every time zone",
  "With rolldaily set, a record is written to the file of the local calendar day of its timestamp, also on a day on which the offset of the time zone changes.",
  "every time zone and timestamp", "needs a timestamp within an hour of midnight after a change of offset",
  ["src/include/fn_out_file_device.h:OpenFileDevice"])
p("The byte counters of a file device match the file also when writing fails",
  "TOTAL_WRITE_BYTE grows by the number of bytes written to the file, also when fwrite takes only part of a record.",
  "every result of fwrite", "needs a full disk at a chosen record",
  ["src/include/fn_out_file_device.h:EnterProcOutFileDevice"])

p("Numbers in a configuration never overflow",
  "Parsing a configuration performs no arithmetic that overflows and no shift by 64 or more, whatever numbers it contains.",
  "every text", "needs numbers beyond the range of the options, which tests do not write",
  ["src/include/fn_parse.h:ParseBitArray","src/include/fn_parse.h:ParseDevice"])
p("An accepted configuration has at least one channel",
  "If ParseLogger succeeds, the configuration has at least one channel.",
  "every text accepted", "only some of the ways to reach the end of the text are checked",
  ["src/include/fn_parse.h:ParseLogger"])
p("A misspelt key is reported",
  "A line whose key is not one of the documented keys makes ParseLogger fail.",
  "every key string", "unbounded set of misspellings",
  ["src/include/fn_parse.h:ParseReserve"])

p("Spaces around the = of a var line do not matter",
  "A var line gives its name the same value whether or not there are spaces around the equals sign.",
  "every name, value and spacing", "the tests only use spaced values that happen to fit",
  ["src/include/fn_parse.h:PredefinedVar", "dist/include/fn-log/default_log.yaml"])
p("define accepts the documented list of key:val pairs",
  "A define line written as documented, a list of key:val pairs, replaces each key in the following text by its value.",
  "every list of pairs", "the tests use the space separated form only",
  ["README.md:define", "src/include/fn_parse.h:PredefinedMacro"])
p("The shipped sample configurations are accepted",
  "With the default build settings the parser accepts bin/log.yaml and dist/include/fn-log/default_log.yaml.",
  "both files", "no test loads them",
  ["bin/log.yaml", "dist/include/fn-log/default_log.yaml", "src/include/fn_parse.h:ParseLogger"])
p("The documented output type null is accepted",
  "A device whose out_type is null, the documented default, is accepted.",
  "every configuration with out_type null", "the tests leave the option out",
  ["README.md:out_type", "src/include/fn_parse.h:ParseOutType"])
p("A 64-bit mask is taken as written",
  "category_wmask and identify_wmask, documented as a bitmap by u64, give the mask with exactly the bits of the written number.",
  "every number below 2^64", "the tests use small masks",
  ["README.md:category_wmask", "src/include/fn_parse.h:ParseDevice", "src/include/fn_parse.h:ParseChannel"])
p("A channel that the new file lacks keeps its settings",
  "When a hot update reads a file that does not define the channel, the channel keeps all its settings.",
  "every old configuration and new file", "the tests never shrink a configuration while running",
  ["src/include/fn_load.h:HotUpdateLogger"])
p("The hook follows a virtual device added by a hot update",
  "After a hot update that adds a virtual device to a channel without one, the user hook is filtered by that device.",
  "every old configuration and new file", "the tests do not add devices while running",
  ["src/include/fn_load.h:HotUpdateLogger", "src/include/fn_stream.h:~LogStream"])
p("A logger can be destroyed after any sequence of calls",
  "Whatever sequence of load, start, stop and hot update calls was made, destroying the logger ends, releases its memory and has no undefined behaviour.",
  "every sequence of calls and every configuration", "all call sequences",
  ["src/include/fn_core.h:~Logger", "src/include/fn_load.h:UnloadSharedMemory"])
p("A load takes exactly the file's settings, a refused file changes nothing",
  "After a successful load the channels and devices are those of the file, and name, description, hot update switch and shared memory key are the file's, a name or description that the file lacks staying as it was; a file that fails to parse leaves the logger unchanged.",
  "every earlier history and every file", "all pairs of histories and files",
  ["src/include/fn_load.h:InitFromYMAL", "src/include/fn_load.h:InitFromYMALFile", "src/include/fn_core.h:LoadAndStartLogger"])
p("A statement on a synchronous channel reaches exactly the devices that accept it",
  "A log statement that the filters admit is rendered, cut to the record, ended by a newline and handed once to every device of the channel that accepts it, in the order of the devices, before the statement ends; the counters grow by exactly what was written, the queue is empty again, and no other channel changes.",
  "every logger state at rest, statement, operands and outcome of opening and sending", "all combinations of devices, filters and texts",
  ["src/include/fn_stream.h:~LogStream", "src/include/fn_channel.h:HoldChannel", "src/include/fn_channel.h:PushChannel", "src/include/fn_channel.h:EnterProcChannel"])
p("A file holds exactly the lines of the accepted statements, in order",
  "After any sequence of statements on synchronous channels the bytes handed to a file device are the lines of exactly those statements that its channel and the device accept, in the order of the statements.",
  "every sequence of statements, every number of channels and devices", "all sequences",
  ["src/include/fn_channel.h:EnterProcChannel", "src/include/fn_out_file_device.h:EnterProcOutFileDevice"])
p("A statement on an asynchronous channel waits in order until the writer's round",
  "A log statement on an asynchronous channel puts its line behind the waiting lines and writes nothing; a round of the writer thread hands all waiting lines, in order, to the devices that accept them and leaves the queue empty.",
  "every queue content, statement and device list", "all queue positions and contents",
  ["src/include/fn_channel.h:PushChannel", "src/include/fn_channel.h:EnterProcChannel", "src/include/fn_channel.h:DispatchLog"])
p("A rejected statement has no effect",
  "A log statement that the filters do not admit leaves queues, counters, devices and files as they were and writes nothing.",
  "every logger state and statement", "all filters and statements",
  ["src/include/fn_stream.h:LogStream", "src/include/fn_channel.h:BlockInput", "src/include/fn_channel.h:HoldChannel"])
p("Received datagrams never leave the buffer",
  "A round of the writer thread with any datagrams waiting on the input sockets accesses no memory outside the buffer, writes the waiting lines in order, and hands each datagram read to its own device only.",
  "every sequence of datagrams of any length and content, every outcome of the sockets", "all datagram lengths around the buffer size and all earlier buffer contents",
  ["src/include/fn_channel.h:EnterProcChannel", "src/include/fn_file.h:UDPHandler::read"])
p("The statistics count each statement exactly once",
  "A statement of one of the seven priorities that a synchronous channel admits adds one to the held, pushed and processed lines and its length to the bytes of its priority and to the processed bytes of the channel, and one line and its length to each device that took it; all other sums stay.",
  "every statement of the seven priorities and every channel at rest", "all priorities, texts and devices",
  ["src/include/fn_channel.h:PushChannel", "src/include/fn_channel.h:EnterProcChannel", "src/include/fn_out_file_device.h:EnterProcOutFileDevice"])
p("The user hook sees each accepted record once, before it is written",
  "A statement on a channel whose virtual device accepts it calls the user hook exactly once, with the statement's arguments and its text ended by NUL, before the line reaches any device of the channel; every channel the hook transmits to gets the line under that channel's filters, the virtual device counts one line and its bytes, and the own channel then gets the line as without hook. If the virtual device does not accept it, the hook is not called and the statement does what it does without hook.",
  "every hook that transmits to any list of channels at rest, every statement and logger state at rest", "all hooks, filters and texts",
  ["src/include/fn_stream.h:~LogStream", "src/include/fn_out_virtual_device.h:EnterProcOutVirtualDevice", "src/include/fn_channel.h:TransmitChannel"])
p("PushChannel publishes exactly the finished records at the front of the queue",
  "PushChannel ends the line of its slot with a newline, changes no other slot, and advances the write index over exactly the longest run of finished slots at the front of the queue; while the oldest slot is still being filled it publishes nothing, and the push counter grows by the number of published slots.",
  "every queue state, slot and text, any number of slots being filled", "all interleavings of slots being filled and finished",
  ["src/include/fn_channel.h:PushChannel"])
p("PushChannel refuses a bad channel, a bad slot and a stopped channel",
  "PushChannel returns E_INVALID_CHANNEL_SIZE for a channel number outside the logger, E_OUT_RINGBUFFER for a slot number outside the queue and E_LOGGER_NOT_RUNNING for a channel that is not running, and changes nothing.",
  "every logger state, channel number and slot number", "all numbers",
  ["src/include/fn_channel.h:PushChannel"])
p("The logger started without a configuration file has the documented channels and routes",
  "FastStartDefaultLogger on a logger that is not in use returns 0 and leaves an asynchronous channel 0 that writes every statement to $PNAME, errors and above also to $PNAME_error and info and above also to the screen, and a synchronous channel 1 that writes every statement to $PNAME_sync and info and above also to $PNAME_sync_info and the screen; the files are limited to 100 MB with 4 backups.",
  "every logger that is not in use, loaded before or not; every priority, category and identity", "all earlier loads and all priorities, categories and identities",
  ["src/include/fn_macro.h:FastStartDefaultLogger", "src/include/fn_core.h:ParseAndStartLogger", "src/include/fn_parse.h:ParseLogger", "src/include/fn_channel.h:BlockInput", "src/include/fn_channel.h:DispatchLog"])
p("FastStartDebugLogger lowers the priorities and keeps the error file",
  "FastStartDebugLogger does the same and then the screens show debug and above, every file takes all statements, and the error file of channel 0 still takes errors and above only.",
  "every logger that is not in use; every priority, category and identity", "all earlier loads and all priorities, categories and identities",
  ["src/include/fn_macro.h:FastStartDebugLogger", "src/include/fn_core.h:BatchSetDeviceConfig", "src/include/fn_core.h:SetDeviceConfig"])
p("A loaded configuration routes statements as it is written",
  "When LoadAndStartLogger loads a file with any documented configuration, it returns 0, and from then on a statement on a channel is admitted exactly if the options written for the channel accept it and those of one of its enabled devices do, and it goes to exactly the devices whose written options accept it, in their order.",
  "every documented configuration text within the maxima, every statement within the scope of its masks and windows", "all configurations and statements",
  ["src/include/fn_core.h:LoadAndStartLogger", "src/include/fn_load.h:InitFromYMALFile", "src/include/fn_parse.h:ParseLogger", "src/include/fn_channel.h:BlockInput", "src/include/fn_channel.h:DispatchLog"])
p("A hot update routes statements by the new file",
  "After a hot update of a running channel with any documented configuration that keeps the channel's devices and their inputs and may add devices, statements on the channel are admitted and routed by the options written in the new file, and statements on the other channels as before.",
  "every reachable running logger, every documented new file, every statement within scope", "all pairs of configurations and statements",
  ["src/include/fn_load.h:HotUpdateLogger", "src/include/fn_parse.h:ParseLogger", "src/include/fn_channel.h:BlockInput", "src/include/fn_channel.h:DispatchLog"])
p("A configuration file is read whole",
  "FileHandler::read_content returns exactly the bytes of the file, in particular when its size is a multiple of the buffer size, and ends.",
  "every file content and every buffer size", "all sizes around every multiple of the buffer size, on platforms with other BUFSIZ",
  ["src/include/fn_file.h:FileHandler::read_content"])
p("A configuration whose file cannot be read to the end is not loaded",
  "When reading a configuration file fails behind some byte, the part before it is not taken for the whole configuration.",
  "every file content and place of the error", "injecting read errors at every place",
  ["src/include/fn_file.h:FileHandler::read_content", "src/include/fn_load.h:InitFromYMALFile"])
p("The logger is called like the program",
  "The default name of a logger is the last component of the path the program was started with, cut to 249 bytes, whatever the arguments are.",
  "every path and every argument list", "all path lengths and contents",
  ["src/include/fn_file.h:FileHandler::process_name", "src/include/fn_file.h:FileHandler::read_line", "src/include/fn_core.h:InitLogger"])
p("create_dir reports success only when every directory on the way exists",
  "When FileHandler::create_dir returns true, every non-empty part of the path before a slash is a directory; it makes only such parts and only those that were not directories before, and returns false only if mkdir of a missing part failed.",
  "every path and every file system in which directories stay", "all paths with any number and place of slashes, all earlier directories",
  ["src/include/fn_file.h:FileHandler::create_dir"])
p("create_dir succeeds whenever the directories can be made",
  "FileHandler::create_dir returns true for every path whose missing directories can be made one in the other, also when another process makes some of them at the same time.",
  "every path, file system and interference", "races with another process between opendir and mkdir",
  ["src/include/fn_file.h:FileHandler::create_dir"])
p("UDP outputs ask for a socket at most every three seconds and count every line they lose",
  "For any sequence of lines at times that do not go back, a UDP output asks for a socket at most every three seconds and never while it has one; every line is handed to sendto or counted as lost, a line that sendto refuses is counted as lost too, and from the first line three seconds after a failure on every line is handed over if a socket can be had.",
  "every sequence of lines, times and results of the system calls", "all sequences of failures over time",
  ["src/include/fn_file.h:UDPHandler::open", "src/include/fn_out_udp_device.h:EnterProcOutUDPDevice"])
p("A UDP input listens on the configured address or not at all",
  "In every round of the writer thread an open input socket is bound to the configured address, a disabled input has no socket, and a socket that could not be bound is closed and tried again after three seconds.",
  "every sequence of rounds, settings and results of the system calls", "all sequences of failures, switches and address changes over time",
  ["src/include/fn_channel.h:EnterProcChannel", "src/include/fn_file.h:UDPHandler::open", "src/include/fn_file.h:UDPHandler::bind"])
p("The bulk calls set exactly the setting they name",
  "EnableAll..., SetAll...Priority, SetAll...Category, SetAllFileLimitSize and SetAllFileRollbackCount set the named setting of every used device of the named kind (of every channel) to the argument and change nothing else in the logger.",
  "every started logger and every argument", "all loggers, device tables and argument values",
  ["src/include/fn_log.h:EnableAllFileDevice", "src/include/fn_log.h:SetAllFilePriority", "src/include/fn_log.h:SetAllScreenCategory", "src/include/fn_core.h:BatchSetDeviceConfig"])
p("After a bulk call records go to the expected devices",
  "After a bulk call a record goes to the devices of other kinds as before, and to a device of the named kind exactly if the new setting and its other settings let it; the order of the devices stays.",
  "every started logger, call and record", "all combinations of settings, calls and records",
  ["src/include/fn_log.h:EnableAllScreenDevice", "src/include/fn_log.h:SetAllScreenPriority", "src/include/fn_channel.h:DispatchLog"])
p("After a bulk call statements are admitted as expected",
  "After a bulk call a statement is admitted exactly if logger and channel run, the channel settings with the new value let it in and at least one device is left that takes it.",
  "every started logger, call and statement of a valid priority", "all combinations of settings, calls and statements",
  ["src/include/fn_log.h:SetAllChannelPriority", "src/include/fn_log.h:SetAllChannelCategory", "src/include/fn_channel.h:BlockInput"])
p("The log files of different devices do not disturb each other",
  "When no two file devices use the same file name, then after any interleaving of records every device has the files, backups, open file and counters it would have if it had been the only one, and no other file has changed.",
  "every set of file devices, every interleaving of records, every file system and every failure of opening or writing", "all interleavings of rollbacks and writes of many devices",
  ["src/include/fn_out_file_device.h:EnterProcOutFileDevice", "src/include/fn_out_file_device.h:OpenFileDevice", "src/include/fn_file.h:FileHandler::rollback"])
p("What is logged is what the files hold",
  "For any sequence of log statements on synchronous channels, each file device's current file and backups together hold what they held before followed by exactly the lines of the statements that channel and device accept, in the order of the statements; only a beginning of that text may have gone, with the oldest backups, and only when the configured number of backups is used up.",
  "every logger with synchronous channels, every statement sequence, every device settings and earlier files", "all statement sequences against all settings of filters, size limits and rolling",
  ["src/include/fn_log.h:LOG_STREAM", "src/include/fn_channel.h:DispatchLog", "src/include/fn_out_file_device.h:EnterProcOutFileDevice", "src/include/fn_file.h:FileHandler::rollback"])
p("Nothing is lost, doubled or reordered between statements and writer rounds",
  "On a logger with synchronous and asynchronous channels, for any order of log statements and rounds of the writer threads: what a file device has been given plus what still waits for it in the queue is exactly what it was before followed by the lines of the statements that channel and device accept, in the order of the statements. After a last round of the writer, or on a synchronous channel, all of it has been given to the file.",
  "every logger, every sequence of statements and rounds", "all interleavings of statements and rounds over any number of channels",
  ["src/include/fn_log.h:LOG_STREAM", "src/include/fn_core.h:PushLog", "src/include/fn_channel.h:EnterProcChannel"])
p("A log call waits exactly when the queue is full",
  "A sequence of statements and writer rounds always runs to its end as long as no statement meets an asynchronous queue with all slots but one in use; a statement that meets one waits for the writer.",
  "every logger, every sequence of statements and rounds", "all fill levels and interleavings",
  ["src/include/fn_channel.h:HoldChannel", "src/include/fn_channel.h:PushChannel"])
p("Concurrent logging equals logging one after the other",
  "Whatever threads log at the same time on one channel: once no call is in progress and the writer thread has had time, the bytes in the file are exactly those that the same log statements produce when made one after the other, in some order in which every call that returned before another began comes first and each thread's calls keep their order.",
  "every schedule of any number of threads, every statement", "all interleavings of atomic steps of unboundedly many threads",
  ["src/include/fn_channel.h:HoldChannel", "src/include/fn_channel.h:PushChannel", "src/include/fn_channel.h:EnterProcChannel", "src/include/fn_log.h:LOG_STREAM"])
p("The threads do not race for a record",
  "Whatever threads log, dispatch and stop at the same time, two accesses of different threads to the same record or to the same shared variable of a channel, one of them a write, are ordered by the acquire and release operations of the queue: the reader of a record sees all of it, and a slot is refilled only after it has been read.",
  "every schedule of any number of threads, every pair of accesses", "all interleavings; a data race shows in a test only by chance, if at all",
  ["src/include/fn_channel.h:HoldChannel", "src/include/fn_channel.h:PushChannel", "src/include/fn_channel.h:EnterProcChannel", "src/include/fn_core.h:StopChannels"])
p("A rejected configuration is reported with its line",
  "When a configuration text is rejected, the report that InitFromYMAL prints names the error with its code and a message, gives the number of the line that caused it (lines counted from one, ended by CR, LF or either pair), and quotes the text from the start of that line: all of it, or 380 bytes and then up to the next line feed. Definitions replaced in the text do not move lines.",
  "every text the parser rejects", "all texts, all kinds of error at every position, all line endings",
  ["src/include/fn_load.h:InitFromYMAL", "src/include/fn_parse.h:DebugErrno", "src/include/fn_parse.h:Lex", "src/include/fn_parse.h:ParseLogger"])
p("A logger can be restarted any number of times without losing a record",
  "When a logger is stopped and started again, any number of times, each time while no thread is inside a log statement: the channel is empty and like new after every restart, every record accepted in any session is delivered exactly once, an asynchronous channel delivers all of them in the order in which they were accepted, each thread's in its own order, no two threads ever use the same slot, and after a crash in a later session the records not yet delivered are recovered as in the first.",
  "every number of sessions, every schedule within and between them", "unboundedly many sessions and interleavings; a test restarts a logger a few times",
  ["src/include/fn_core.h:StopLogger", "src/include/fn_core.h:StartLogger", "src/include/fn_core.h:CleanChannels", "src/include/fn_channel.h:HoldChannel", "src/include/fn_channel.h:EnterProcChannel"])
p("Shared memory is kept over crashes and given up at the end",
  "For any sequence of processes that start, load the shared memory of their key, log, die or destroy their logger: the first process with a key gets a new segment with empty queues; one that comes after a crash gets the memory left behind; a logger's memory exists as long as it uses it, whatever other processes do; a process that destroys its logger gives the key free and the segment goes with its last user; processes with different keys do not touch each other's segments; a call that the system refuses changes nothing and can be repeated.",
  "every number of processes and keys, every order of their calls, every choice of system failures", "unboundedly many processes, crashes and failures of shmget and shmat that a test cannot provoke",
  ["src/include/fn_load.h:LoadSharedMemory", "src/include/fn_load.h:UnloadSharedMemory", "src/include/fn_load.h:ResetSHMLogger", "src/include/fn_core.h:Logger::~Logger"])
p("A very large or very small number is shown with all its digits",
  "A normal number of at most 0.0000001 or of more than 2^60 is written in the form d.ddde+XX with the sixteen digits nearest to it, ties to even, no trailing zeros, and the exponent that belongs to them; one between 0.0000001 and 0.0001 with eight decimals, correctly rounded. There is exactly one such text. Read back it differs from the number by at most half a unit in the last of these places; every other text reads back as the number cut after four decimals.",
  "every finite double", "2^64 doubles; rounding at ties, carries and powers of ten",
  ["src/include/fn_fmt.h:write_double_unsafe"])
p("The larger number is never shown as the smaller",
  "Whatever two numbers are logged: if the one is not larger than the other, then what is written for the one, read back, is not larger than what is written for the other, even if the two are written in different forms.",
  "every two finite doubles", "all pairs of doubles, in particular around the three thresholds between the four forms",
  ["src/include/fn_fmt.h:write_double_unsafe"])
p("Processes that start at the same time share one segment",
  "However the calls of LoadSharedMemory of any number of processes interleave, also with processes that log, end or are killed: a logger's segment always exists, is attached and carries its header; two loggers with one key have one segment unless it was removed; nothing a process does before it checks the header touches the memory of a running logger; no process is given memory that another is still preparing. If no system call fails and nobody is killed, then when all calls are back at least one process has the segment, the others were refused with 13 or 15, and each of these gets the segment if it calls again.",
  "every number of processes, every interleaving of their system calls and header stores, every choice of failures and kills", "a window of a few instructions between processes that a test cannot hold open",
  ["src/include/fn_load.h:LoadSharedMemory", "src/include/fn_load.h:UnloadSharedMemory", "src/include/fn_load.h:ResetSHMLogger"])
p("The queue works when loads return old values",
  "Under the memory orders written in the code, with every load free to return any value that the C++ rules for acquire and release allow, and not only in sequentially consistent interleavings: no two threads work on the same slot; a thread about to write or read a record has seen every earlier access to it; every record is dispatched at most once and with the text its thread wrote; the four indices stay in order and at most one record less than the ring has slots is under way; each thread's statements are reserved in its order; an async channel dispatches in the order of reservation; and when a statement has returned and no other is in progress, every record is published, so that the writer thread dispatches it.",
  "every number of threads, every execution of the acquire/release memory model, every ring size", "weak memory executions do not occur on the machine the tests run on, or only by chance",
  ["src/include/fn_channel.h:HoldChannel", "src/include/fn_channel.h:PushChannel", "src/include/fn_channel.h:EnterProcChannel"])
p("A printed time is wrong only on the day the clocks change",
  "In every time zone, with any number of changes of its offset: if mktime undoes localtime, the time shown is that of the instant by the offset in force at the instant for which the thread last asked the calendar, which lies less than a day away; so it is right exactly if the offset has not changed in between, and always if all times the thread printed within a day of it had the same offset. With any mktime that keeps the contract of the C standard it is right on a thread that prints times of days without a change only.",
  "every time zone, every sequence of timestamps of the thread, forwards or backwards in time", "tests run in one zone and rarely across a change of the clocks",
  ["src/include/fn_fmt.h:write_date_unsafe", "src/include/fn_file.h:time_to_tm"])
p("Start and stop calls made at the same time take effect one after the other",
  "Whatever threads call StartLogger, ParseAndStartLogger, LoadAndStartLogger and StopLogger on one logger at the same time: the calls that do something do it one after the other, each exactly as if it were alone, and leave the logger as that order of calls leaves it; a call that is refused changes nothing, and was refused because the logger was as the answer says or because another call was under way; successful starts and stops alternate, so that of several starts at once at most one succeeds; every call returns if the writer threads come up or give up, and the logger is then started or stopped; and nothing is undefined once the logger is loaded.",
  "every number of threads and calls, every interleaving of the checks and writes, every configuration text, every behaviour of the writer threads", "the windows between the check without the lock and the one behind it are a few instructions wide; unboundedly many threads and calls",
  ["src/include/fn_core.h:StartLogger", "src/include/fn_core.h:StopLogger", "src/include/fn_core.h:ParseAndStartLogger", "src/include/fn_core.h:LoadAndStartLogger", "src/include/fn_load.h:InitFromYMAL", "src/include/fn_load.h:InitFromYMALFile"])
p("A statement made inside another statement",
  "If evaluating an operand of a log statement, or the hook of the virtual device, makes further log statements to the same channel, at any depth: the outer line is delivered, complete, before the inner ones, although these are finished first; until the outer statement is finished nothing that was reserved after it is delivered, also on a synchronous channel; an inner statement gets a slot as soon as the writer thread has caught up, as long as fewer than BUFFER_LEN - 1 records have been reserved since the oldest unfinished statement; and with that many the statement, and every other thread that logs to the channel, waits until the channel is stopped.",
  "every number of threads, every depth and number of inner statements, every interleaving, every ring size", "the hang needs as many inner statements as the ring has slots; the order depends on when other threads and the writer run",
  ["src/include/fn_stream.h:LogStream::LogStream", "src/include/fn_stream.h:LogStream::~LogStream", "src/include/fn_channel.h:HoldChannel", "src/include/fn_channel.h:PushChannel", "src/include/fn_out_virtual_device.h:EnterProcOutVirtualDevice"])
p("A statement retries only when somebody gets ahead",
  "The number of atomic operations a log statement makes is at most twelve (sixteen on a synchronous channel), one for each byte, four for each time it finds the queue full, four for each reservation and six for each publication that any thread makes meanwhile and, on a synchronous channel, FN_LOG_MAX_LOG_SIZE + 9 for each record taken for writing and four for each slot released meanwhile. From any point of an execution on, while none of the four indices advances a thread makes a bounded number of operations within its statement unless it finds the queue full; and a thread that is inside a statement always has a next operation. No bound holds without the count of full queues: on a full queue whose writer does not run a statement polls for as long as one lets it.",
  "every ring size and line size, every number of threads, every interleaving of log statements (on a synchronous channel: without a lap)", "a bound on retries under every interleaving cannot be observed; a stress test only shows that the retries it met were few",
  ["src/include/fn_channel.h:HoldChannel", "src/include/fn_channel.h:PushChannel", "src/include/fn_channel.h:EnterProcChannel"])
p("Statements made inside statements to other channels",
  "Log statements to one channel do nothing to the queue of another, also when they are made inside one another. On an asynchronous channel a statement that has its slot returns within 14 + length + 12 * BUFFER_LEN operations when it runs alone, whatever the others have done. If statements are only made inside statements to channels that come earlier in some order of the channels, then whenever a statement is in progress there is one that returns when only it and the writer thread of its channel run. Without such an order statements of two threads can wait for each other: then none of them moves and nobody gets a slot on their channels until one of these is stopped, and two threads with one inner statement each are enough for that.",
  "every number of channels and threads, every depth and number of inner statements, every interleaving, every ring size", "the deadlock needs two full queues at the same moment as two crossing statements; its absence is a statement about all interleavings of all channels",
  ["src/include/fn_stream.h:LogStream::LogStream", "src/include/fn_stream.h:LogStream::~LogStream", "src/include/fn_channel.h:HoldChannel", "src/include/fn_channel.h:PushChannel", "src/include/fn_out_virtual_device.h:EnterProcOutVirtualDevice"])
p("The built-in maxima only decide what is too large",
  "Building the library with another maximum of channels or devices changes nothing about how a configuration text is read except that a text may then have too many of them: with smaller maxima the answer is the same, or it is the error for too many channels or devices; a text that is accepted is accepted with the same result under larger maxima, and under smaller ones exactly if the configuration that was read is within them.",
  "every text, every pair of maxima, every name resolution", "all texts against all maxima; a test has one build",
  ["src/include/fn_parse.h:ParseLogger", "src/include/fn_parse.h:ParseChannel", "src/include/fn_data.h:FN_LOG_MAX_CHANNEL_SIZE", "src/include/fn_data.h:FN_LOG_MAX_DEVICE_SIZE"])
p("A channel is synchronous if the configuration says so",
  "A channel whose configuration asks for synchronous writing in one of the documented ways (sync: sync, sync: SYNC, the sync_write: 1 of the shipped sample) is synchronous, any other is asynchronous.",
  "every value of the key", "a channel that is not synchronous writes the same lines, only later",
  ["src/include/fn_parse.h:ParseChannelType", "src/include/fn_parse.h:ParseChannel"])
p("What a killed process takes from the log files",
  "A record that has left the queue is in its log file when the process is killed. Only text in the buffers of stdio is lost: of each thread at most the last FN_LOG_FORCE_FLUSH_QUE + 1 records that it wrote to a file, none once it has flushed at the end of its round, so a synchronous log statement that has returned is safe, and an asynchronous channel has everything in the files whenever it has caught up. Datagrams written to a file are there as well after the round.",
  "every schedule of any number of threads, every number of devices and filter, every limit, at every moment, whatever stdio hands over on its own", "the process has to be killed between two particular operations",
  ["src/include/fn_channel.h:EnterProcChannel", "src/include/fn_file.h:FileHandler", "src/include/fn_data.h:FN_LOG_FORCE_FLUSH_QUE", "src/include/fn_out_file_device.h:EnterProcOutFileDevice"])
p("No thread flushes a file that another has closed",
  "FileHandler::flush is never applied to a FILE that has been closed by rolling.",
  "every schedule of any number of threads, with rolling at any record", "the window is between a test of a pointer and the call behind it",
  ["src/include/fn_channel.h:EnterProcChannel", "src/include/fn_file.h:FileHandler", "src/include/fn_out_file_device.h:EnterProcOutFileDevice"])
p("A statement made while the settings change",
  "A log statement that is made while a hot update or a configuration call replaces settings of its channel is admitted as by the old or as by the new settings.",
  "every old and new configuration, every record, every interleaving of the loads and stores", "the window is a few loads wide, and the answers depend on the combination of settings",
  ["src/include/fn_channel.h:BlockInput", "src/include/fn_load.h:HotUpdateLogger", "src/include/fn_core.h:SetChannelConfig", "src/include/fn_core.h:SetDeviceConfig"])
p("Datagrams read by several threads",
  "Every datagram that an input device of a channel receives is put out once, unchanged up to the limit of a record, in the order of arrival, whichever threads log to the channel, and nothing is written outside the record used for it.",
  "every sequence of datagrams, every number of threads, every interleaving of the reading loops", "the threads have to meet between recvfrom and the store of the length, and the harm shows only in the forwarded text",
  ["src/include/fn_channel.h:EnterProcChannel", "src/include/fn_channel.h:InitLogData", "src/include/fn_file.h:UDPHandler"])
p("The socket of an input device",
  "An input device has at most one socket open; the descriptor in its handle is that socket or none; and processing a channel never reads from or closes a descriptor that belongs to the rest of the process.",
  "every number of threads, every interleaving of them with the enabling and disabling of the device, with failures of socket and bind and with the descriptors the process opens", "descriptors leak or are closed twice only if two threads meet within a few instructions, and the victim is elsewhere in the process",
  ["src/include/fn_channel.h:EnterProcChannel", "src/include/fn_file.h:UDPHandler"])
p("A record dispatched while the settings change",
  "A record that is dispatched while a hot update replaces settings of its channel is put out by the devices of the old settings or by those of the new ones.",
  "every old and new configuration, every record, every interleaving of the loads and stores", "two threads have to log to a synchronous channel within the few stores of an update",
  ["src/include/fn_channel.h:DispatchLog", "src/include/fn_load.h:HotUpdateLogger"])
p("A record dispatched while a device is added",
  "A record that is dispatched while a hot update adds a device to its channel is put out as by the channel without the device or as by the channel with it.",
  "every channel, every new device, every record, every interleaving of the loads and stores", "two threads have to log to a synchronous channel within the copy of one device",
  ["src/include/fn_channel.h:DispatchLog", "src/include/fn_load.h:HotUpdateLogger"])
p("Closed log files and power failures",
  "When a log file has been closed, by a roll or by StopLogger, a power failure loses nothing of what was written to it.",
  "every sequence of opens, writes, flushes and closes, every moment at which stdio or the kernel write on their own", "needs a power failure in the moment after a file was closed",
  ["src/include/fn_file.h:FileHandler::close", "src/include/fn_file.h:FileHandler::flush", "src/include/fn_file.h:FileHandler::open"])
p("A roll cut short by a killed process",
  "If the process is killed in the middle of a roll, at any point and any number of times, no file but the oldest is lost, and the next roll gives the files that one undisturbed roll would have given.",
  "every set of files, every rollback setting, every moment of the kill, any number of kills", "needs a kill between two renames",
  ["src/include/fn_file.h:FileHandler::rollback"])
p("A roll whose renames fail",
  "If renaming or removing a file fails during a roll, no backup but the oldest is lost.",
  "every set of files, every rollback setting, every set of failing calls", "needs a file system on which single renames fail",
  ["src/include/fn_file.h:FileHandler::rollback"])
p("Processes that roll the same log file",
  "Processes that write to the same log file, such as two instances of one program, lose no records but those of the oldest backup.",
  "any number of processes, every interleaving of their file operations, every rollback setting", "two processes have to roll within the same few calls",
  ["src/include/fn_file.h:FileHandler::rollback", "src/include/fn_out_file_device.h:OpenFileDevice"])
p("File devices that share a path",
  "When several file devices of a channel write to the same path with limit_size and rollback set, no log file grows beyond limit_size, and no device writes to a file that has been removed.",
  "any number of devices, every sequence of records not larger than the limit, every limit and rollback setting, with and without stuff_up", "every device counts only its own bytes, so the excess depends on how the records of the devices alternate",
  ["src/include/fn_out_file_device.h:OpenFileDevice", "src/include/fn_out_file_device.h:EnterProcOutFileDevice", "src/include/fn_file.h:FileHandler::rollback"])
with open("/verif/properties.jsonl","w") as f:
    for x in P: f.write(json.dumps(x,ensure_ascii=False)+"\n")
print(len(P))
