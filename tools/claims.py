c("C07","proved",["C07_unsigned_decimal"],"all 64-bit values, all widths <= 30")
c("C08","partial",["C08_signed_decimal_partial","C08_signed_decimal_refuted"],"proved for every value except LLONG_MIN, where the code negates with signed overflow (refuted)")
c("C09","partial",["C09_hex_partial","C09_pointer","C09_hex_refuted"],"pointers in full; hex for all non-zero values; hex of 0 calls __builtin_clzll(0) (refuted)")
c("C10","partial",["C10_binary_partial","C10_binary_refuted"],"exact when the width does not exceed the digit count; otherwise padding bytes keep stale content (refuted)")
c("C01","proved",["C01_admission"],"masked values in 0..63 and window ends inside long long (other values: C04)")
c("C02","proved",["C02_dispatch"],"strictly increasing ids = each at most once")
c("C03","proved",["C03_admitted_reaches_device","C03_filtered_reaches_none","C03_above_fatal_refuted"],"second half for device priorities <= FATAL as stated; false above (refuted witness)")
c("C04","partial",["C04_mask_partial","C04_mask_refuted"],"proved for values 0..63; outside the shift is undefined or aliases modulo 2^32 (refuted)")
c("C05","partial",["C05_hook_partial","C05_hook_refuted"],"filter decision proved; the enabled flag and the existence of a virtual device are not checked by the code (refuted)")
c("C06","proved",["C06_settings","C06_get_device_config","C06_get_channel_log","C06_get_device_log"],"any sequence of calls")
c("C61","partial",["C61_indexed_calls_partial","C61_any_argument_refuted"],"indexed calls are safe on a started logger; batch calls with a sentinel field and any call before start are not (refuted)")
c("C11","partial",["C11_date_partial","C11_text_unique","C11_date_refuted"],"proved for zones with a fixed offset and timestamps from 1970; false across a zone offset change because of the cached day (refuted; exactly when is C117)")
c("C12","proved",["C12_double","C12_reserve","C12_any"],"exact, including the one rounding of the product by 10000; gcvt/printf text is a parameter bounded to 23 bytes")
c("C62","partial",["C62_sign_partial","C62_exact","C62_sign_refuted"],"With glibc: written exactly for the negative normal numbers outside the range from 1e-7 to 1e-4 (C62_exact); inside it the code formats |x| (refuted). C62_sign_partial is for any libc and 0.0001<=|x|<=2^60.")
c("C13","partial",["C13_stream_partial","C13_determined","C13_stream_refuted"],"any sequence and nesting of operands; not for LLONG_MIN, dumps of zero bytes (both refuted) and dates outside C11_date_partial")
c("C14","proved",["C14_push"],"every length 0..LOG_SIZE, every LOG_SIZE >= 2")
c("C15","proved",["C15_prefix","C15_no_prefix","C15_unbounded_refuted"],"when name, description, shortened path and function name leave 150 bytes; a longer function name overflows the record (refuted)")
c("C16","proved",["C16_short_path","C16_no_path"],"all paths")
c("C17","proved",["C17_container","C17_pair"],"any length and nesting without alignment operands, wherever there is room")
c("C18","proved",["C18_format"],"every snprintf result and every prefix length up to LOG_SIZE")
c("C56","proved",["C56_moves","C56_all_destroyed","C56_moved_from","C56_defined"],"any sequence of constructions, moves and destructions that touches no object before or after its life, which is exactly when it is defined")
c("C60","partial",["C60_dump_partial","C60_dump_refuted"],"data without zero bytes; a zero byte reaches hex(0), which is undefined (refuted)")
c("C63","partial",["C63_percent_partial","C63_negative","C63_percent_refuted"],"ratios from 0.000001; negative ratios print 00.00% (refuted)")
c("C19","partial",["C19_slots_partial","C19_slots_refuted"],"any number of threads, any ring size; schedules without a restart in which no index makes a full lap between a load and its compare-exchange; with such a lap false (refuted)")
c("C20","partial",["C20_async_partial","C20_async_refuted"],"same schedules as C19; with a lap a record is delivered cut (refuted)")
c("C21","partial",["C21_capacity_partial","C21_waits_partial","C21_capacity_refuted"],"same schedules as C19; with a lap the queue overfills (refuted)")
c("C22","partial",["C22_thread_order_partial","C22_order_refuted"],"same schedules as C19, stop allowed; with a lap a later record of the thread is written over an earlier one (refuted)")
c("C23","partial",["C23_async_partial","C23_sync_partial","C23_hidden_refuted"],"running channel, same schedules as C19; with a lap a full queue looks empty and is never delivered (refuted)")
c("C24","partial",["C24_stop_partial","C24_lost_refuted"],"async channel; the writer ends if scheduled, and everything is delivered whenever it has ended; same schedules as C19; with a lap the writer ends and the records are lost (refuted)")
c("C25","partial",["C25_published_partial","C25_completed_refuted"],"what write_idx_ has passed is delivered; a completed record behind an unfinished one is lost (refuted)")
c("C26","partial",["C26_quiet_partial","C26_restart_refuted"],"a restart with no log statement in progress gives a fresh queue; otherwise an old log statement writes into the new queue (refuted)")
c("C27","partial",["C27_once_partial","C23_sync_partial","C27_once_refuted"],"same schedules as C19; with a lap a cut record is delivered (refuted)")
c("C28","partial",["C28_single_partial","C28_returned_refuted","C28_order_refuted"],"single logging thread; both halves are false with two threads (refuted)")
c("C29","partial",["C29_counters","C29_bytes_partial","C29_sync_bytes_refuted"],"the three record counters on every schedule including restarts; bytes on an async channel for the schedules of C19; false on a sync channel (refuted)")
c("C64","partial",["C64_single_partial","C64_refuted"],"one logging thread; with two threads the length of another record can be added (refuted)")
c("C65","partial",["C65_async_stopped_partial","C65_sync_refuted"],"async channel; a sync channel can come back to life (refuted)")

c("C32", "partial", ["C32_segment", "C32_reachable_partial", "C32_lap_refuted"],
  "C32_segment: for every segment with right size and id, in-range indices and record lengths within the buffer. C32_reachable_partial: the same for every state a channel's queue can be in at the crash; stopping included. False for schedules in which an index makes a full lap between load and compare-exchange (refuted); crashes after a restart following a quiet stop: C111_crash.")
c("C33", "partial", ["C33_async_partial", "C33_memory", "C33_unfinished_refuted", "C33_sync_refuted", "C33_sync_stuck_refuted"],
  "Async channels: everything published is delivered, in order, and every reserved record comes out flagged with the part written so far. Refuted as stated: a slot reserved but not yet begun comes out as the old record it held; on sync channels a record delivered but not released can come out mixed with a new one, and a ring full at the crash is never delivered.")
c("C34", "partial", ["C34_header", "C34_attached", "C34_returns_partial", "C34_hold_refuted", "C34_length_refuted"],
  "Refuted as stated: hold_idx_ out of range makes the call loop for ever, a negative content_len_ makes it write outside the record. Otherwise it returns, with an error if a write or read index is out of range.")

c("C35", "proved", ["C35_roll"], "rename and remove of existing files succeed; limit below INT_MAX")
c("C36", "proved", ["C36_bounded", "C35_roll"], "for whole runs of the device: no file with a higher backup number appears or changes")
c("C37", "proved", ["C37_sizes", "C37_stays"], "also when writes fail; files found at the start may be longer")
c("C38", "proved", ["C38_day", "C38_name"], "fixed-offset zones, as stated; see C67 for the others")
c("C39", "proved", ["C39_step", "C39_takes", "C39_backoff", "C39_failed", "C39_counts", "C39_returns"],
  "priorities 0..6 and fwrite taking the whole record (see C68); stdio buffering not modelled")
c("C40", "proved", ["C40_names", "C40_default", "C40_path"], "process name without '$'")
c("C41", "partial", ["C41_terminates_partial", "C41_refuted"], "every template, process name without '$'; with the process name $PNAME it loops for ever (refuted)")
c("C66", "proved", ["C66_contents"], "fwrite takes whole records; the backups found at the start have no gap")
c("C67", "partial", ["C67_dst_refuted", "C67_near_partial", "C67_opened", "C38_name"], "false: on the day the clocks go forward the first hour of the next day goes to the old file; true if every record less than a day away was written under the same offset (C67_near_partial), so of fixed offsets (C38_name); in general the day is counted by the offset of the record that opened the file (C67_opened); zones that alternate between two offsets at any times")
c("C68", "partial", ["C68_short_write_refuted", "C68_step_partial", "C68_counts_partial", "C39_counts"], "false: the whole length is counted; true when fwrite takes the whole record (C39_counts). Whatever fwrite takes: exactly that head of the record is in the file, the file is then closed, and the size field of an open file is always its size (C68_step_partial, C68_counts_partial)")
c("C42", "partial", ["C42_terminates_partial", "C42_define_self", "C42_var_self", "C42_nul_refuted", "C42_bom_refuted", "C42_macro_refuted"],
  "every text without NUL and byte order mark in which no macro or variable is defined as itself (NAME NAME, x=$x, x=${x}); each of the three excluded kinds loops for ever (refuted); a definition as itself does so whenever the name stands behind it (C42_define_self, C42_var_self)")
c("C43", "proved", ["C43_lexer_inside", "C43_parser_inside"], "every text, also with NUL bytes; texts below 2^31 bytes (int counters)")
c("C44", "proved", ["C44_wellformed"], "also: all fields are long long values, names fit, the virtual device is the last one, and the whole text has been read")
c("C46", "proved", ["C46_bit_list"], "entries 0..63 as stated; larger ones are undefined behaviour (C69)")
c("C47", "partial", ["C47_black_list_partial", "C47_black_list_refuted"], "true unless all 64 values are listed; then nothing is rejected (refuted)")
c("C48", "proved", ["C48_keys"], "")
c("C50", "partial", ["C50_text_decides_partial", "C50_shm_refuted"], "everything but the shm_key of a text that sets none, which is whatever the memory held (refuted)")
c("C59", "proved", ["C59_address", "C59_forms"], "every host of digits and dots and every port without leading zeros; inet_addr as documented")
c("C69", "partial", ["C69_limit_size_refuted", "C69_wlist_refuted", "C43_parser_inside"], "false: limit_size and bit lists overflow; these are the only undefined steps (C43_parser_inside)")
c("C70", "partial", ["C70_keyed_partial", "C70_channelless", "C70_has_channel_refuted", "C44_wellformed"], "true if the last line has a key (definitions replaced; no NUL or byte order mark); false: an empty text and a text that ends in a comment or an empty line can be accepted without a channel")
c("C71", "partial", ["C71_lines_partial", "C71_rejected_partial", "C71_misspelt_refuted", "C71_misspelt_config_refuted", "C48_keys"], "true of a first letter that no documented key has: the file is rejected wherever the line is (no NUL or byte order mark, in C71_rejected_partial no definitions); false in general: keys are told apart by a few letters")

c("C49","partial",["C49_define_partial","C49_define_long","C49_var_partial","C49_var_long","C49_before","C49_define_self","C49_var_self","C49_define_self_refuted"],
  "For names that are words and contents other than the name itself: exactly the later whole-word occurrences change, the text before and the length stay, longer contents are rejected. False of a name defined as itself: the substitution never returns, exactly if the name stands in the rest of the text (refuted; C49_define_self, C49_var_self).")
c("C72","partial",["C72_before_partial","C72_spaces_refuted"],"True of the blanks before the = and around the items. False behind it: the space after the equals sign counts as part of the value, so the line of the shipped sample is rejected.")
c("C73","partial",["C73_single_partial","C73_never","C73_list_refuted"],"False: define takes a single name and content separated by a space; the documented list form is rejected, always if it has no space (C73_never).")
c("C74","partial",["C74_log_yaml_partial","C74_default_never","C74_log_yaml_refuted","C74_default_refuted"],"False for both files with the default maxima. log.yaml is accepted exactly by a library built for at least four channels and two devices, default_log.yaml by none: it has a macro without content.")

c("C45","proved",["C45_read_back"],"any order of options, indentation, line end, quotes, comments and blank lines; at least one channel; no define or var lines (C49)")
c("C75","partial",["C75_types_partial","C75_null_refuted"],"Exactly the values that begin with e, f, u, s or v are taken. False of null: it is an undefined device type.")
c("C76","partial",["C76_mask_refuted","C45_read_back"],"False from 2^63 on: the number is cut to 2^63-1; true below (C45_read_back).")

c("C51","proved",["C51_applied","C51_rejected"],"for every logger that calls lead to and every check that is due; channels that the new file lacks are C77")
c("C52","partial",["C52_all_channels_partial","C52_switched_off_refuted","C52_same_second_unseen","C52_same_second_refuted"],"Proved for any order and number of checks if the new file keeps hot_update on and defines the channels. False when it switches hot update off, and for a change within the second of the last modification.")
c("C53","partial",["C53_life_cycle_partial","C53_stop_fresh_refuted","C53_thrown_refuted","C53_slow_refuted"],"Proved for threads that can be created and come up in time or just after the wait, and stops of initialised loggers. False: StopLogger before any load reads a null pointer; a failing thread creation leaves the logger half started; a slow thread blocks the start.")
c("C55","partial",["C55_restart_partial","C55_dropped_refuted"],"Proved for the channels in both configurations. False for channels that a configuration in between lacks.")
c("C77","partial",["C77_absent_partial","C77_emptied_refuted"],"Proved for channels other than 0. False for channel 0 and a file without channels.")
c("C78","partial",["C78_kept_partial","C78_virtual_refuted"],"True of a virtual device that the channel had: the hook takes its new filters. False of an added one: the number of the virtual device is not updated.")
c("C79","partial",["C79_destroy_partial","C79_destroy_refuted","C53_thrown_refuted"],"Proved for started or stopped loggers whose memory is of the kind the last configuration asks for. False when a restart drops the shared memory key, or after a failing thread creation.")

c("C54","partial",["C54_returns_partial","C54_returns_or_deadlocks","C54_deadlock_stays","C54_deadlock_refuted"],"Under every fair schedule StopLogger returns with all threads ended and all queues empty, or it deadlocks with a thread that is about to apply a changed file. Proved to return if no thread finds the file changed; the deadlock is reachable and permanent. The file changes finitely often; memory is sequentially consistent.")
c("C80","proved",["C80_loaded","C80_refused"],"for threads that can be created and come up in time or just after the wait")

c("C30","proved",["C30_queued","C30_written","C30_rejected","C30_own"],"for a target channel at rest; a record that is transmitted gets its newline in the target channel like any statement")
c("C31","partial",["C31_sums_partial","C86_counters","C31_counters_refuted"],"Proved for the seven priorities (C86). False outside: priority 8 is added to the lines of the device, -1 to the pushed records, 11 and 22 to memory outside the counters.")
c("C57","proved",["C57_screen","C57_statement"],"the device on any such record, and a whole statement on a channel with a screen")
c("C58","partial",["C58_file_partial","C85_datagrams","C58_forwarded_refuted"],"Proved for outputs other than the screen and at most 1000 datagrams that are not empty and do not fill the record. False: the screen shows the tail of an earlier datagram, a datagram that fills the record loses two bytes, an empty one ends the round.")
c("C81","proved",["C81_sync","C81_determined"],"no hook and no datagrams on the channel; constant offset from UTC; priorities -3..10")
c("C82","proved",["C82_file"],"all channels synchronous, no hook, no datagrams, files can be opened")
c("C83","proved",["C83_queued","C83_round"],"one thread at a time; concurrent writers are C19-C23")
c("C84","proved",["C84_rejected"],"")
c("C85","proved",["C85_datagrams"],"the forwarded bytes are given for channels without an input device that prints to the screen (C58)")
c("C86","proved",["C86_counters"],"no hook and no datagrams on the channel")
c("C87","proved",["C87_sync","C87_async","C87_quiet_sync","C87_quiet_async"],"a hook that transmits; a hook that logs again itself is not modelled")
c("C88","proved",["C88_push","C88_gap"],"one thread at a time; concurrent writers are C19-C23")
c("C89","proved",["C89_refused"],"")
c("C90","proved",["C90_default"],"default maxima; the thread of channel 0 comes up; the parser's unset shm_key is not positive or the logger was loaded before (C50)")
c("C91","proved",["C91_debug"],"as C90")
c("C92","proved",["C92_loaded"],"the writer threads come up and the memory can be had; a written configuration is one of C45")
c("C93","proved",["C93_updated"],"one check of one channel at a time, as in C51")
c("C94","proved",["C94_content"],"reading does not fail")
c("C95","partial",["C95_prefix_partial","C95_error_refuted"],"Proved: the result is the part before the error. False: nothing tells it from the whole file, and a prefix that parses is loaded.")
c("C96","partial",["C96_name_partial","C96_long_refuted"],"Proved for paths of up to 499 bytes without newline. False: a longer path is cut before the last component is taken, so the logger is called like a directory.")
c("C97","proved",["C97_made"],"opendir and mkdir are parameters; directories are not removed meanwhile")
c("C98","partial",["C98_total_partial","C98_race_refuted"],"Proved when no other process interferes and every directory can be listed. False: if another process makes the directory between opendir and mkdir, create_dir gives up and the directories below are not made.")
c("C99","proved",["C99_output","C99_first"],"times do not go back")
c("C100","partial",["C100_listens_partial","C100_moved_refuted"],"Proved while the configured address stays. False: after a hot update of the address the socket stays bound to the old one.")
c("C101","partial",["C101_exact_partial","C101_name_refuted"],"Every call sets exactly one setting (two for a window) of the named kind of device. False of one name: SetAllFilePriority with two numbers sets the category window, not the priority.")
c("C102","proved",["C102_routes"],"masked values in 0..63 and int arguments")
c("C103","proved",["C103_admits"],"priorities up to FATAL")
c("C104","proved",["C104_alone"],"any interleaving, any failures; files are known by name, so names must differ")
c("C105","proved",["C105_end_to_end"],"fixed file names below 250 bytes, no failing system calls, synchronous channels without hook, priorities TRACE..FATAL")
c("C106","proved",["C106_conserved","C106_written"],"no hook, no devices that fail; priorities TRACE..FATAL; no UDP arrivals in the sequence")
c("C107","proved",["C107_returns","C107_waits"],"the waiting call spins; the model shows it as running out of fuel")
c("C108","partial",["C108_async_partial","C108_sync_partial","C108_thread_order_refuted"],"async channel, schedules without a lap (as C19), no stop or restart, all calls accepted by the file device; on a sync channel only some order: a thread's second record can be written before its first (refuted)")
c("C109","partial",["C109_text_partial","C109_races_partial","C109_running_partial","C109_length_refuted","C109_sync_length_refuted","C109_state_refuted","C109_state_lines_refuted","C109_text_refuted"],"True of the bytes of records on schedules without a lap (as C19) and without restart. False of channel_state_ (a plain int, written by stop), of content_len_ at line 500, and on a sync channel at line 127; these are shown to be the only races. With a lap the bytes race too. Executions are sequentially consistent interleavings; join and restart are not followed.")
c("C110","partial",["C110_report_partial","C110_number","C110_message_partial","C110_misplaced_refuted","C110_beyond_refuted","C110_message_refuted"],"True for texts without NUL and without byte order mark, for every code except 30, 32 and 33: for a known key that is not allowed where it stands the report names and quotes from the following line, which need not exist (refuted). PEC_ILLEGAL_VAR_VALUE is printed as unknown error (refuted). The quoted text is the text after the definitions were applied.")
c("C111","proved",["C111_as_new","C111_restart","C111_order","C111_drains","C111_sync","C111_waits","C111_slots","C111_crash"],"schedules without a lap (as C19); a restart is one step of the controlling thread from the join until the writer has set RUNNING, no thread calls the logger during that time. Without quiet stops it is false (C26_restart_refuted).")
c("C112","partial",["C112_new","C112_attach","C112_alive","C112_count","C112_crash","C112_shutdown","C112_apart","C112_private","C112_refused","C112_stuck","C112_keys_refuted","C112_multiple_refuted","C112_version_refuted","C112_retry_refuted","C112_live_refuted","C112_foreign_refuted","C112_rekey_refuted"],"Calls of different processes do not overlap and every segment was made by this library. False: keys equal mod 2^32 share a segment and multiples of 2^32 are always refused; if shmat fails for a new segment the key is unusable from then on (C112_stuck); a refused process stays attached; attaching to a segment in use finishes the statements in progress there; a logger that changes between having a key and having none removes a foreign segment or deletes attached memory.")
c("C113","proved",["C113_scientific","C113_form","C113_fixed","C113_read","C113_glibc"],"for gcvt and printf of glibc in rounding mode to-nearest; the eight decimals are written without the sign, a subnormal number as 0 (C12)")
c("C114","partial",["C114_order_partial","C114_order_refuted"],"True of all pairs of numbers outside -0.0001 to -0.0000001. There the sign is not written, so -0.00005 is shown as more than 0 (refuted).")
c("C115","partial",["C115_alone","C115_one","C115_untouched","C115_fresh","C115_together","C115_retry","C115_stuck","C115_all_refuted","C115_leak_refuted","C115_killed_refuted"],"A step is one system call or one header store; ResetSHMLogger and the recovery loop are one step each; processes keep their key and every segment was made by this library. False: that everybody who starts gets the segment (13 or 15 is possible); that a refused process is detached; that a process killed at any moment leaves a usable key: killed between lines 58 and 73 it leaves a key that is refused for ever (C115_stuck).")
c("C116","partial",["C116_slots","C116_race","C116_out","C116_room","C116_started","C116_async","C116_single_partial","C116_stuck","C116_enabled","C116_publish_refuted"],"True without laps (as C19) except for the last part. Every record being published is true with one logging thread; with two it is false: both can return while the second record is marked but not published, because the loads in PushChannel are acquire loads after the store of another variable (store buffering); it stays until somebody logs again. The witness needs no more than C++ allows, although the model, which has no order of the seq_cst operations, allows more. x86 has no such executions.")
c("C117","proved",["C117_shown","C117_exact","C117_near","C117_calm","C117_agrees","C117_steady_refuted"],"for offsets up to a day, years 0 to 9999, and once a time outside the first 24 hours of 1970 has been printed (C11). The condition that mktime undoes localtime is needed: in a zone that changes its offset at noon without tm_isdst even a first call is wrong (refuted).")
c("C118","partial",["C118_serial_partial","C118_alternate","C118_returns","C118_safe","C118_answers_refuted","C118_in_use_refuted","C118_stopped_refuted"],"Accesses are taken in one order for all threads, though the checks outside the lock are data races in the language; writer threads' own hot updates and the destructor are left out. True with refusals explained as stated. False: that the answers are those of some order of the calls (a thread can be told that the logger is in use and then that it is not running while another starts it); that a start refused as in use means that some start succeeds; that the writer threads are stopped when StopLogger has returned.")
c("C119","partial",["C119_outer_first_partial","C119_blocks_partial","C119_stuck_partial","C119_progress_partial","C119_returns_refuted"],"Schedules without a lap (as C19), no restart; the order is for an async channel. That the statement always returns is false: with BUFFER_LEN - 1 inner statements it hangs, and with it every thread that logs to the channel, until the channel is stopped (refuted, and shown for every such state). Inner statements to other channels are C121.")
c("C120","proved",["C120_cost","C120_standstill","C120_enabled","C120_bounded_refuted"],"Operations are those of Ring.v: one for each access to a shared variable and for each byte of the record. Schedules of log statements only (start and stop are C109, C111); an async channel with or without laps, a sync one without a lap (as C19), because there a lapped reader may read a text that is still growing.")
c("C121","partial",["C121_one_channel","C121_slot","C121_progress_partial","C121_deadlock_stays","C121_returns_refuted"],"That statements always return is false (refuted with two channels). Progress with ordered channels is for async channels and schedules without a lap and without restart; the deadlock theorem is for both kinds of channel, without a lap; the other two hold of every schedule of log statements.")
c("C122","proved",["C122_answers","C122_larger","C122_accepted"],"")
c("C123","partial",["C123_mode_partial","C123_sample","C123_upper_refuted","C123_sample_refuted"],"True of sync: sync: the channel is synchronous exactly if the value begins with a small s, and no value is reported. False of the documented SYNC and of sync_write: 1 in bin/log.yaml and README.md: both are accepted and make an asynchronous channel, in every library that accepts the file.")
c("C124","partial",["C124_bound","C124_crash","C124_idle","C124_lost_refuted","C124_datagram_refuted"],"The bounds are true and exact: for every limit there is a schedule after which FN_LOG_FORCE_FLUSH_QUE + 1 records (10001 as built) have been released from the queue and are in no file, so a queue in shared memory does not have them either (compare C33). A datagram is written behind the flush of its round and stays in the buffer until the channel has processed a record. C124_bound is about schedules in which no closed FILE is used (C125).")
c("C125","partial",["C125_one_thread_partial","C125_no_roll_partial","C125_two_threads_refuted"],"True if one thread processes the queue (every asynchronous channel) or nothing rolls. False of a synchronous channel with two threads: flush is outside the lock, and the file can be closed between the test of file_ and fflush, which is undefined behaviour.")
c("C126","partial",["C126_exact","C126_channel_setting_partial","C126_device_setting_partial","C126_looser_partial","C126_admits_refuted","C126_drops_refuted","C126_undefined_refuted"],"False: the possible answers are exactly those of all mixtures, each setting on its own being the old or the new one; so a record that both reject can be admitted, one that both admit can be dropped, and begin + count can overflow although it does in neither. True if one setting changes (the configuration calls), and in one direction if priorities are lowered and devices enabled.")
c("C127","partial",["C127_one_thread_partial","C127_bytes_partial","C127_lost_refuted","C127_mixed_refuted","C127_twice_refuted","C127_behind_refuted","C127_before_refuted"],"False on synchronous channels, where every logging thread reads into the one udp_buffer_ without a lock: a datagram can be lost and another doubled, bytes of two can be mixed, a thread that received nothing can repeat the last one, and a datagram that fills the buffer lets another thread write behind or in front of the text. True for one thread (every asynchronous channel). For any number of threads and shorter datagrams nothing is written outside, and each text put out has the length of a datagram and column by column bytes of datagrams or zeros.")
c("C128","partial",["C128_one_thread_partial","C128_visit","C128_open_partial","C128_leak_refuted","C128_foreign_refuted","C128_read_refuted"],"False on synchronous channels: two threads can open at once, and the first socket stays open without a handle; two threads that find the device disabled can close a descriptor the process has got meanwhile; a thread can read from such a descriptor. True for one thread (every asynchronous channel), and for any number of threads once the socket is open and while the device stays enabled.")
c("C129","partial",["C129_exact","C129_devices_partial","C129_twice_refuted","C129_lost_refuted","C129_stray_refuted"],"False on synchronous channels: the devices are exactly those of some mixture of old and new settings, so a record can be put out twice or not at all when the output moves from one device to another, and by a device that takes it with neither. If at most one setting of each device changes, every device decides as with the old or the new settings and puts the record out at most once.")
c("C130","partial",["C130_exact","C130_old_devices","C130_plain_partial","C130_priority_refuted","C130_category_refuted"],"False on synchronous channels: the number of devices is stored before the device is copied, so the record meets exactly a device with some of its settings still zero; the new device can put out records of a priority or category that is not for it. The devices that were there before are not disturbed, the new one puts the record out at most once, and a device with a single setting is there or is not.")
c("C131","partial",["C131_exact","C131_reopened","C131_first_part","C131_grows","C131_flushed_partial","C131_whole_partial","C131_closed_refuted","C131_later_refuted"],"False: close() calls fsync before fclose, and only fclose hands stdio's buffer to the kernel, so what was written since the last flush can be lost after the file is closed. True of what was flushed, and of the whole file if nothing was written after the last flush. The kernel is taken to write a file from its start to its end.")
c("C132","proved",["C132_resume","C132_again","C132_total","C132_kept"],"Paths that end in .log (as all log files do), nothing written between the kill and the next roll; each rename and remove is done or not done.")
c("C133","partial",["C133_exact","C133_no_failure","C133_kept_partial","C133_overwritten_refuted"],"False: the result of rename is not used, so when one fails the next rename overwrites the file that stayed. The exact result is given; a file is kept unless its own rename fails and that of the file before it does not, in particular when all calls after a failed one fail too.")
c("C134","partial",["C134_order","C134_opened","C134_ends","C134_alone_partial","C134_serial_partial","C134_lost_refuted","C134_removed_refuted"],"False: when two processes roll at the same time the second renames the new, almost empty file over the backup of the full one; and a process keeps writing to a file that the other has renamed and at last removed. True: whatever the interleaving, the backups stay numbered from the newest to the oldest within the setting, and a roll ends after 2 n + 4 steps of the process itself with the log file open; a roll that is not disturbed moves every file up by one, so after rolls one after the other a file is in the directory exactly as long as its number is within the setting.")
c("C135","partial",["C135_own_partial","C135_bound_partial","C135_count_partial","C135_bytes","C135_backups","C135_place","C135_reached","C135_limit_refuted","C135_removed_refuted"],"False: with stuff_up two devices fill one file to twice the limit, and with or without it a device goes on writing to a file that the rolls of another have removed. True: without stuff_up no two devices write to the same file, no new file exceeds the limit and the files of an earlier run are not changed; with stuff_up a file grows by at most the limit for each device, a bound that is reached; the size field of a device on its own is the size of the file; every byte goes to one file, there are never more backups than set, and a file is removed exactly when more files were made after it than the setting.")
