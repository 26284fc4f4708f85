
## What is modelled, by source file

| source | modelled | not modelled |
| --- | --- | --- |
| `fn_fmt.h` | all integer, hex, binary, pointer, date and double writers | other C libraries than glibc for the text of `gcvt`/`sprintf` inside the double writer (`DblLibc.v` gives glibc's; all other theorems hold for any text of bounded length), other rounding modes than to-nearest |
| `fn_stream.h` | the constructor with its prefix, every `<<` operand, dumps, containers, moves, the destructor with hook and push | user types with their own `operator<<` |
| `fn_macro.h` | `LOG_FORMAT`, `FastStartDefaultLogger`, `FastStartDebugLogger`, the default configuration text | the macros that only spell these calls, `LogTemplatePack` (a sequence of `<<`) |
| `fn_channel.h` | `BlockInput`, `DispatchLog`, `HoldChannel`, `PushChannel`, `EnterProcChannel` (async and sync), `TransmitChannel`, the UDP input loop, counters | sleeping times |
| `fn_core.h` | start, stop, destroy, load, the get, set and batch calls, `InitLogger` | the Windows console mode |
| `fn_load.h` | `LoadSharedMemory`, `UnloadSharedMemory`, `InitFromYMAL` with its error report, `InitFromYMALFile`, `HotUpdateLogger` | segments of other programs, a second process inside the recovery loop at the same time |
| `fn_parse.h` | the whole lexer and parser, macros and variables, every value parser, `DebugErrno` | nothing |
| `fn_file.h` | `open`, `write`, `rollback`, `short_path`, `read_line`, `read_content`, `process_name`, `create_dir`, the UDP handler, the buffers of stdio (`Flush.v`), `fsync` on close (`Durable.v`) | permissions |
| `fn_out_file_device.h`, `fn_out_screen_device.h`, `fn_out_udp_device.h`, `fn_out_empty_device.h`, `fn_out_virtual_device.h` | all; a hook that logs is an inner statement of `Nest.v` or `Multi.v` | - |
| `fn_data.h` | constants, the fields that the functions above use | layout, alignment and padding, `freq_limits_` (not used by the code) |
| `fn_log.h` | the bulk set calls | - |
| samples | the bytes of two configuration files | programs, tests, benchmarks |

The transition systems are: `Ring.v` (queue of one channel, one atomic
operation per step), `WeakRing.v` (the same queue in release/acquire memory), `Stop.v` (the logger lock, the writer threads and
`StopLogger`), `Life.v` (start and stop calls of several threads), `Nest.v` and
`Multi.v` (statements inside statements, on one channel and on several), `Flush.v` (rounds of the
processing loop with the buffers of stdio), `Torn.v` and `TornOut.v` (the loads of a statement and of
DispatchLog against the stores of an update), `Adding.v` (DispatchLog while a device is
added), `RollRace.v` (processes that roll the same file), `SharePath.v` (devices that share a path), `UdpRace.v` (threads that read datagrams into one record), `Socket.v` (the descriptors of a UDP input), and `World.v` (whole statements, one thread at a time, with every
device and counter).  `Ring.v` and `World.v` describe the same functions at two
grains: `Ring.v` all interleavings of the index operations with records as texts,
`World.v` the bytes, filters, devices and counters of one statement after the other.
C108 relates the two: what any interleaving dispatches is what the same statements
give one after the other in some order.

## Trusted base

* The kernel of Coq 8.16.1, including its `vm_compute` machine (used in examples,
  refutation witnesses and closed computations only).
* The transcription from C++ to Gallina, by reading; no code was run.  The mutation
  log `seeded/LOG.jsonl` shows which wrong transcriptions the theorems notice.
* Sequential consistency of the atomic operations, except in C116, which follows the
  queue through all executions of release/acquire memory (C109 shows which plain
  accesses the acquire and release operations order in sequentially consistent
  executions, and which they do not); the C++ compiler; libc calls as
  described in the comment of the definition that stands for them.
* Windows and macOS branches are outside the model.

### Assumptions

`Print Assumptions` stands under each property theorem.  For every one of them the
answer is "Closed under the global context": no axiom is used, neither of our own
nor of the standard library.

Files of the standard library that are loaded (not used by any theorem) declare
these constants without body in the module type instance `Coq.ssr.ssrunder.Under_rel`:
`Over_rel`, `Under_rel_from_rel`, `over_rel`, `over_rel_done`, `Under_rel`,
`Under_relE`, `under_rel_done`.

No functor, module type, `Declare Module`, plugin, `Admitted`, axiom, or switched-off
kernel check occurs in `rocq/theories`.

## Mutation testing

`tools/mutate.py` builds the committed files in a scratch directory, applies one
wrong edit to a model definition, rebuilds what depends on it and records which
proofs fail.  `seeded/LOG.jsonl` has one line per attempt: the definition, the edit,
the claim that it breaks, the theorems that failed, and, for edits that first went
unnoticed, the theorem that was tightened.  Edits that no theorem can notice because
they do not change behaviour are logged as such.
