# Formal model of cxcp (XCP slave) in Rocq 8.16.1

The properties are in `properties.jsonl` (C01, C02, ...), which theorems prove them
in `MANIFEST.json`, the experiments with wrong programs in `seeded/LOG.jsonl`.

## Shape of the model

The code under `/repo` is C configured by macros.  A configuration is a record
`cfg` (`Config.v`), one field per macro that influences behaviour.  Theorems
quantify over every configuration with `wf_cfg`: the `#error` checks of
`inc/xcp.h`, and the sizes the code takes for granted.  Call-backs of the
application (memory access, seed, unlock, identification, transport layer
sub-commands, timer, address mapper) are a record `env` of functions that is
an input of *every single step*, so that a statement about all runs is one about
all behaviours of the application.

The state `st` (`State.v`) has one field per variable of the C code.  The API is
the type `op` (`Core.v`): initialisation, reception of a frame, the main function,
an event of the application, disconnection, setting of MTA and busy flag, event and
service packets, and changes of memory by the application.
`step c e o s` runs one call; `reaches c m l s o` says that from power-on with
target memory `m` the calls `l` lead to state `s` with output `o` (a list of
packets, each with header and data).

Undefined behaviour is an outcome of its own: `Ok a` or `UB why`, where `why` is
one of

| `why` | meaning |
| --- | --- |
| `OobTable`, `OobEntity`, `OobEvent`, `OobQueue`, `OobBuffer` | array accessed outside (command table, DAQ entity pool, event table, DTO queue, communication buffer) |
| `Assert` | a failing `assert` |
| `WildAddr`, `NullPtr` | address range leaves the address space or a pointer was truncated; null pointer |
| `KindPun` | union member of another kind of entity is used |
| `ShiftUB`, `IntOverflow`, `DivZero` | arithmetic without a defined result |
| `Deadlock` | a held non-recursive lock is acquired again |
| `Hang` | a loop that does not end |
| `Uninit` | an uninitialised byte decides what happens |
| `Exit` | the process ends |

A run that meets `UB` has no further states, so `reaches` speaks of executions free
of it.  C86 says, command by command, when this is the case (if and only if, where
stated); the `_refuted` theorems show reachable inputs on which it is not.

Critical sections: the state holds the list of held locks.  `enter` of a held lock is
`UB Deadlock` if the configuration says that locks are not recursive.

DAQ entities are unions in C.  An entity has a kind and a body (`BZero` all bytes zero,
`BHdr` count and first index, `BEnt` address and length); reading a body of the other
shape is `KindPun`.

## What is modelled, and by which file

| file | models |
| --- | --- |
| `Base.v` | bytes, wrap-around, buffers, target memory, outcomes |
| `Config.v`, `Cfgs.v` | macros of `inc/xcp.h`, call-backs; variations of the sample configurations |
| `Codec.v` | `src/xcp.c` 2152-2200: access to multi-byte values |
| `Checksum.v` | `src/xcp_checksum.c` |
| `State.v` | `Xcp_StateType`, buffers, DAQ tables, queue, checksum job, locks |
| `Queue.v`, `Daq.v` | `src/xcp_daq.c`, dynamic lists |
| `Predef.v` | `src/xcp_daq.c` and the DAQ commands, predefined lists, on top of `Core.v` |
| `Core.v` | `src/xcp.c`: sending, all command handlers, command table, dispatcher, main function, other API functions |
| `Util.v` | `src/xcp_util.c` |
| `Sxi.v` | `src/tl/sxi/xcp_tl.c` (receiving), `src/tl/xcp_tl_timeout.c` |
| `Eth.v` | `src/tl/eth/common.c`: receiving, TCP and UDP |
| `Net.v` | peers and connections: `src/tl/eth/common.c`, `linuxeth.c` on top of `Core.v` |
| `Can.v` | `src/tl/can/linux_socket_can.c` |
| `Ino.v` | `src/tl/can/arduino_can.cpp`: interrupt routine at any point of the main loop (board without filters) |
| `Iocp.v` | `src/tl/eth/wineth_iocp.c`: completions (bytes, end of stream, sent), peers, UDP and TCP |
| `Kv.v` | `src/tl/can/kvaser.c`: notification, filter, transmission |
| `CanBus.v` | the two CAN transport layers around the command processor: traffic on the bus, frames sent |
| `Conc.v` | two threads, programs of single accesses to shared variables, any schedule |
| `Race.v` | `Xcp_SendCto`, `Xcp_SendDto`, `Xcp_UploadSingleBlock`, `XcpTl_Send` (Linux Ethernet) as such programs |
| `Ring.v` | `XcpDaq_QueueEnqueue`, `XcpDaq_QueueDequeue` as such programs |
| `Sampler.v` | `XcpDaq_TriggerEvent` access by access, operations of another thread between any two |
| `Flsemu.v` | `flsemu/common.c`, `flsemu/posix/flsemu.c` |
| `FlsWin.v` | `flsemu/common.c` with `flsemu/win/flsemu.c`: selecting pages, mapping; `FlsEmu_DeInit`; `Xcp_CopyMemory` with the address mapper of xcpsim |
| `Tcp.v` | `src/tl/eth/common.c` `XcpTl_MainFunction` with TCP: accept, read (`Eth.v`), dispatch (`Net.v`, `Core.v`), next peer; the bytes that `XcpTl_Send` gets into the stream |
| `Live.v` | the same receive path frame by frame, with `XcpTl_Send` of `linuxeth.c`, `wineth.c` and `winbt.c` when `send()` fails |
| `Serial.v` | `Sxi.v` and `Core.v` together: the slave behind the serial transport layer, with `Xcp_CtoIn.data` inside the receiver's buffer |
| `Stats.v` | `src/hw/terminal.c` 258-264: the statistics in the system information |
| `Options.v` | `src/hw/options.c`; the use of the options in `linuxeth.c`, `common.c`, `wineth.c`, `linux_socket_can.c`; `getopt` and `atoi` after POSIX and C |
| `Program.v` | `src/hw/threads.c`, `examples/xcpsim/main.c`: threads, shutting down; `src/hw/terminal.c`: keys (POSIX) |
| `Show.v` | `src/hw/terminal.c` 304-404: `XcpDaq_PrintDAQDetails`, `XcpDaq_Info` (text as a list of lines, without rulers) |
| `Job.v` | `xcp_checksum.c` 328-388 and the command dispatcher as two threads of single accesses (on `Conc.v`) |
| `Mac.v` | `src/hw/macos/hw.c`: the two timers, the clock without a value |
| `Posix.v` | `src/hw/posix/hw.c`: life of locks, condition variable and mutex |
| `Cpp.v` | conditional compilation: include guards, `extern "C"` blocks, choice of debug build and transport in `inc/*.h`, `tools/xcp_config.h`, `examples/xcpsim/xcp_config.h`, `sxi/xcp_tl.c`, `arduino_can.cpp`, `xcp_util.c`; C's preprocessor as far as they use it |
| `Checks.v` | `inc/xcp.h` 66-251: the checks on a configuration (#error) and the macros they redefine |
| `CInt.v`, `CExpr.v` | integer arithmetic of ISO C; expressions of `xcp.c`, `xcp_checksum.c`, `xcp_daq.c`, `xcp_macros.h`, `sxi/xcp_tl.c`, `eth/common.c`, operator by operator |
| `Amalgam.v` | `tools/amalgam8.py`; `graphlib` and `pathlib` as far as it uses them |
| `Hw.v` | `src/hw/linux/hw.c`, `src/hw/win/hw.c`: clocks; `src/hw/posix/hw.c`: signalling |
| `Units.v` | `XCP_DAQ_TIMESTAMP_UNIT` in `src/hw/linux/hw.c`, `src/hw/win/hw.c`, `src/hw/arduino/hw.cpp`: which units compile, the clock compiled |
| `Clocks.v` | `src/hw/linux/hw.c`: starting time and later readings from two clocks of the system |
| `Signals.v` | `src/hw/linux/hw.c`: the timer signal; what it does to `src/tl/eth/common.c` and `src/tl/can/linux_socket_can.c` |
| `Addr.v` | `src/tl/eth/common.c`, `linuxeth.c`: addresses of UDP peers, as bytes |
| `Xcpsim.v` | `examples/xcpsim/app_config.c` 90-117: seed and key |

Every definition cites the lines it models.  Deviations from the text of the code are
marked `Simplification` in the comment of the definition; the important ones:

* target memory is a total map from addresses to bytes, and disjoint from the slave's
  own variables and buffers;
* `Xcp_GetDWord` computes `h * 0x10000` in `int`-promoted arithmetic, which overflows
  formally for values from 2^31 on; the model of the slave computes the value all
  compilers give; the same holds of `1 << 31` in the checksum module.  `CInt.v` and
  `CExpr.v` evaluate these and other expressions by the rules of C; C146-C150 say where
  they are defined, and that the model has the same values there;
* operations are atomic: two threads inside the slave at once are modelled for
  transmission, the queue, sampling and background checksums only (`Race.v`, `Ring.v`,
  C100-C104; `Sampler.v`, C134-C136; `Job.v`, C140-C142: sequentially consistent memory,
  each access to a variable or byte is one step, no reordering by the compiler);
  elsewhere locks are tracked (C50), `Hw.v` models the waiting thread (C72) and `Ino.v`
  the interrupt routine (C91-C93);
* alignment of pointers is not modelled;
* operating system calls (sockets, CAN, files) do not fail in other ways than stated
  in the files that model them.

## What is not modelled

* builds with predefined and dynamic DAQ lists at once (they do not compile: functions
  without return value), STIM (not supported by the code), PAG commands,
  SET_REQUEST, READ_DAQ (the repository has no definition of these functions, such
  builds do not link; with the option off the answer is ERR_CMD_UNKNOWN, as modelled);
* debug output, the texts of the user
  interface (except those of `Stats.v` and `Show.v`), tools (except `Amalgam.v`);
* opening of sockets on Windows without completion port
  (`wineth.c`) and for Bluetooth (`winbt.c`; both use the receive path of `common.c`); the
  hardware layer for Arduino; opening and flushing files in the Windows part of the flash emulation.

## Statements and proofs

A group of properties consists of `Spec<Group>.v` (vocabulary of the statements,
independent of the helpers of the model), `Proofs<Group>*.v` and `Properties<Group>.v`.
The last contains the theorems, each closed by a reference to a lemma, with `Print
Assumptions` beneath and a concrete case beside it (definitions for the cases are in
`Demo*.v` and `Cases*.v`).  What the basic vocabulary of
`Spec.v` means is defined by frames received and sent: `answers c e f s bs s1` (the
frame `f` is answered with exactly the payload `bs`), `refuses` (with an error code and
without any other change), `ready`, `locked`, `measuring`, `programming`.

Properties that the code does not have are kept as properties.  Their theorem ends in
`_refuted`; wherever possible it is not one counterexample but says for *all* inputs of
a class that the claim fails, together with a theorem for the complementary class.

| properties | method |
| --- | --- |
| C01-C06 | inversion of every handler (`Handlers.v`, `HResp.v`), induction over runs |
| C07-C09 | invariant of runs; an independent receiver splits the byte stream (`SpecFrames.v`) |
| C10, C11 | arithmetic of the codec in both byte orders |
| C12-C19 | invariants over stretches of runs; effects of every handler on protection and programming state (`HSpec.v`) |
| C20-C31, C85 | exact effect on memory, MTA and output; block transfers by induction on blocks with interleaved operations |
| C32-C38, C66 | abstract configuration (tree of lists, ODTs, entries) and representation relation; simulation over allocation histories |
| C39-C45, C51, C52 | sampling defined on the abstract configuration; refinement of the queue to a list |
| C46-C49 | polynomial division over bit lists, table correctness, induction over the message; composition over chunks |
| C50, C53 | lock invariant; exact packets |
| C54, C55, C65 | loops as structural recursion, specification of numerals |
| C56-C58 | byte-fed automaton, induction over the stream |
| C59, C60, C73, C74, C77 | results of recv() as arbitrary portions, induction; peers |
| C61, C62, C70 | exact effect on the file, after any history of calls |
| C63, C68, C69, C72 | arithmetic with wrap-around; two threads and a mutex |
| C64, C67, C71, C75, C84 | CAN: padding, filters, buffers, identifiers |
| C76 | seed and key of the example |
| C78-C83 | exact answers in all states |
| C86 | definedness of every command, main function and event, lifted to runs |
| C91-C93 | main loop as single steps, interrupts between any two; induction over schedules |
| C94-C96 | completions of the port as events; the receive buffer split into header and frame |
| C97-C99 | bitwise reasoning about identifiers; induction over frames |
| C100-C104 | rely-guarantee reasoning for all schedules; for refutations, schedules composed of stretches of either thread |
| C105-C108 | arithmetic; invariant over all sequences of calls (where each view is, what it shows); the place of a view is an input |
| C109 | program logic for dialogues (command, then response): one rule per command, from C32-C39; induction over the tables; then C43 for the samples |
| C110-C111 | refinement: the loops around accept() and recv() against the run of the commands, by induction over the peers; length of a decoded stream |
| C112 | refinement: bytes, idle calls and other operations against the run of whole commands, by induction over the events; every operation commutes with a change of the receive buffer |
| C113 | no handler but the busy path emits ERR_CMD_BUSY (case analysis over the command table); induction over runs; runs of any length for the witness |
| C114-C116 | round trip from rendered command lines, by induction over their parts |
| C117 | invariant over event sequences |
| C118 | induction over the displayed lists, ODTs and entries, on the representation invariant of C34 |
| C119 | forward simulation between a reference slave (`SpecRef.v`, about 65 rules) and the model; determinism of the reference by case analysis |
| C120, C121 | composition of the simulation of C119 with the stream theorems C110 and C112; induction over peers |
| C122, C123 | ways to leave as an inductive predicate, induction over peers; frame-by-frame execution refines the reading ahead of `Tcp.v`; induction over frames for the position of the failure |
| C124, C125 | induction over the input; four threads under arbitrary schedules, invariant by program counter |
| C126-C129 | simulation of C119 up to the contents of the receive buffer; induction over the traffic |
| C87-C90 | invariant of runs of the slave with predefined lists; refinement of the tables to a tree |
| C130 | definedness in the build with predefined lists: the lemmas of C86 for any state that meets the invariant, lifted to runs |
| C131 | simulation of C119, extended by a task beside the state (`SpecTask.v`); the state without its task is related as in C119 |
| C132 | the traffic is read as a list of operations (`SpecConvey.v`); induction over the traffic, each frame one receive |
| C133 | C131 behind C132, behind the serial line's `weave` (C118), and behind the completion port with a run of its own (`port_run`) |
| C134-C136 | invariant of the sampling loops (what is copied, queued, sent) kept by every access and every harmless operation; refutations by explicit interleavings from any measuring state |
| C137 | invariant of the queue of Kahn's algorithm (`left` counts the predecessors not yet handed out); nodes left over have a cycle by a walk in a finite set |
| C138 | induction over the lines; every text has a division into sections (`divide`) |
| C139 | no entry of the stop lists has a slash, every path with two parts has one |
| C140-C142 | rely-guarantee with a bound on the accesses left (`go`), job described by the number of calls done; refutations by explicit schedules from any state; waiting forever as an invariant of all schedules |
| C143 | tables with unreferenced entries as an invariant of repeated ALLOC_ODT_ENTRY; refutation for any state with ODTs by following the pool slots through five commands |
| C144, C145 | dialogues as predicates that compose (as for C109) over the states of the predefined-list model; series of events by induction with the queue position as measure |
| C146-C150 | expressions as syntax trees, evaluated by a function with C's promotions, conversions and undefined cases; one rewriting lemma per operator; CRC loop by induction against the model's loop |
| C151 | invariant over interleavings of ticks and cancellation handlers |
| C152 | equality of executions under two clocks, entry by entry of the command table; induction over histories |
| C153 | invariant of object states over histories of calls |
| C154-C157 | every list of headers, by an invariant over the list; the finitely many preprocessor states (up to agreement on the names that are read) by evaluation |
| C158-C160 | the checks as a function on macro values; one specification per group of lines, composed; what they guarantee is compared with `wf_cfg` (not guaranteed, but assumed there: MAX_CTO and MAX_DTO of at least 8 except on CAN, at most 255 events, DOWNLOAD_NEXT only with master block mode, ranges of address and chunk sizes) |
| C161, C162 | the macro as a function of the unit, all values; the clocks of C68 and C69 composed with the answers of GET_DAQ_RESOLUTION_INFO and GET_DAQ_CLOCK in the slave model |
| C163 | CLOCK_MONOTONIC_RAW counts nanoseconds, CLOCK_MONOTONIC differs from it by an arbitrary function of time; the counter of 64 bits for negative differences, then the readings |
| C164 | the timer signal as a failing call at an arbitrary place: induction over the number of signals in a pause; the main loop of C122 with accept() interrupted |
| C165 | the byte strings of the addresses next to the numbers of peers in `Net.v`; a simulation over all histories, once for each of the ways in which addresses are cut off |

## Trusted base

* Coq's kernel, 8.16.1.
* Axioms: none.  `Print Assumptions` beneath every theorem of `Properties*.v` prints
  "Closed under the global context".  (`coqchk` lists fields of the module
  `Coq.ssr.ssrunder.Under_rel`, parts of the standard library that are loaded with `Lia`
  and not used by any theorem.)
* The correspondence of definitions and C text is by inspection; so is that of the
  English statements and the theorems.  `seeded/LOG.jsonl` records how the theorems
  react to realistic errors planted in the model.
