# A Rocq model of oss-fun/chiwawa

chiwawa is a WebAssembly interpreter written in Rust, itself compiled to wasm32, that translates
function bodies into a register IR, executes them with a table of handlers, and can checkpoint a
running guest and restore it elsewhere.  This directory contains an executable Gallina model of that
code, a small independent specification (WebAssembly numerics, memory, structured control), and
theorems relating the two.

## Layout (rocq/theories)

Three kinds of files: **model** (each definition cites the Rust lines it models), **spec** (written from
the English property or the WebAssembly standard, never from the code), **proof**.  `Properties_*.v`
contain the property theorems, their witnesses (`Example`s showing the hypotheses are met) and, where the
code is wrong, `_refuted` theorems with a concrete program.

| file | kind | content |
|------|------|---------|
| `Word.v` | model | two's-complement words, Rust integer primitives (wrapping ops, casts) |
| `Numeric.v` | model | integer handlers (handlers.rs 372-690, 892-1276) |
| `WasmNum.v` | spec | integer numerics of the standard, on unsigned bit strings |
| `Float.v` | model | bit-level float handlers: comparisons, min/max, sign operations, truncations |
| `WasmFloat.v` | spec | the same from the standard: value of a bit pattern as a dyadic rational |
| `Value.v`, `Mem.v`, `Store.v` | model | values; linear memory, load/store, bulk operations, grow; globals, tables, segments |
| `WasmMem.v`, `StoreSpec.v` | spec | bytes at addresses; operation histories on globals/tables/segments |
| `Regs.v` | model | typed register file (regs.rs), register allocator |
| `IR.v`, `Machine.v` | model | register IR; handlers, operand resolution, frames, labels, calls, step function |
| `Decoder.v` | model | parser.rs: translation of operators, folding, register allocation, dead code, branch fixups |
| `Wasm.v` | spec | structured WebAssembly programs with a fuelled big-step semantics over abstract primitives |
| `WasmTyping.v` | spec | validation (standard, chapter 3) of structured programs |
| `Check.v` | proof device | `compile` (model: the translation of a whole module) and a syntactic checker used in proofs |
| `Restrict.v` | spec | `within`: the restrictions under which the translation is correct |
| `Loc.v`, `DecodeProofs.v`, `BasicSim.v`, `Sim.v`, `Dyn.v`, `Soundness.v`, `Correct.v`, `Agree.v`, `PrimFacts.v`, `ExecFacts.v` | proof | forward simulation from `Wasm.v` to `Decoder.v` + `Machine.v` |
| `FrameFacts.v`, `Layout.v` | proof | frame isolation; code layout, branch targets, label stacks |
| `Runtime.v` | model | both dispatchers, poll counter, monitor thread, checkpoint and restore |
| `SimState.v`, `RuntimeProofs.v`, `MigrationProofs.v` | proof | dispatch equivalence, checkpoint/restore simulation |
| `Args.v` / `ArgsSpec.v` | model / spec | command-line splitting, argv / environ layout |
| `Wasi.v` / `WasiSpec.v` | model / spec | WASI dispatch and passthrough / the preview-1 interface |
| `Module.v` / `ModuleSpec.v` | model / spec | instantiation (execution/module.rs) / the standard's instantiation |
| `StaticSpec.v` | spec | the registers and locals an instruction names |
| `TotalSpec.v` | spec | operators the translator has |
| `Load.v` / `LoadSpec.v` | model / spec | payload loop, main.rs / the sections a module is presented by, decimal numerals, reports |
| `World.v` / `WorldSpec.v` | model / spec | WASI layer as host of the machine / the program on the operating system itself |
| `TraceSpec.v` | spec | histories of host calls of runs that need not end |
| `Codec.v` / `FileSpec.v` | model / spec | checkpoint files, main's restore branch / ranges, histories of processes, crashes, movable programs |
| `EmitProofs.v` | proof | translated code contains only operators and constants of the source |
| `EmitTyped.v`, `RangeProofs.v` | proof | values, offsets and label targets stay in the ranges of their Rust types |
| `WholeProofs.v` | proof | the WASI functions return numbers and bytes |
| `MoveProofs.v` | proof | runs and histories with hosts that agree; calls in a history were made |
| `SizeSpec.v` | spec | what is counted: calls in progress, registers, locals, open blocks |
| `SizeProofs.v` | proof | register file = slots of the calls in progress; labels and locals bounded by the code |
| `Accept.v` | proof device | computable check of all conditions on a module file (validation algorithm, sections, segments, ranges), proved sound |
| `BoundsSpec.v` | spec | when a run prescribed by the standard stays within bounds |
| `Bounds.v` | proof | such runs meet none of chiwawa's divergences (C70) |
| `Program.v` | data | tests/wasi/sched_yield.wasm, a compiled Rust program, as a term (written by `tools/program.py`) |
| `ConfProgram.v` | conformance | that program run by the model and by the specification |
| `Ieee.v` | `handlers.rs` 731-880, 1047-1110 (the Rust primitives called there) | exact IEEE 754 arithmetic on bit patterns, a concrete host floating point (`ieee_ok`: it meets `hostfp_ok`; C71: it is the standard's) |
| `RoundSpec.v` | - | specification: the operators of Core 4.3.3-4.3.4 that round, over the rationals |
| `RoundProofs.v`, `Properties_Ieee.v` | - | C71 |
| `NanSpec.v` | (specification) | executions that make no NaN; programs carried between machines |
| `PortProofs.v`, `Properties_Port.v`, `Properties_Across.v`, `Properties_Nan.v` | - | C72 |
| `Indexes.v` | model (generated by `tools/indexes.py` from handlers.rs, stats.rs, trace.rs) | the constants HANDLER_IDX_*, the tables of `select_handler`, the names of instructions |
| `Instrument.v` / `InstrumentSpec.v` | model / spec | handler_index, stats.rs, trace.rs, the command with its instrumentation flags / keywords of the text format, names of handler functions, what counting and selecting means |
| `InstrumentProofs.v`, `Properties_Instrument.v` | proof | C73-C76 |
| `ConfTests.v`, `ConfModel.v`, `ConfSpec.v` | conformance | the repository's own tests as terms (generated by `tools/conform.py`); the model and the specification run on them |
| `Examples.v` | witnesses | small programs used to show hypotheses are met |

## Modelling conventions

* `usize` is 32 bits: chiwawa is built for wasm32-wasip1 (README, `.cargo/config`).  Where arithmetic
  on `usize` can wrap, the wrap is in the model.
* Rust `i32`/`i64` registers are modelled as signed integers in `Z`; the Wasm specification side uses
  unsigned residues, so signedness mistakes are visible.
* Floats are bit patterns.  Rounding arithmetic (+ - * / sqrt, int-to-float, demote/promote, and the
  integral roundings) is host arithmetic: a record of functions over which theorems quantify.
  Comparisons, min/max, sign operations and truncation to integers are modelled bit-exactly.
* A Rust panic, integer divide trap or `unreachable` in the wasm32 build is a host trap: `Trap`.
  An unchecked access outside a vector (undefined behaviour in the Rust source) is the distinct value
  `UB`: no theorem treats it as success.
* `&mut` becomes a returned new value.  Loops that need not terminate take fuel and report `OutOfFuel`
  distinctly.

## Properties

What is modelled and how it is proved.  Statuses and remaining gaps are in `MANIFEST.json`.  `refuted`
marks what the code violates: a `_refuted` theorem exhibits a valid program (or input) for which the
model of the code does something else than the property says, and a positive theorem covers the rest.

* **C01-C06** integer numerics: `Numeric.v` against `WasmNum.v`; equalities for all in-range operands.
* **C07** `i32.trunc_f32_s/u` refuted at 2^31 / 2^32 (the bound `i32::MAX as f32` rounds up); the other six, and all other inputs, proved.
* **C08** from the dyadic value of the bit pattern. **C09** at bit level.
* **C10** over byte lists, all widths. **C11** refuted (no bounds check; address arithmetic wraps); what holds without wrap is `C10` and the C11 partial theorems.
* **C12** refuted for huge deltas (i32 wrap), negative deltas and 2^15 pages up; proved otherwise, and the exact outcome of every 32-bit delta is a theorem (C12_every_delta_partial).
* **C13** memmove/fill/init exact in bounds for every overlap; zero-length init and out-of-bounds copy/fill refuted. The exact outcome outside that part is a theorem too (C13_no_bytes_partial, C13_outside_partial).
* **C14-C16** histories by induction on operation lists; C16_every_* give the outcome of every table operation and history, void fills included. **C17** case analysis of the call_indirect handler for all tables and indices.
* **C18** invariant over every step of the machine: suspended frames are untouched.
* **C19** copy lemma for the register lists block ends use; arbitrary lists are copied sequentially (swap refuted).
* **C20** invariant over every decoder step; bounds of all indices by induction over the structured body.
* **C21-C26, C37, C38, C40, C42** forward simulation from structured WebAssembly to the IR machine, by induction on fuel and on the program, for any caller, any host. Each restriction in `within` is forced by a `_refuted` program.
* **C22** also by itself: the decoder's case of a folded destination against the two cases taken one by one, and the machine's step against the two steps, up to the register in between.
* **C27** both dispatchers iterate the same handler function: bisimulation on translated code from any reachable state.
* **C28** the restored state is related to the checkpointed one by a simulation preserved by every step, hence equal futures, any number of checkpoints. **C29**, **C31** refuted in part.
* **C30** bound on the number of steps before a request is honoured; refuted for file polling across activations.
* **C32** instantiation against the standard's; start function, expression segments, reference globals, non-WASI imports refuted.
* **C33** splitting of a command line against a declarative grammar. **C34, C47** byte layout of argv / environ. **C35, C48** scatter/gather. **C49** paths. **C50** every WASI function against the preview-1 signature table.
* **C36** typed register laws over all write histories. **C39** polling disabled. **C41** budget independence. **C43** direct.
* **C44** every branch of translated code lands after the matching end or on the loop header. **C45** label stacks along executions. **C46** cached memory pointer.
* **C51** translation succeeds: induction over the structured body, with the allocator invariant; fixups cannot fail. The same induction bounds the registers (C42_modest).
* **C52** the loader (Load.v: payload by payload, partial loads kept) against LoadSpec.presents (the sections of the binary format in order), by induction over the sections and the code entries; composed with C32. **C53, C54, C55** main.rs on top of it; parameters against an inductive definition of decimal numerals. **C56** composition of C52, C32, C51, C23, C41.
* **C57** WASI layer (Wasi.v) plugged in as the host of the machine (World.v `passthrough`), against the standard's execution with an arbitrary operating system as WASI provider (WorldSpec.v `direct`): both hosts answer alike on every log of acceptable calls (induction over the log), hence every prefix of the run is the same; composed with C56.
* **C58** TraceSpec.v: a host that ends the program at its k-th call makes the history of calls observable for runs that never end (`stopping`), and `next_call` is the call the machine is about to make. Proof (TraceProofs.v): the stopped run of the standard is the run or has been stopped (induction over budget and code), so it stays clear; the machine's run up to its k-th call does not depend on the answers from that call on; then C23 for the stopping host. Lifted to `main` (MainProofs.main_machine) and, with C57's agreement of hosts, to the WASI layer.
* **C59** Codec.v: the checkpoint file byte by byte (bincode 1.3 of `SerializableState`) as a term of a small library of codecs, each proved to read back what it wrote whatever follows, to refuse every proper prefix, to read more input alike and to accept only what it would write (CodecProofs.v); LZ4 is any pair of functions with `lossless`. That every reachable checkpoint meets `state_ok` (C59_states) is an invariant of the machine (RangeProofs.v: every operator, load, host answer and restore keeps values in their types, offsets below the register vectors, label targets within the code; EmitTyped.v: translated constants and branch targets are in range). Histories of processes (FileSpec.history) by induction, each step by C28 with its condition discharged from the source (EmitProofs.v: everything in translated code comes from an operator or constant of the source). **C60** from refusal of proper prefixes; the loss of the old file from the order of truncation and writing. **C61** canonicity of the codecs; refuted by concrete files. **C62** from C28's simulation. **C63** a process with an empty log and a host that goes on simulates one with the old log (every step commutes with adding the old log); refuted by a host with descriptors. **C64** composes C33 (argument line), C57 (WASI layer) and C59 (processes); what is added is that the interpreter's WASI functions on a host that writes bytes return i32 values and bytes (WholeProofs.v: an invariant of the programs of Wasi.v), so C59's conditions on the host hold. **C65** composes C58 (prefixes of host calls) with C59: runs of the runtime with hosts that agree on the calls made are the same (MoveProofs.v), so a history of processes is also one with the host that ends the program at a later call.
* **C66** SizeSpec.v counts entries. Invariant of the machine: the register vectors have exactly the slots of the calls in progress and the stack of saved offsets their partial sums (any module); labels are bounded by the nesting of the translated code (levels of C45), locals by the function. Transferred to the runtime through `rel`; the file by the length of every codec.
* **C67** Accept.v: the validation algorithm of the standard's appendix on structured code with unknown operand types in dead code, sound for the declarative rules of WasmTyping.v (for every stack described at the end there is one at the beginning); sections read in order; segments, exports, ranges; composed with C64. Applied to a compiled program (Program.v) by computing the check.
* **C68** Properties_Errno.v: the programs over host functions of Wasi.v, over all replies (`reach`): every reply with an error number is handed on; no end but a return, except proc_exit, under the readability of the arguments; refuted for a bad buffer of fd_write, from the file to the report.
* **C69** Properties_Linear.v: one instruction per operator by cases on the decoder; registers by an invariant of the decoder state: depth ≤ maximum, room for the parameters of every open block, and the potential (maxima plus results of the open blocks) grows by at most the operator's weight. Joined with C66_registers for executions.
* **C70** BoundsSpec.v states, on the standard's semantics alone, when a run is in bounds; Bounds.v: by induction on the budget and the code, the guarded run (Correct.guarded) equals the standard's run unless the latter traps at a bound or is huge; tables are an invariant (no imports in them). Joined with C23, C58, C67.

* **C71** RoundSpec.v: a number is how it compares with the rationals (so square roots need no reals); `rounded` = nearest candidate, ties to the even pattern, 2^limit standing for infinity, sign of zero. RoundProofs.v: magnitudes as integers in units of half the smallest subnormal; the candidate chosen by `nearest` is between the midpoints to its two neighbours (induction on patterns for monotonicity), hence nearest to all; uniqueness by betweenness; one lemma per operator. The division and square root keep enough digits and a sticky bit.
* **C72** NanSpec.v: `makes_nan` = the next instruction is one the host computes and its result is a NaN. By C71_determined two standard hosts agree on every non-NaN result, so they agree on each step of a NaN-free run whose values are in range (RangeProofs.v); the run loop with checkpoints follows as in C28. A second standard host (every NaN with the other sign) shows that the condition is needed. For whole commands (`across`, NanSpec.v: a history whose processes each have a machine of their own) the run loop simulates (csim/rel) an execution of the machine, along which freedom from NaNs and ranges are invariants, so two run loops agree round by round; where a session starts does not depend on the machine. `Properties_Nan.v` puts the condition on the standard's run: soundness of validation (Soundness.v, for any invariant the primitives keep; here `iok`, values and bytes in range) lets the primitives of one machine be exchanged for those of the other wherever the first makes no NaN.
* **C73** Instrument.v: Load.main with the instrumentation flags, features, warnings, tracer and statistics around it; the report equals Load.main's for every host that does not depend on the trace file (extensionality of the run loop in the host).
* **C74** the map as a list of entries in any order (`Permutation`), counters of 64 bits; induction over the recorded instructions, then a stable insertion sort. The command's own notes are computed for every run: the statistics are always empty, since nothing in the runtime calls `record_instruction`.
* **C75**, **C76** `translate_meant` (InstrumentProofs.v): by cases on the decoder and through its three fixup phases, every instruction of a translated body is a nop or has the operation of a source operator, in order; names, selection and table entry are then a finite case analysis over operations against the generated constants. The parser's choice of constant per operator was compared with parser.rs by a script (every `handler_index: HANDLER_IDX_X` stands in the case of operator X; exceptions: class variants, and LOCAL_SET for the tee of i32 and references, which are modelled).

## Trusted base

* The kernel of Coq 8.16.1 (with its `vm_compute` reduction, used for concrete programs).  No axiom:
  `Print Assumptions` says "Closed under the global context" for every theorem listed in `MANIFEST.json`
  (checked by `tools/assumptions.sh`).  Seven constants of the standard library's module
  `Coq.ssr.ssrunder` (fields of a sealed module type, loaded with ssreflect by `Lia`/`Zify` dependencies)
  are in the environment: no theorem uses them.
* The fidelity of the model files to the Rust text.  Each definition cites file and lines and states its simplifications.
  Evidence beyond reading (concrete runs, not proofs): `tools/conform.py` turns the repository's own tests (26 suites in `tests/*.rs`, 568 test
  functions, 4148 calls on the 56 modules in `tests/wasm`) into Coq terms by parsing the binaries and the test functions; `ConfModel.v` runs the
  model's loader, translator and both dispatchers on them and every asserted answer comes out (floating point by `Ieee.v`); `ConfSpec.v` does the
  same with the specification `Wasm.v`, so the specification is checked against the standard's test-suite independently of the model.  Left out: six
  `checkRange` calls over tens of thousands of addresses, and on the specification's side two `br_table` indices near 2^32 (unary numbers).
  `ConfSpec.v` also shows that all functions of these modules except loop.wasm 40, 41 and select.wasm 9, 10 lie in the fragment `Restrict.within`, and that
  all modules but these two meet every condition the theorems put on a file (`Accept.admit`).  The same check accepts each of the 24 compiled Rust programs
  in tests/wasi (197 to 529 functions each; one of them, sched_yield, is in the build: C67), and ConfProgram.v runs that one; all 24 also pass the check `steady` of C70.
* The specification files, which are short and do not import the model beyond the data types of values.

Modelled: `src/execution/{handlers, operand, ir, dispatch, dispatch_loop, dispatch_tco, regs, state, runtime, module, migration, mem, table, elem, global, data, value}.rs`,
`parser.rs` (operator translation, fixups, sections and the payload loop `parse_bytecode`), `structure/module.rs` (expected WASI types), `wasi/passthrough.rs`, `src/execution/{stats, trace}.rs`, `main.rs` (argument splitting, parameters, loading, running, reporting and exit status).

Not modelled, assumed or out of scope:
* `wasi/error.rs`'s texts (never shown), the percentages of `--stats` and the formatting of numbers in traces.
* wasmparser and its validator: theorems about execution assume a *valid* module (`WasmTyping.valid`), and decoding of the binary format is not modelled (a module is its syntax tree).
* Host floating point (+, -, *, /, sqrt, rounding, conversions from integers, demote/promote): a record of functions; theorems hold for every such record. `Ieee.v` computes one, proved to be the standard's (C71); that Rust's primitives are IEEE 754 is assumed.
* The WASI host: a function of the log of all previous calls; theorems hold for every host.
* lz4_flex: a pair of functions such that decompressing what was compressed gives it back (`lossless`); bincode is modelled (Codec.v). C59_read_back and C60 are about states in the ranges of the Rust types (`state_ok`); that reachable states are is proved (C59_states) from the module's file being in range (`in_range`: constants of their types, fewer than 2^32 functions and operators per body), the host's answers being of their types (`host_ok`) and the host's floating point being so (`hostfp_ok`). Files are assumed shorter than 2^32 bytes.
* The file system: a crash while a file is created and written leaves the old content or a prefix of the new one (`left_by_crash`).
* Threads: the monitor thread is a schedule (a function saying at which polls the flag is set); Rust's `Relaxed`/`SeqCst` orderings on one flag add nothing to that.
* Memory exhaustion of the host, stack overflow of the interpreter itself, `clap`, `regex`, UTF-8 conversion of arguments.
* Undefined behaviour: an unchecked access outside memory or a vector yields `UB`, after which nothing is claimed.
