{
 "C01": [
  "proved",
  "handlers vs spec, all operands"
 ],
 "C02": [
  "proved",
  "handlers vs spec, all operands"
 ],
 "C03": [
  "proved",
  "handlers vs spec, all operands and counts"
 ],
 "C04": [
  "proved",
  "all operands"
 ],
 "C05": [
  "proved",
  "all operands"
 ],
 "C06": [
  "proved",
  "all operands"
 ],
 "C07": [
  "partial",
  "proved for the i64 and f64 sources; i32.trunc_f32_s/u proved except at one bit pattern each, where the code does not trap (refuted theorems give the witnesses)"
 ],
 "C08": [
  "proved",
  "all bit patterns"
 ],
 "C09": [
  "proved",
  "all bit patterns; rounding arithmetic (add, sub, ...) is host arithmetic and not part of the claim"
 ],
 "C43": [
  "proved",
  "all bit patterns"
 ],
 "C10": [
  "proved",
  "all in-bounds accesses of all variants"
 ],
 "C11": [
  "partial",
  "false of the code: refuted theorems show wrap-around access succeeding and out-of-bounds accesses unchecked. What holds (C11_load_partial, C11_store_partial, all operators, memories, addresses and offsets below 2^32): the access is the standard's at the address modulo 2^32 if that is in bounds, and undefined behaviour otherwise, never a trap"
 ],
 "C12": [
  "partial",
  "proved for every delta/size where the standard fails or succeeds below 2^15 pages; negative deltas, >=2^15 pages and i32 wrap refuted, with the exact outcome for every 32-bit delta in C12_every_delta_partial"
 ],
 "C13": [
  "partial",
  "functional correctness in bounds for every overlap; init traps exactly for n<>0; zero-length init and out-of-bounds copy/fill refuted, with their exact outcome for all operands (C13_no_bytes_partial, C13_outside_partial)"
 ],
 "C14": [
  "proved",
  "all histories"
 ],
 "C15": [
  "proved",
  "all histories; immutability of const globals is enforced by the external validator, not by this code"
 ],
 "C16": [
  "partial",
  "all histories and indices, with the exact outcome of every operation (C16_every_*); partial because table.fill with n = 0 out of range or i+n >= 2^32 does not trap (refuted)"
 ],
 "C17": [
  "partial",
  "proved for every table, index and signature at machine level; reaching an imported function through the table ends in an error (refuted)"
 ],
 "C18": [
  "proved",
  "all programs, reachable states, suspended frames and call depths"
 ],
 "C19": [
  "partial",
  "proved for the register assignments the translator emits at block ends (C19_block_results) and for all non-interfering copies; arbitrary overlapping lists are copied sequentially (swap refuted)"
 ],
 "C21": [
  "partial",
  "all valid straight-line bodies outside the fold defect; two operand producers before a unary operator are miscompiled (refuted)"
 ],
 "C22": [
  "proved",
  "C22_translation (translator, every operator, local, decoder state, whatever is pending) and C22_same_effect (machine, every state): the one instruction is the operator followed by the move, same traps, same locals, globals, memory and registers but the one the value went through. C22_in_context: whole straight-line bodies against the standard, under the limits of C21; other contexts: C23"
 ],
 "C23": [
  "partial",
  "all valid programs in the supported fragment (within) with no out-of-bounds access (clear); refuted outside (C21, C24, C25, C38, C40, C42, C26 refutations)"
 ],
 "C24": [
  "partial",
  "functions without results; with results refuted"
 ],
 "C25": [
  "partial",
  "selection and value transfer for every index, table and label at machine level; target = function body refuted"
 ],
 "C26": [
  "partial",
  "entry and return at machine level for all states plus whole-program correctness (C23); 9 or more results and reference-typed locals trap (refuted)"
 ],
 "C27": [
  "proved",
  "all translated modules, all states runs can start from (fresh or restored), all environments"
 ],
 "C28": [
  "partial",
  "all translated modules and any number of checkpoints whenever tables and data segments are unchanged at the checkpoint; unconditional for modules without table.get/set/fill and data.drop; false otherwise (C29)"
 ],
 "C29": [
  "partial",
  "memory, globals, registers, frames proved to survive; tables, dropped segments and references refuted"
 ],
 "C30": [
  "partial",
  "bounded with the monitor thread, and within one activation with file polling; refuted for file polling across activations"
 ],
 "C31": [
  "partial",
  "proved when one frame was active; refuted inside called functions"
 ],
 "C36": [
  "partial",
  "all write histories; set_val on a v128 register is a no-op (refuted)"
 ],
 "C37": [
  "proved",
  "any dead code, valid or not, in any supported module without undefined behaviour at run time"
 ],
 "C38": [
  "partial",
  "proved for blocks whenever the translator's way of counting finds the values (C38_found: exactly when; always for values of one class, C38_one_class) and, to loops, for parameters of any types already in place (no other operand of their classes above the loop's bottom), by br, br_if and br_table; refuted otherwise: other mixed-type results, displaced loop parameters"
 ],
 "C39": [
  "proved",
  "all modules, environments, fresh and restored states"
 ],
 "C40": [
  "partial",
  "select at machine level for all operands; select of references refuted; drop/tee inside C23"
 ],
 "C41": [
  "proved",
  "budget independence and both dispatchers"
 ],
 "C42": [
  "partial",
  "refuted: more than 65536 locals are silently miscompiled; C42_modest: below a limit on the source (stack heights and locals) every register number fits, and such functions are covered by C23"
 ],
 "C44": [
  "proved",
  "all translated bodies"
 ],
 "C45": [
  "proved",
  "all executions of translated modules"
 ],
 "C46": [
  "proved",
  "all programs and executions; after restore for every frame"
 ],
 "C33": [
  "partial",
  "the split of every argument line is proved; an empty argument or one containing a quote cannot be expressed at all (refuted), so the quoted form reaches only the arguments it can express"
 ],
 "C34": [
  "partial",
  "sizes exact; args_get proved for all argument lists and layouts, except that the four bytes after the pointer array are also overwritten (refuted)"
 ],
 "C35": [
  "partial",
  "proved whenever no address computation reaches 2^32 and there are fewer than 2^28 iovecs; beyond that refuted (host memory read outside the guest's; panic)"
 ],
 "C47": [
  "partial",
  "sizes exact; environ_get proved for all replies and layouts, except that the four bytes after the pointer array are also overwritten (refuted)"
 ],
 "C48": [
  "partial",
  "exact for tables and buffers inside memory; a buffer outside is not refused (refuted)"
 ],
 "C49": [
  "partial",
  "exact for every path without a zero byte; a path with one is cut there (refuted)"
 ],
 "C50": [
  "partial",
  "arguments, results and names proved for all functions but proc_raise (never reaches the host), sock_recv/sock_send (raw guest table passed on), and modules without memory: these are refuted"
 ],
 "C32": [
  "partial",
  "Holds for modules importing only WASI functions, with function-index element segments and without ref.func globals, memory below 32768 pages (C32_instance_partial, C32_no_fit_partial). Refuted beyond: the start function is never run, expression element segments are dropped, ref.func globals fail, other imports abort, empty out-of-range element segments are accepted, active data segments are not dropped, 65536 pages wrap to none."
 ],
 "C20": [
  "partial",
  "Slot counts never shrink: for all operator sequences from all states (C20_monotone). Every register and local named lies in the frame: all valid functions within 16-bit indices, except select on references and the final end of a body that cannot fall through (C20_slots_partial); both exceptions are refuted. C20_source_partial: the same with conditions on the source program only."
 ],
 "C51": [
  "proved",
  "All valid modules without vector values or reference globals in live code; WASI imports have at most one result. Vectors and reference globals are refuted (rejected by the code)."
 ],
 "C52": [
  "partial",
  "C52_loaded_partial: a file presenting a valid module (known operators, the loader's means of C32) gives that module's instance; unknown versions are not run. The other half is refuted: main ignores the loader's error and runs a partly loaded module, functions without code doing nothing (C52_incomplete_refuted, C52_placeholder_refuted)."
 ],
 "C53": [
  "partial",
  "Refuted: nothing is validated. Files with surplus results run, missing results or locals are undefined behaviour, and the declared type of a WASI import is never looked at (for all files). No positive part holds beyond the translator's own refusals."
 ],
 "C54": [
  "partial",
  "C54_status_partial: proc_exit code and last result, for all programs of C56. Refuted for failures: a trap, or a wrong number of parameters, exits with status 0."
 ],
 "C55": [
  "partial",
  "Exactly the numerals of the type are accepted, well-written lists of parameters are read back, malformed integers are refused. Refuted: other texts are dropped silently and types are not compared with the function's."
 ],
 "C56": [
  "partial",
  "Loader, translator, instantiation, run loop (both dispatchers) and reporting composed, for the programs and runs of C23 and the modules of C32 without start function. Missing: those restrictions."
 ],
 "C57": [
  "partial",
  "C57_steps holds for all modules, states and prefixes whose calls are acceptable (proper). C57_transparent_partial composes it with C56: terminating runs of the standard's semantics, under C56's restrictions (one result, within, modest) and proper calls; proper excludes what the WASI layer gets wrong elsewhere (C49 zero bytes in paths, C50 sock_recv/sock_send/proc_raise, C34/C47 word after argv)."
 ],
 "C58": [
  "partial",
  "C58_host_calls_partial: standard and machine have the same host-call histories (both directions, non-terminating runs included), for programs within the restrictions of C23 (within, small, clear); C58_main_partial: the same for the whole program main, under C56's restrictions; C58_transparent_partial: on a WASI host through the interpreter's WASI layer, for histories of proper calls (C57). Missing: the programs these restrictions exclude."
 ],
 "C59": [
  "partial",
  "C59_read_back and C59_distinct: every state whose values are of their types (state_ok), byte for byte (bincode modelled; LZ4 any lossless compressor), for files of length below 2^32. C59_states: every state at which any program is stopped is such a state (C59_later_states_partial: also in later processes, for movable programs). C59_processes_partial, C59_end_to_end_partial: any number of processes; missing: programs with table.get/set/fill or data.drop (false: C29) and the restrictions of C56"
 ],
 "C60": [
  "partial",
  "proved: a file cut short anywhere is refused, so a crash leaves the old, the new or a refused file; refuted: that one of the two checkpoints survives"
 ],
 "C61": [
  "partial",
  "proved: what is resumed is the encoding of a unique state; refuted: one changed byte, trailing bytes, a checkpoint of another program and another number of globals are accepted"
 ],
 "C62": [
  "partial",
  "proved for movable programs, in whichever process; refuted for a program holding a function reference: it is ended, without file, with status 0; no condition on the state (only that the file is shorter than 2^32 bytes)"
 ],
 "C63": [
  "partial",
  "proved: moving is invisible exactly if the new process' host goes on where the old one stopped; refuted: open descriptors are not carried over"
 ],
 "C64": [
  "partial",
  "C64_whole_partial: all components composed, under the restrictions of C56 (fragment of C23, modules of C32), C57 (proper calls) and C59 (programs that can be moved), for terminating runs; missing: what these restrictions exclude (refuted there)"
 ],
 "C65": [
  "partial",
  "C65_moved_partial (any host) and C65_server_partial (WASI host, argument line): all prefixes of the host calls of ending and non-ending runs, under the restrictions of C58, C57 (proper calls) and C59 (programs that can be moved); what these exclude is refuted there"
 ],
 "C66": [
  "proved",
  "C66_registers (every module), C66_bounded, C66_checkpoints, C66_file; sizes count entries (bytes in C66_file); the Rust allocator's spare capacity is not modelled"
 ],
 "C67": [
  "partial",
  "C67_checked_partial: for every file that passes the computable check Accept.admit_moved (proved sound: admit_sound, admit_moved_sound; it decides validity, the restrictions of Restrict.v, ranges and segments) the conclusion of C64 holds with no other hypothesis on the file. C67_sched_yield_partial: instance for tests/wasi/sched_yield.wasm, a compiled Rust program of 197 functions, on every host. All 24 compiled programs in tests/wasi and 54 of the 56 modules the test-suites load pass the check (ConfSpec.v, DESIGN.md). Missing: programs outside the check, and the run-time condition clear (computed to hold for sched_yield on one host in ConfProgram.v). C67_server_partial: the same for every prefix of the calls of programs that do not end (C65)."
 ],
 "C68": [
  "partial",
  "C68_errno: every nonzero error number of the host arrives, for all functions, memories and replies. C68_ends_partial, C68_host_partial: with texts, tables and buffers in memory every call but proc_exit and proc_raise returns a number. C68_fault_refuted: fd_write with a buffer outside memory ends the program, with status 0, instead of giving it error 21 (the other functions hand the pointer to the host unchecked: C48, C35)."
 ],
 "C69": [
  "proved",
  "C69_code (any operator sequence), C69_functions and C69_registers (any module with imports before definitions, which the binary format imposes); example meeting both bounds exactly. Sizes of single instructions (register lists of calls and branches, br_table targets) are not counted."
 ],
 "C70": [
  "proved",
  "C70_outcome, C70_termination, C70_fixed_size (machine, modules within Restrict.within that compile), C70_calls_before (calls before a fault), C70_command and C70_server (the whole command on every file accepted by Accept.admit_moved and by the computable check steady: no locals of reference type, no imported function in a table or no imports), C70_sched_yield (one compiled Rust program on every host). The in-bounds condition is on the standard's run (BoundsSpec.below_2GiB, at_bound). C70_bound_refuted: the bound condition is needed."
 ],
 "C71": [
  "proved",
  "C71_arithmetic: exact arithmetic on bit patterns (Ieee.v, the model of Rust's primitives, which are IEEE 754's) meets RoundSpec.v (rationals and the decoding of Core 4.3.3, no axioms, no Flocq); C71_determined: RoundSpec.v leaves only NaN patterns open; C71_instructions: the handlers, on every host whose primitives meet RoundSpec.v; C71_exact: promotion, demotion after it, small integers. That rustc's code for these primitives is IEEE 754 is trusted (it is WebAssembly's own instruction set on chiwawa's target)."
 ],
 "C72": [
  "proved",
  "C72_same_execution: every prefix without such an instruction is equal step by step; C72_moved: the run loop with any checkpoints and machines in between has exactly the outcomes of the undisturbed run on the first machine (carried: tables and data segments at a checkpoint as at the start, since checkpoints do not keep them, C29); C72_nan_visible: two machines meeting the standard on which a program returns different integers. C72_example: a loop adding tenths, stopped twice on the second machine. standard_fp is RoundSpec.v's reading of Core 4.3.3 (C71). C72_processes: a whole history of processes, each on a machine of its own: every session is, schedule by schedule, what it is on the first machine (same report, same checkpoint file). C72_command: composed with C70_command, the last process reports what the standard prescribes for the first machine; C72_command_example stops ten times 0.1 on one machine and finishes it on another. C72_standard, C72_report: the condition put on the standard's own run for one machine only (without_nan of NanSpec.v: the run is undefined where such a NaN appears): the standard prescribes the same run for every machine, and every machine, with any history of stops on it, reports that outcome; chiwawa does not occur in the condition. C72_report_example."
 ],
 "C73": [
  "proved",
  "C73_unchanged, C73_restored_unchanged: commands and restored commands report what they report without instrumentation. C73_output_file shows that the condition on the trace file is needed. That run does not use the probes is how the code is written (runtime.rs 201-425, dispatchers and handlers do not mention them), modelled by run_probes"
 ],
 "C74": [
  "partial",
  "C74_counts_partial: what is recorded is summarised right, for every sequence and map order. That what is executed is recorded is false of the code: nothing is (C74_zero_refuted), and a program ending by proc_exit gets no summary (C74_exit_refuted)"
 ],
 "C75": [
  "partial",
  "C75_selects_partial, C75_names_partial, C75_line_partial: every instruction of a translated body is selected if and only if its operator is asked for, named by its keyword and shown with the resources asked for, with the exceptions the refuted theorems name (imported calls, data.drop, local.tee of i32, the resource memory). That lines are written is false: C75_silent_refuted"
 ],
 "C76": [
  "proved",
  "C76_handlers: numbers read off the source by tools/indexes.py (Indexes.v), the translator's by Instrument.handler_index on the instructions of Decoder.translate; that the function of that name computes the operation is C01-C13 and C43"
 ]
}