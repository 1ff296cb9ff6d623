{"id": "C01", "title": "Integer add/sub/mul/and/or/xor", "statement": "For every pair of i32 (resp. i64) operands, the value a guest observes from add, sub, mul, and, or, xor is the WebAssembly result modulo 2^N, and none of them ever traps.", "quantifier": "all pairs of N-bit operands, N in {32,64}", "why_tests_cant": "2^64 / 2^128 operand pairs; wrap-around corners are a vanishing fraction.", "anchors": ["src/execution/handlers.rs: handle_i32_add..handle_i64_xor"]}
{"id": "C02", "title": "Integer division and remainder", "statement": "div_s, div_u, rem_s, rem_u trap exactly when WebAssembly says so (divisor zero; quotient unrepresentable for div_s) and otherwise return the truncating quotient or the remainder with the sign of the dividend; rem_s of MIN by -1 is 0 and does not trap.", "quantifier": "all operand pairs, both widths, both signednesses", "why_tests_cant": "Exhaustive operand space; the trap set must be exact in both directions.", "anchors": ["src/execution/handlers.rs: handle_i32_div_s, handle_i32_rem_s, handle_i64_div_u, ..."]}
{"id": "C03", "title": "Shifts and rotates", "statement": "shl, shr_s, shr_u, rotl, rotr use the shift count modulo the width, for every count including negative and over-wide ones, and agree with the WebAssembly bit-level definition.", "quantifier": "all values and all counts of both widths", "why_tests_cant": "Counts range over the whole word, not only 0..N-1.", "anchors": ["src/execution/handlers.rs: handle_i32_shl, handle_i32_rotl, handle_i64_shr_u"]}
{"id": "C04", "title": "Integer comparisons", "statement": "Each of eq, ne, lt, gt, le, ge (signed and unsigned) and eqz yields 1 if the mathematical relation holds between the operands read in the stated signedness and 0 otherwise, and the result is an i32 for both widths.", "quantifier": "all operand pairs, both widths", "why_tests_cant": "Signed/unsigned confusion shows only on operands of differing sign.", "anchors": ["src/execution/handlers.rs: i32 comparison macros, handle_i64_lt_u"]}
{"id": "C05", "title": "Bit counting", "statement": "clz, ctz and popcnt return the number of leading zeros, trailing zeros and set bits of the operand; clz 0 = ctz 0 = N.", "quantifier": "all operands of both widths", "why_tests_cant": "Exhaustive 2^64 domain.", "anchors": ["src/execution/handlers.rs: handle_i32_clz, handle_i64_popcnt"]}
{"id": "C06", "title": "Integer width conversions", "statement": "extend8_s/16_s/32_s, i32.wrap_i64, i64.extend_i32_s and i64.extend_i32_u keep the low bits and fill with the sign (or zero) as WebAssembly says; wrap after extend is the identity.", "quantifier": "all operands", "why_tests_cant": "Exhaustive domain.", "anchors": ["src/execution/handlers.rs: handle_i32_extend8_s, handle_i64_extend_i32_u, handle_i32_wrap_i64"]}
{"id": "C07", "title": "Trapping float-to-int truncation", "statement": "i32/i64.trunc_f32/f64_s/u trap exactly when the operand is NaN or its truncation is outside the target range, and otherwise return the truncation.", "quantifier": "all 2^32 / 2^64 float bit patterns, eight instructions", "why_tests_cant": "The boundary is one ulp wide: only specific bit patterns next to 2^31, 2^32, 2^63, 2^64 discriminate.", "anchors": ["src/execution/handlers.rs: handle_i32_trunc_f32_s, handle_i32_trunc_f32_u, handle_i64_trunc_f64_u"]}
{"id": "C08", "title": "Saturating float-to-int truncation", "statement": "trunc_sat never traps: NaN gives 0, values outside the range give the nearest bound, all others their truncation.", "quantifier": "all float bit patterns, eight instructions", "why_tests_cant": "Exhaustive bit pattern domain with one-ulp boundaries.", "anchors": ["src/execution/handlers.rs: handle_i32_trunc_sat_f32_s .. handle_i64_trunc_sat_f64_u"]}
{"id": "C09", "title": "Float min, max, abs, neg, copysign, comparisons", "statement": "min and max return NaN if either operand is NaN, order -0 below +0, and otherwise return the smaller/larger operand; abs, neg and copysign change only the sign bit for every pattern including NaN payloads; comparisons are false on NaN except ne, and treat +0 and -0 as equal.", "quantifier": "all pairs of bit patterns, both widths", "why_tests_cant": "NaN payloads, signed zeros and infinities across 2^128 pairs.", "anchors": ["src/execution/handlers.rs: handle_f32_min, handle_f64_max, handle_f32_copysign, handle_f64_lt"]}
{"id": "C10", "title": "Memory load/store round trip, endianness and frame", "statement": "A store of any width at an in-bounds address followed by a load of the same width returns the stored value (truncated and sign/zero-extended for narrow accesses); bytes are little-endian; every byte outside the written range keeps its value; memory size is unchanged.", "quantifier": "all addresses, static offsets, values, memories and all width/sign variants", "why_tests_cant": "Every address/offset/overlap combination.", "anchors": ["src/execution/handlers.rs: mem_load_handler, mem_store_handler", "src/execution/mem.rs: load_at, store_at"]}
{"id": "C11", "title": "Out-of-bounds accesses trap", "statement": "A load or store whose effective address range is not inside the current memory traps and has no other effect; effective addresses are computed without wrap-around.", "quantifier": "all addresses, offsets, memory sizes", "why_tests_cant": "Requires every address up to 2^33; a missing check is visible only as host memory corruption.", "anchors": ["src/execution/handlers.rs: mem_load, mem_store handlers", "src/execution/mem.rs: load, store"]}
{"id": "C12", "title": "memory.grow and memory.size", "statement": "memory.grow either returns the old page count, extends memory by exactly delta zero pages and keeps the old contents, or returns -1 and changes nothing; it fails exactly when the declared maximum or 65536 pages would be exceeded; it never shrinks memory and never traps.", "quantifier": "all deltas (as 32-bit values), all current sizes and maxima", "why_tests_cant": "Extreme deltas (>= 2^31) and full 4 GiB sizes are not tested.", "anchors": ["src/execution/mem.rs: mem_grow, mem_size", "src/execution/handlers.rs: handle_memory_grow"]}
{"id": "C13", "title": "Bulk memory copy, fill, init", "statement": "memory.copy behaves as if through an intermediate buffer for every overlap; memory.fill writes exactly the range with the low byte; memory.init copies the segment slice; all bytes outside the destination keep their value; a range outside memory or segment traps.", "quantifier": "all source/destination/length triples and memories", "why_tests_cant": "Every overlap configuration.", "anchors": ["src/execution/mem.rs: memory_copy, memory_fill, init", "src/execution/handlers.rs: handle_memory_copy, handle_memory_init"]}
{"id": "C14", "title": "data.drop", "statement": "After data.drop of a segment, memory.init of a non-empty range from that segment traps forever, other segments are untouched, and dropping twice is harmless.", "quantifier": "all histories of init/drop operations", "why_tests_cant": "History property.", "anchors": ["src/execution/handlers.rs: handle_data_drop, handle_memory_init", "src/execution/data.rs"]}
{"id": "C15", "title": "Globals", "statement": "global.get returns the last value written by global.set, or the initial value; a set of one global never affects another; immutable globals never change and the type of the stored value never changes.", "quantifier": "all histories of global operations", "why_tests_cant": "History property over arbitrary interleavings.", "anchors": ["src/execution/global.rs", "src/execution/handlers.rs: handle_global_get, handle_global_set"]}
{"id": "C16", "title": "Tables", "statement": "table.get/set/fill follow WebAssembly: get returns the last value set, other entries are untouched, out-of-range indices trap, and the table length never changes.", "quantifier": "all histories of table operations and indices", "why_tests_cant": "History and boundary property.", "anchors": ["src/execution/table.rs", "src/execution/handlers.rs: handle_table_get, handle_table_set, handle_table_fill"]}
{"id": "C17", "title": "call_indirect type safety", "statement": "call_indirect transfers control only to a function whose signature equals the immediate type; a null entry, an index beyond the table, or a differing signature traps before any side effect.", "quantifier": "all table contents, indices, and function types", "why_tests_cant": "All tables and signatures.", "anchors": ["src/execution/handlers.rs: handle_call_indirect", "src/execution/table.rs: get_func_addr"]}
{"id": "C18", "title": "Caller isolation across calls", "statement": "A call, however deeply nested and whatever the callee does to its own registers and locals, leaves every register and local of every suspended caller unchanged except the registers named to receive the call's results.", "quantifier": "all call trees and all callee behaviours", "why_tests_cant": "Arbitrary nesting depth and register counts.", "anchors": ["src/execution/regs.rs: save_offsets, restore_offsets", "src/execution/runtime.rs: Runtime::run"]}
{"id": "C19", "title": "Result and branch value transfer is a parallel move", "statement": "Values transferred at block ends and branches arrive unchanged and in order, even if source and destination storage overlap.", "quantifier": "all source and destination register lists produced for well-typed code", "why_tests_cant": "Overlap patterns depend on stack depth at the branch.", "anchors": ["src/execution/regs.rs: copy_regs, peek_regs_for_types", "src/execution/handlers.rs: handle_end, handle_br"]}
{"id": "C20", "title": "Compiled code never touches a slot outside its frame", "statement": "Every register index the translator emits for a function body lies below the number of slots it allocates for that function, and allocation counts never shrink during translation.", "quantifier": "all operator sequences", "why_tests_cant": "All function bodies.", "anchors": ["src/execution/regs.rs: RegAllocator::{push,pop,finalize,peek_regs_for_types}", "src/parser.rs: decode_processed_instrs_and_fixups"]}
{"id": "C21", "title": "Operand folding preserves meaning", "statement": "For every well-typed straight-line code sequence, executing the translated (operand-folded, register) code leaves the same locals, globals and result values and traps in the same cases as the WebAssembly stack machine.", "quantifier": "all well-typed straight-line operator sequences and all initial states", "why_tests_cant": "Folding decisions depend on two operators of lookahead in every context.", "anchors": ["src/parser.rs: can_fold_i32, is_i32_foldable_consumer, decode_processed_instrs_and_fixups", "src/execution/operand.rs"]}
{"id": "C22", "title": "Destination folding preserves meaning", "statement": "Translating an arithmetic operator followed by local.set into one instruction writing the local has the same effect as executing both, including when the local is also an operand or is held, pending, lower on the operand stack.", "quantifier": "all operators, locals, stacks", "why_tests_cant": "Interaction of pending operands with redefinition of the same local.", "anchors": ["src/parser.rs: try_fold_dst_i32, LocalSet, LocalTee"]}
{"id": "C23", "title": "Structured control flow", "statement": "For every well-typed function body of nested blocks, loops, ifs and branches, the translated code reaches the same final locals, memory, globals and results, traps in the same cases, and terminates iff the WebAssembly structured semantics does.", "quantifier": "all well-typed bodies, all inputs, all iteration counts", "why_tests_cant": "Unbounded nesting and loop counts.", "anchors": ["src/parser.rs: preprocess_instructions, decode_processed_instrs_and_fixups", "src/execution/handlers.rs: handle_block, handle_if, handle_end, handle_br, handle_jump"]}
{"id": "C24", "title": "Branching to the function label returns", "statement": "br/br_if whose depth names the function body itself returns from the function with the label's values as results.", "quantifier": "all bodies and inputs", "why_tests_cant": "The value loss depends on branch depth and result count.", "anchors": ["src/parser.rs: compute_branch_regs, preprocess_instructions", "src/execution/handlers.rs: handle_br"]}
{"id": "C25", "title": "br_table", "statement": "br_table selects entry i when i (unsigned) is below the list length and the default otherwise, for every label depth including the function label, transferring that label's values.", "quantifier": "all indices, all label lists", "why_tests_cant": "Index as unsigned 32-bit, all target depths.", "anchors": ["src/execution/handlers.rs: handle_br_table", "src/parser.rs: preprocess_instructions phase 3"]}
{"id": "C26", "title": "Calls pass arguments and results", "statement": "A call binds arguments to parameters in order, gives declared locals their zero value, runs the callee to completion, and delivers its results in order to the caller, which continues at the next instruction; recursion to any depth is correct.", "quantifier": "all call graphs, argument values, recursion depths", "why_tests_cant": "Unbounded recursion.", "anchors": ["src/execution/runtime.rs: Runtime::run", "src/execution/handlers.rs: handle_call"]}
{"id": "C27", "title": "The two dispatchers agree", "statement": "The loop dispatcher and the tail-call dispatcher execute every translated function to the same outcome and final state.", "quantifier": "all translated functions and states", "why_tests_cant": "Two builds are never compared on all programs.", "anchors": ["src/execution/dispatch_loop.rs", "src/execution/dispatch_tco.rs"]}
{"id": "C28", "title": "Checkpoint then restore resumes exactly", "statement": "If a run is interrupted by a checkpoint at any poll point and later restored into a fresh instance of the same module, the restored run produces the same remaining outputs, final memory, globals and results as the uninterrupted run.", "quantifier": "every poll point of every execution", "why_tests_cant": "Every interruption point of an unbounded execution.", "anchors": ["src/execution/migration.rs: checkpoint, restore", "src/execution/state.rs", "src/execution/runtime.rs"]}
{"id": "C29", "title": "Checkpoint captures all mutable instance state", "statement": "Every piece of instance state a guest can mutate (memory, globals, tables, dropped segments, reference values) survives checkpoint and restore.", "quantifier": "all reachable instance states", "why_tests_cant": "State components the suite never mutates.", "anchors": ["src/execution/migration.rs: checkpoint, restore"]}
{"id": "C30", "title": "Checkpoint requests are honoured", "statement": "While a checkpointable program keeps executing, a pending checkpoint request is noticed within a bounded number of executed instructions.", "quantifier": "all executions and all request times", "why_tests_cant": "Liveness for all schedules.", "anchors": ["src/execution/migration.rs: poll_checkpoint", "src/execution/runtime.rs: execute_frame"]}
{"id": "C31", "title": "A restored program can be checkpointed again", "statement": "After restore, checkpoint requests are honoured regardless of which frame is running.", "quantifier": "all call stacks at checkpoint time", "why_tests_cant": "Depends on call depth at checkpoint.", "anchors": ["src/execution/runtime.rs: Runtime::run, new_restored", "src/execution/state.rs: Frame"]}
{"id": "C32", "title": "Instantiation", "statement": "A fresh instance has its globals evaluated in order, memory of the declared size filled with the active data segments in order over zeros, tables holding the active element segments, function index space imports-first, exports resolving to the declared entities, and its start function run.", "quantifier": "all modules", "why_tests_cant": "All segment/overlap/order combinations.", "anchors": ["src/execution/module.rs: ModuleInst::new"]}
{"id": "C33", "title": "Command-line argument parsing", "statement": "The --app-args string is split on spaces outside quotes; quoted text is kept verbatim, so that any argument list rendered with quotes is recovered exactly.", "quantifier": "all argument lists", "why_tests_cant": "All strings.", "anchors": ["src/main.rs: parse_args_string"]}
{"id": "C34", "title": "args_get/args_sizes_get contract", "statement": "args_sizes_get reports the count and the total byte size including terminators; args_get then writes exactly count pointers and that many bytes, each pointer addressing a NUL-terminated copy of the corresponding argument, and modifies nothing else.", "quantifier": "all argument lists, buffer addresses and memories", "why_tests_cant": "All sizes and layouts.", "anchors": ["src/wasi/passthrough.rs: args_get, args_sizes_get, environ_get, environ_sizes_get"]}
{"id": "C35", "title": "fd_write gathers exactly the guest's buffers", "statement": "fd_write passes to the host the concatenation, in order, of the guest byte ranges named by the iovecs, or fails with Fault when an iovec or a buffer lies outside memory; it never reads host memory outside the guest's.", "quantifier": "all iovec tables, memories and pointers", "why_tests_cant": "All pointer values up to 2^32-1, including wrap-around.", "anchors": ["src/wasi/passthrough.rs: fd_write"]}
{"id": "C36", "title": "Typed register storage", "statement": "Writing a value into typed register storage and reading it back at the same type returns the value; writes to one register never affect a different register or another type's storage.", "quantifier": "all register files, indices, values", "why_tests_cant": "All index/type combinations.", "anchors": ["src/execution/regs.rs: RegFile::{get_*,set_*,get_val,set_val}"]}
{"id": "C37", "title": "Dead code is harmless", "statement": "Code following an unconditional branch, return or unreachable inside a block has no effect on translation of the live code around it, no matter what it contains.", "quantifier": "all dead operator sequences with balanced nesting", "why_tests_cant": "Arbitrary dead code.", "anchors": ["src/parser.rs: decode_processed_instrs_and_fixups unreachable_depth"]}
{"id": "C38", "title": "Multi-value and loop-parameter branches", "statement": "A branch to a block with several results of different types, or to a loop with parameters, delivers each value to its position.", "quantifier": "all block types", "why_tests_cant": "Type mixes multiply beyond the suite.", "anchors": ["src/parser.rs: compute_branch_regs"]}
{"id": "C39", "title": "Checkpointing disabled is invisible", "statement": "With checkpointing disabled, polling never interrupts execution and never changes any state, whatever the environment's trigger files.", "quantifier": "all executions and environments", "why_tests_cant": "Universal over environments.", "anchors": ["src/execution/migration.rs: poll_checkpoint"]}
{"id": "C40", "title": "select, drop, local.tee", "statement": "select returns the first operand when the condition is non-zero and the second otherwise; drop discards; local.tee stores and keeps the value.", "quantifier": "all operand types, values", "why_tests_cant": "All types including references.", "anchors": ["src/execution/handlers.rs: handle_select_*", "src/parser.rs: Select, TypedSelect, LocalTee, Drop"]}
{"id": "C41", "title": "Execution is deterministic", "statement": "For a fixed module, arguments and host responses the outcome is uniquely determined and does not depend on step budget or the dispatcher used.", "quantifier": "all executions", "why_tests_cant": "Universal.", "anchors": ["src/execution/runtime.rs", "src/execution/dispatch_loop.rs"]}
{"id": "C42", "title": "Large functions", "statement": "Functions needing more registers or locals of a type than fit 16 bits are rejected or executed correctly, never silently miscompiled.", "quantifier": "all functions", "why_tests_cant": "Needs functions with more than 65536 locals.", "anchors": ["src/execution/regs.rs: RegAllocator::push", "src/parser.rs: local index casts"]}
{"id": "C43", "title": "Reinterpretation and constants", "statement": "reinterpret instructions preserve the bit pattern in both directions, and every constant reaches the register or operand with its exact bits (including NaN payloads).", "quantifier": "all bit patterns", "why_tests_cant": "Exhaustive 2^64 domain.", "anchors": ["src/execution/handlers.rs: handle_i32_reinterpret_f32, ...", "src/parser.rs: F32Const"]}
{"id": "C44", "title": "Block and if/else maps", "statement": "For every well-nested operator sequence, each block's recorded end is the position just after its matching end and each if's recorded else position is the one after its matching else (or its end).", "quantifier": "all well-nested operator sequences", "why_tests_cant": "Unbounded nesting.", "anchors": ["src/parser.rs: decode_processed_instrs_and_fixups map bookkeeping"]}
{"id": "C45", "title": "Label stack discipline", "statement": "At every point of execution of translated code the runtime label stack has exactly one entry per enclosing block plus one, so branch depth arithmetic resolves to the lexically right label.", "quantifier": "all executions of well-nested code", "why_tests_cant": "Unbounded executions.", "anchors": ["src/execution/handlers.rs: handle_block, handle_end, handle_br, handle_jump"]}
{"id": "C46", "title": "No access through a stale memory buffer", "statement": "At every instruction of every execution the memory pointer cached by the running function is the one of the instance's current buffer, however often and wherever (callees, host calls, restore) the memory was replaced.", "quantifier": "all modules (translated or not), executions, interleavings of memory.grow with calls and returns, restores", "why_tests_cant": "Unbounded interleavings of growth, calls and returns.", "anchors": ["src/execution/runtime.rs: execute_frame, run", "src/execution/handlers.rs: handle_memory_grow", "src/execution/migration.rs: restore"]}
{"id": "C47", "title": "environ_get/environ_sizes_get contract", "statement": "environ_sizes_get stores the host's count and size; environ_get gives the guest the host's environment strings in its own buffer, with one pointer per variable addressing the right string, returns the host's error number if the host fails, and changes nothing else.", "quantifier": "all memories, addresses, host replies", "why_tests_cant": "All environments, layouts and host errors.", "anchors": ["src/wasi/passthrough.rs: environ_get, environ_sizes_get"]}
{"id": "C48", "title": "fd_read, fd_pread and fd_pwrite use exactly the guest's buffers", "statement": "What the host delivers for fd_read/fd_pread ends up, in order, in the guest byte ranges named by the iovecs and nowhere else, the count is stored at the given address; fd_pwrite passes the concatenation of the ranges and the offset; buffers outside memory are refused.", "quantifier": "all iovec tables (overlapping buffers included), memories, data lengths, offsets", "why_tests_cant": "All layouts of tables and buffers, including overlapping and empty ones.", "anchors": ["src/wasi/passthrough.rs: fd_read, fd_pread, fd_pwrite"]}
{"id": "C49", "title": "The host sees the path the guest named", "statement": "In every path_* call the path (both paths) that reaches the host is byte for byte the range of guest memory named by pointer and length.", "quantifier": "all path functions, memories, paths", "why_tests_cant": "All byte strings, including zero bytes, and all positions.", "anchors": ["src/wasi/passthrough.rs: path_open, path_rename, path_link, path_symlink, ..."]}
{"id": "C50", "title": "WASI calls reach the host function of the same name with the guest's own arguments", "statement": "Each preview-1 function is recognised by its name; a call reaches that host function with every number unchanged in the width the standard gives it, every pointer translated to the same address of guest memory, in the standard's order; the guest receives the host's error number and the results at the addresses it gave. The function type demanded of an import of that name is the standard's, so every call that passes validation has arguments of the standard's types.", "quantifier": "all 46 functions, all arguments, all host replies", "why_tests_cant": "All argument combinations of all functions; a swapped or truncated argument shows only on particular values.", "anchors": ["src/execution/runtime.rs: call_wasi_function", "src/wasi/passthrough.rs: PassthroughWasiImpl", "src/parser.rs: WASI_FUNCTION_MAP", "src/structure/module.rs: WasiFuncType::expected_func_type"]}
{"id": "C51", "title": "Loading accepts every valid module that uses supported operators", "statement": "A valid module without vector values and without globals of reference type is accepted: translation of every function body succeeds, and the loaded module has the functions of the source in order, with their types and locals.", "quantifier": "all valid modules: any nesting, branches, dead code, stack depth and number of locals", "why_tests_cant": "Rejection or a panic may occur only for one combination of nesting, dead code and operator; the set of modules is infinite.", "anchors": ["src/parser.rs: decode_code_section, preprocess_instructions, decode_processed_instrs_and_fixups"]}
{"id": "C52", "title": "Only completely loaded modules are executed", "statement": "chiwawa runs a file only if all of it was loaded; the instance it runs is then the one the standard prescribes for the module the file presents: its functions, types, tables, memory, globals and exports.", "quantifier": "all files (sequences of sections, well-formed or not) and all modules", "why_tests_cant": "The defect may be in any section, item or function body, with anything loaded before it.", "anchors": ["src/parser.rs: parse_bytecode, decode_*_section", "src/main.rs: main"]}
{"id": "C53", "title": "Invalid modules are rejected", "statement": "A file whose module does not validate (wrong operand types or counts, missing locals, wrong import types) is rejected before anything is executed.", "quantifier": "all files", "why_tests_cant": "Every violation of every validation rule in every context would have to be tried.", "anchors": ["src/main.rs: main", "src/parser.rs: parse_bytecode, decode_import_section", "src/structure/module.rs: expected_func_type"]}
{"id": "C54", "title": "Exit status and printed result tell how the run ended", "statement": "If the program calls proc_exit(z) the process exits with status z and prints no result; if the invoked function returns, its last result is printed and the status is 0; a trap or a failure to start gives a nonzero status.", "quantifier": "all modules, invoked functions, parameters and host behaviours", "why_tests_cant": "It must hold for every way a run can end.", "anchors": ["src/main.rs: main, handle_result", "src/execution/runtime.rs: run"]}
{"id": "C55", "title": "The parameters on the command line are the arguments of the call", "statement": "Parameters written I32(n), I64(n), F32(x), F64(x) become the values they denote, in order; exactly the decimal numerals of numbers of the type are accepted; anything else is refused.", "quantifier": "all parameter texts and lists of parameters", "why_tests_cant": "Texts are unbounded; boundary values, signs and leading zeros of all lengths matter.", "anchors": ["src/main.rs: parse_params"]}
{"id": "C56", "title": "From the file to the report, chiwawa behaves as the standard says", "statement": "For a file presenting a valid module, an exported function and well-written parameters of its types, the command ends with a report exactly if the standard's execution of the function on the module's instance ends, and reports its outcome: last result, exit code and the host calls made.", "quantifier": "all files, modules, functions, parameters, host behaviours and both dispatchers", "why_tests_cant": "Composition of loader, translator, instantiation, dispatcher and reporting over all programs and inputs.", "anchors": ["src/main.rs: main", "src/parser.rs: parse_bytecode", "src/execution/module.rs: ModuleInst::new", "src/execution/runtime.rs: run"]}
{"id": "C57", "title": "A program run by chiwawa has the effects it would have running on the host itself", "statement": "A module that makes acceptable WASI calls, run by chiwawa on a host, makes the same calls to the host in the same order with the same arguments, memory and host answers, and ends with the same report, as the standard's execution of the module with the host itself as its WASI provider; as long as the calls are acceptable every prefix of the run is the same.", "quantifier": "all hosts, argument and environment lists, modules, exported functions, parameters, memories and prefixes of runs", "why_tests_cant": "Composition of the interpreter with the WASI layer over unboundedly long histories of calls in which every answer of the host may depend on all previous ones.", "anchors": ["src/execution/runtime.rs: run, call_wasi_function", "src/wasi/passthrough.rs: PassthroughWasiImpl", "src/structure/module.rs: WasiFuncType::expected_func_type", "src/main.rs: main"]}
{"id": "C58", "title": "Programs make the same host calls whether or not they end", "statement": "A WebAssembly program run by chiwawa makes, in the same order and with the same arguments and memory contents, the host calls the standard's execution of it makes; this includes programs that run for ever, such as servers, whose only observable effect is the sequence of their host calls.", "quantifier": "all valid modules, exported functions, arguments, hosts and numbers of calls, including executions that never end", "why_tests_cant": "A test sees finitely many calls of a run that never ends, on one host; every prefix for every host and program is an infinite family of executions.", "anchors": ["src/execution/runtime.rs: run, call_wasi_function", "src/execution/handlers.rs: handle_call_wasi", "src/parser.rs: decode_code_section", "src/main.rs: main"]}
{"id": "C59", "title": "A checkpoint file restores what was written", "statement": "Reading back a checkpoint file yields exactly the machine state that was written to it, so a program that is stopped by checkpoint requests at any points and continued each time by a new process from the file left behind reports in the end what it reports when it is never stopped, and ends iff it then ends.", "quantifier": "all programs, machine states, points at which the requests arrive, numbers of processes, hosts and both dispatchers", "why_tests_cant": "Every nesting of values, register vectors, frames and labels in the file and every sequence of stops would have to be tried.", "anchors": ["src/execution/migration.rs: SerializableState, checkpoint, restore", "src/execution/runtime.rs: run, new_restored", "src/main.rs: main", "src/execution/value.rs: Val", "src/execution/regs.rs: RegFile"]}
{"id": "C60", "title": "A crash while a checkpoint is written does not yield a wrong program", "statement": "If the process dies at any point of writing a checkpoint file, possibly over an older one, what is found afterwards is a whole checkpoint, old or new, or is refused by restore; and one of the two checkpoints survives.", "quantifier": "all states, files and crash points", "why_tests_cant": "The crash may come after any byte of any file; each leaves a different prefix which must not decode.", "anchors": ["src/execution/migration.rs: checkpoint, restore", "src/main.rs: main"]}
{"id": "C61", "title": "A damaged checkpoint, or one of another program, is refused", "statement": "Restoring a file that is not a checkpoint of the given module fails with an error instead of resuming some other execution.", "quantifier": "all files and modules", "why_tests_cant": "There are as many wrong files as there are byte strings; a test tries a few.", "anchors": ["src/execution/migration.rs: restore", "src/main.rs: main"]}
{"id": "C62", "title": "Requesting a checkpoint never loses the program", "statement": "When a checkpoint is requested, the program is either stopped with a checkpoint file from which it can be resumed, or goes on running.", "quantifier": "all programs, states at which the request is served and hosts", "why_tests_cant": "Whether a state can be written depends on all values the program holds at that moment.", "anchors": ["src/execution/runtime.rs: run", "src/execution/migration.rs: checkpoint", "src/execution/value.rs: Ref"]}
{"id": "C63", "title": "A program moved to another process keeps its surroundings", "statement": "A program resumed from a checkpoint in a new process gets from the host the answers it would have got in the old one: its open files are open, at the same positions.", "quantifier": "all programs, hosts and checkpoints", "why_tests_cant": "Depends on the whole history of host calls before the checkpoint and on every later call.", "anchors": ["src/execution/migration.rs: SerializableState, restore", "src/execution/runtime.rs: new_restored", "src/wasi/passthrough.rs: PassthroughWasiImpl"]}
{"id": "C64", "title": "The whole command on a WASI host, moved between processes", "statement": "Running `chiwawa FILE --app-args LINE --invoke NAME --params PS`, stopped for a checkpoint and restored any number of times at any points, on a WASI host that answers as if it were one run, reports exactly what the program would report if it were executed by the WebAssembly standard directly on that host with the file name and the words of LINE as its arguments.", "quantifier": "every module file, argument line, environment, host behaviour, sequence of checkpoint points and dispatcher", "why_tests_cant": "It composes loading, translation, execution, WASI, command line and migration for every program, host and interruption history; a test fixes one of each.", "anchors": ["src/main.rs: main, parse_args_string, parse_params, handle_result", "src/parser.rs: parse_bytecode", "src/execution/runtime.rs: run, call_wasi_function", "src/execution/migration.rs: checkpoint, restore", "src/wasi/passthrough.rs: PassthroughWasiImpl"]}
{"id": "C65", "title": "A program that never ends, moved between processes, goes on making the right host calls", "statement": "A long-running program (a server), stopped for a checkpoint and continued by a new process from the file any number of times, on a host that answers as if it were one run, makes in the order of the standard exactly the host calls that the standard's execution of it directly on that host makes: up to any checkpoint none is missing, repeated or added, and after it the next process goes on with the next one.", "quantifier": "every module file, argument line, environment, host behaviour, sequence of checkpoint points, dispatcher and number of host calls, for ending and non-ending programs", "why_tests_cant": "A test observes finitely many calls of one program interrupted at a few points; the claim is about every prefix of an unbounded sequence of calls and every interruption history.", "anchors": ["src/main.rs: main", "src/execution/runtime.rs: run, call_wasi_function", "src/execution/migration.rs: checkpoint, restore, poll_checkpoint", "src/wasi/passthrough.rs: PassthroughWasiImpl"]}
{"id": "C66", "title": "The interpreter's own memory is bounded by the depth of calls", "statement": "Besides the program's own memory, globals and tables, what the interpreter holds (registers of all classes, saved register offsets, locals, open blocks, result registers) is at most a constant times the number of calls in progress, the constant depending only on the module; registers kept are exactly those of the functions called and not yet returned, so nothing leaks over time. The same holds at every checkpoint after any number of moves, and a checkpoint file is at most a constant plus the compressed memory, 24 bytes per global and a constant per call in progress.", "quantifier": "every module the translator accepts (for the registers: every module), arguments, host behaviour, length of the run, checkpoint points and number of moves", "why_tests_cant": "A leak of one entry per million instructions or only on one kind of branch escapes any finite run; the claim is about every moment of unbounded runs.", "anchors": ["src/execution/regs.rs: RegFile::save_offsets, restore_offsets", "src/execution/runtime.rs: run", "src/execution/state.rs: VMState, Frame, Label", "src/execution/handlers.rs: br, block, end, return", "src/execution/migration.rs: checkpoint"]}
{"id": "C67", "title": "Files can be checked, and compiled programs pass", "statement": "There is a terminating check on a module file alone such that for every file it accepts the whole command - loading, translation, execution, host calls, stopping and continuing in other processes - reports on every host exactly what the standard says the program does; no further condition on the file is needed. Real compiled programs (the Rust programs of the repository's WASI test-suite) are accepted.", "quantifier": "every module file the check accepts, argument line, environment, host behaviour, checkpoint history and dispatcher; in particular one given compiled program on every host", "why_tests_cant": "The conclusion quantifies over all hosts, arguments and interruptions of a program with hundreds of functions; a test runs it on one host, uninterrupted.", "anchors": ["src/parser.rs: parse_bytecode, decode", "src/main.rs: main", "src/execution/runtime.rs: run", "src/execution/migration.rs: checkpoint, restore", "src/wasi/passthrough.rs: PassthroughWasiImpl", "tests/wasi/sched_yield.wasm"]}
{"id": "C68", "title": "A failing WASI call gives the program an error number", "statement": "When a WASI call fails, for whatever reason, the program gets an error number and goes on; only proc_exit (and proc_raise) ends it. In particular every error number of the host arrives unchanged, and an argument that points outside of the program's memory yields a fault number.", "quantifier": "every WASI function, argument values of its types, memory contents, argument list, environment and host behaviour", "why_tests_cant": "There are 46 functions, each with many failing argument combinations and host answers; tests exercise the success paths and a few failures.", "anchors": ["src/wasi/passthrough.rs: PassthroughWasiImpl", "src/execution/runtime.rs: call_wasi_function, run"]}
{"id": "C69", "title": "Translation is linear in the program", "statement": "Translating a function yields at most one instruction per operator of its body, and asks for no more registers, of all classes together, than it has declared locals and its operators can leave values on the stack; so at every moment the registers in use are bounded by the texts of the functions whose calls are in progress.", "quantifier": "every operator sequence the translator accepts, every module, every execution of it and every moment of it", "why_tests_cant": "Quadratic or exponential growth in nested blocks, else branches or calls shows only on shapes the test modules do not have.", "anchors": ["src/parser.rs: decode_processed_instrs_and_fixups, preprocess_instructions, decode_code_section", "src/execution/regs.rs: RegAllocator, RegFile"]}
{"id": "C70", "title": "A program that stays within its bounds runs exactly", "statement": "A program the file check accepts, whose run as prescribed by the standard neither traps at a bound (memory, table, or float-to-integer at its two boundary values) nor needs 2 GiB of memory, ends under chiwawa exactly as the standard says: same results, traps, exit status, memory and host calls, however often it is stopped and continued. Even when it does trap at a bound later, the host calls before that are the standard's. A module that never resizes memory needs only the absence of such a trap. The condition is on the program and the standard alone.", "quantifier": "every accepted module, function, argument values, host behaviour, checkpoint history and dispatcher; every run, ending or not", "why_tests_cant": "The claim covers every program and input whose standard run is in bounds; a test shows one run of one program.", "anchors": ["src/execution/handlers.rs: mem_load, mem_store, memory_grow, memory_copy, memory_fill, memory_init, table_fill", "src/execution/runtime.rs: run", "src/main.rs: main"]}
{"id": "C71", "title": "Floating-point arithmetic is IEEE 754's", "statement": "add, sub, mul, div, sqrt, ceil, floor, trunc, nearest, the conversions from integers, demotion and promotion of f32 and f64 never trap and give the number the standard prescribes: the exact result rounded to nearest, ties to even, with the standard's rules for overflow, subnormal numbers, signs of zero, infinities and NaN. The only freedom is the pattern of a NaN, which is canonical when all NaN operands are. Promotion loses nothing, demotion undoes it, and integers of at most 24 (f32) or 53 (f64) bits are converted exactly.", "quantifier": "every bit pattern of both formats as operand, every integer, every host whose primitives follow IEEE 754 (the primitives the model computes are proved to)", "why_tests_cant": "2^64 to 2^128 operand pairs per instruction; wrong rounding shows on single patterns next to ties, at overflow and among subnormal numbers.", "anchors": ["src/execution/handlers.rs: f32_binop, f32_unop, f64_binop, f64_unop (add sub mul div ceil floor trunc nearest sqrt)", "src/execution/handlers.rs: conv (convert, demote, promote)"]}
{"id": "C72", "title": "Programs that make no NaN compute the same on every machine, also when moved", "statement": "A program that never makes a NaN in floating-point arithmetic, rounding or conversion executes identically, instruction by instruction and up to its results, memory, globals, host calls and exit, on any two machines whose floating point follows IEEE 754; and checkpointed on one and restored on another, any number of times, it ends as it would have ended undisturbed on the first. The condition is needed: the pattern of a NaN differs between machines the standard allows, and programs can see it.", "quantifier": "every valid module, function, arguments, instance, host, every pair of machines with IEEE 754 floating point, dispatcher, checkpoint schedule and number of moves (tables and data segments unchanged)", "why_tests_cant": "Tests run on one machine; the claim is about every pair of machines and every point of every execution at which a checkpoint may be taken.", "anchors": ["src/execution/handlers.rs: f32_binop, f64_binop, f32_unop, f64_unop, conv", "src/execution/migration.rs: checkpoint, restore", "src/execution/runtime.rs: run"]}
{"id": "C73", "title": "Statistics and tracing do not change what a program does", "statement": "Asking for statistics or a trace (--stats, --trace, --trace-events, --trace-resource, --trace-output), or having compiled chiwawa with or without these features, changes nothing in the command's messages and result, host calls and exit status, whether the program is started or restored, with the loop or the tail-call dispatcher; also if the trace file cannot be created. (A program given the directory of the trace file can see that file.)", "quantifier": "every build, combination of flags, module file, function, arguments, checkpoint image, host, dispatcher, checkpoint schedule and length of run; a host that does not depend on the trace file if one is named", "why_tests_cant": "The observer effect must be absent for every program and every combination of features and flags; a test runs a few of them.", "anchors": ["src/main.rs: main (--stats, --trace)", "src/execution/runtime.rs: Runtime::new, Runtime::new_restored, Drop for Runtime", "src/execution/stats.rs: ExecutionStats", "src/execution/trace.rs: Tracer"]}
{"id": "C74", "title": "Statistics count the executed instructions", "statement": "With --stats (and the feature compiled in), at the end of the command the total is the number of instructions recorded, and the list names the up to 20 most frequent instructions, most frequent first, each with the number of times it was executed, and how many others there are; whatever the order of the hash map. What is recorded is what was executed. Without the feature there is a warning.", "quantifier": "every sequence of fewer than 2^64 instructions, every iteration order of the hash map, every run of every program", "why_tests_cant": "Counts have to be right for every sequence of instructions and every order of the map; and a test that only looks for a printed summary does not see that its numbers are those of no program.", "anchors": ["src/execution/stats.rs: ExecutionStats::record_instruction, report", "src/execution/runtime.rs: Runtime::run, Drop for Runtime", "src/main.rs: --stats"]}
{"id": "C75", "title": "A trace names the executed instructions asked for", "statement": "With --trace (and the feature compiled in), one line is written for every executed instruction that --trace-events asks for (all, store, load, call, branch, in any capitalisation; everything if absent) and for no other; it names the instruction by its keyword in the text format and shows the resources --trace-resource asks for (pc, regs, memory, locals, globals) and no others.", "quantifier": "every function body the translator accepts and every instruction it emits for it, every list of events and resources, every register file, locals and globals; every command", "why_tests_cant": "About 190 instructions times all subsets of events, in all translated bodies; that an executed instruction leaves a line must hold for every run.", "anchors": ["src/execution/trace.rs: TraceConfig::new, Tracer::should_trace_event, trace_instruction", "src/execution/ir.rs: ProcessedInstr::handler_index", "src/parser.rs: handler_index of every emitted instruction", "src/execution/stats.rs: handler_name"]}
{"id": "C76", "title": "Every instruction finds the handler of its own operation", "statement": "Instructions are executed through tables indexed by numbers the translator writes into them: for every instruction of every translated function, the entry at its number in the table of its kind is the function of exactly that operation and type, never another operation's and never the one for unused entries.", "quantifier": "every function body the translator accepts, every instruction in the translation", "why_tests_cant": "A wrong number among the some 190 constants, table entries and translator cases affects one instruction in one encoding variant; tests do not execute all of them in all variants.", "anchors": ["src/execution/handlers.rs: HANDLER_IDX_*, select_handler", "src/execution/ir.rs: ProcessedInstr::handler_index", "src/parser.rs: decode_processed_instrs_and_fixups"]}
