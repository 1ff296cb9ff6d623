{
 "claims": [
  {
   "property": "C01",
   "status": "proved",
   "theorems": [
    "C01_integer_arithmetic"
   ],
   "note": "handlers vs spec, all operands"
  },
  {
   "property": "C02",
   "status": "proved",
   "theorems": [
    "C02_division",
    "C02_signed_division_plain"
   ],
   "note": "handlers vs spec, all operands"
  },
  {
   "property": "C03",
   "status": "proved",
   "theorems": [
    "C03_shifts_rotates"
   ],
   "note": "handlers vs spec, all operands and counts"
  },
  {
   "property": "C04",
   "status": "proved",
   "theorems": [
    "C04_comparisons",
    "C04_eqz",
    "C04_result_is_0_or_1"
   ],
   "note": "all operands"
  },
  {
   "property": "C05",
   "status": "proved",
   "theorems": [
    "C05_bit_counting"
   ],
   "note": "all operands"
  },
  {
   "property": "C06",
   "status": "proved",
   "theorems": [
    "C06_sign_extension",
    "C06_wrap_extend"
   ],
   "note": "all operands"
  },
  {
   "property": "C07",
   "status": "partial",
   "theorems": [
    "C07_trunc_i64",
    "C07_trunc_i32_partial",
    "C07_i32_trunc_f32_s_refuted",
    "C07_i32_trunc_f32_u_refuted",
    "C07_constants_rounded"
   ],
   "note": "proved for the i64 and f64 sources; i32.trunc_f32_s/u proved except at one bit pattern each, where the code does not trap (refuted theorems give the witnesses)"
  },
  {
   "property": "C08",
   "status": "proved",
   "theorems": [
    "C08_trunc_sat"
   ],
   "note": "all bit patterns"
  },
  {
   "property": "C09",
   "status": "proved",
   "theorems": [
    "C09_float_comparisons",
    "C09_min_max",
    "C09_sign_operations"
   ],
   "note": "all bit patterns; rounding arithmetic (add, sub, ...) is host arithmetic and not part of the claim"
  },
  {
   "property": "C10",
   "status": "proved",
   "theorems": [
    "C10_load",
    "C10_store",
    "C10_store_then_load",
    "C10_narrow_store_then_load"
   ],
   "note": "all in-bounds accesses of all variants"
  },
  {
   "property": "C11",
   "status": "partial",
   "theorems": [
    "C11_load_wraps_refuted",
    "C11_store_wraps_refuted",
    "C11_unchecked_refuted",
    "C11_load_partial",
    "C11_store_partial"
   ],
   "note": "false of the code: refuted theorems show wrap-around access succeeding and out-of-bounds accesses unchecked. What holds (C11_load_partial, C11_store_partial, all operators, memories, addresses and offsets below 2^32): the access is the standard's at the address modulo 2^32 if that is in bounds, and undefined behaviour otherwise, never a trap"
  },
  {
   "property": "C12",
   "status": "partial",
   "theorems": [
    "C12_grow_partial",
    "C12_every_delta_partial",
    "C12_size",
    "C12_negative_delta_refuted",
    "C12_grow_truncates_refuted",
    "C12_grow_panics_refuted"
   ],
   "note": "proved for every delta/size where the standard fails or succeeds below 2^15 pages; negative deltas, >=2^15 pages and i32 wrap refuted, with the exact outcome for every 32-bit delta in C12_every_delta_partial"
  },
  {
   "property": "C13",
   "status": "partial",
   "theorems": [
    "C13_copy_partial",
    "C13_fill_partial",
    "C13_init_nonempty",
    "C13_zero_length_init_refuted",
    "C13_copy_out_of_bounds_refuted",
    "C13_fill_out_of_bounds_refuted",
    "C13_no_bytes_partial",
    "C13_outside_partial"
   ],
   "note": "functional correctness in bounds for every overlap; init traps exactly for n<>0; zero-length init and out-of-bounds copy/fill refuted, with their exact outcome for all operands (C13_no_bytes_partial, C13_outside_partial)"
  },
  {
   "property": "C14",
   "status": "proved",
   "theorems": [
    "C14_dropped_forever",
    "C14_drop_frame"
   ],
   "note": "all histories"
  },
  {
   "property": "C15",
   "status": "proved",
   "theorems": [
    "C15_globals_history",
    "C15_set_succeeds_and_frames",
    "C15_wrong_type_traps"
   ],
   "note": "all histories; immutability of const globals is enforced by the external validator, not by this code"
  },
  {
   "property": "C16",
   "status": "partial",
   "theorems": [
    "C16_tables_history_partial",
    "C16_get_reads_entry",
    "C16_trap_condition_partial",
    "C16_every_history_partial",
    "C16_every_trap_partial",
    "C16_zero_fill_refuted",
    "C16_wrapping_fill_refuted"
   ],
   "note": "all histories and indices, with the exact outcome of every operation (C16_every_*); partial because table.fill with n = 0 out of range or i+n >= 2^32 does not trap (refuted)"
  },
  {
   "property": "C17",
   "status": "partial",
   "theorems": [
    "C17_indirect_import_refuted",
    "C17_call_indirect"
   ],
   "note": "proved for every table, index and signature at machine level; reaching an imported function through the table ends in an error (refuted)"
  },
  {
   "property": "C18",
   "status": "proved",
   "theorems": [
    "C18_caller_isolation"
   ],
   "note": "all programs, reachable states, suspended frames and call depths"
  },
  {
   "property": "C19",
   "status": "partial",
   "theorems": [
    "C19_copy_partial",
    "C19_block_results",
    "C19_swap_refuted"
   ],
   "note": "proved for the register assignments the translator emits at block ends (C19_block_results) and for all non-interfering copies; arbitrary overlapping lists are copied sequentially (swap refuted)"
  },
  {
   "property": "C20",
   "status": "partial",
   "theorems": [
    "C20_monotone",
    "C20_slots_partial",
    "C20_unreachable_refuted",
    "C20_ref_select_refuted",
    "C20_source_partial"
   ],
   "note": "Slot counts never shrink: for all operator sequences from all states (C20_monotone). Every register and local named lies in the frame: all valid functions within 16-bit indices, except select on references and the final end of a body that cannot fall through (C20_slots_partial); both exceptions are refuted. C20_source_partial: the same with conditions on the source program only."
  },
  {
   "property": "C21",
   "status": "partial",
   "theorems": [
    "C21_fold_refuted",
    "C21_straight_line_partial"
   ],
   "note": "all valid straight-line bodies outside the fold defect; two operand producers before a unary operator are miscompiled (refuted)"
  },
  {
   "property": "C22",
   "status": "proved",
   "theorems": [
    "C22_in_context",
    "C22_translation",
    "C22_same_effect"
   ],
   "note": "C22_translation (translator, every operator, local, decoder state, whatever is pending) and C22_same_effect (machine, every state): the one instruction is the operator followed by the move, same traps, same locals, globals, memory and registers but the one the value went through. C22_in_context: whole straight-line bodies against the standard, under the limits of C21; other contexts: C23"
  },
  {
   "property": "C23",
   "status": "partial",
   "theorems": [
    "C23_control_flow_partial",
    "C23_primitives",
    "C23_validation_sound",
    "C23_termination_partial",
    "C23_source_partial"
   ],
   "note": "all valid programs in the supported fragment (within) with no out-of-bounds access (clear); refuted outside (C21, C24, C25, C38, C40, C42, C26 refutations)"
  },
  {
   "property": "C24",
   "status": "partial",
   "theorems": [
    "C24_br_to_body_refuted",
    "C24_br_to_body_partial"
   ],
   "note": "functions without results; with results refuted"
  },
  {
   "property": "C25",
   "status": "partial",
   "theorems": [
    "C25_table_to_body_refuted",
    "C25_selection"
   ],
   "note": "selection and value transfer for every index, table and label at machine level; target = function body refuted"
  },
  {
   "property": "C26",
   "status": "partial",
   "theorems": [
    "C26_nine_results_refuted",
    "C26_reference_local_refuted",
    "C26_call_enters",
    "C26_return_delivers"
   ],
   "note": "entry and return at machine level for all states plus whole-program correctness (C23); 9 or more results and reference-typed locals trap (refuted)"
  },
  {
   "property": "C27",
   "status": "proved",
   "theorems": [
    "C27_dispatchers_agree"
   ],
   "note": "all translated modules, all states runs can start from (fresh or restored), all environments"
  },
  {
   "property": "C28",
   "status": "partial",
   "theorems": [
    "C28_resume_partial",
    "C28_restore_succeeds",
    "C28_plain_modules"
   ],
   "note": "all translated modules and any number of checkpoints whenever tables and data segments are unchanged at the checkpoint; unconditional for modules without table.get/set/fill and data.drop; false otherwise (C29)"
  },
  {
   "property": "C29",
   "status": "partial",
   "theorems": [
    "C29_memory_globals_frames_partial",
    "C29_tables_refuted",
    "C29_dropped_segments_refuted",
    "C29_references_refuted"
   ],
   "note": "memory, globals, registers, frames proved to survive; tables, dropped segments and references refuted"
  },
  {
   "property": "C30",
   "status": "partial",
   "theorems": [
    "C30_threads_partial",
    "C30_threads_at_once",
    "C30_file_partial",
    "C30_refuted"
   ],
   "note": "bounded with the monitor thread, and within one activation with file polling; refuted for file polling across activations"
  },
  {
   "property": "C31",
   "status": "partial",
   "theorems": [
    "C31_one_frame_partial",
    "C31_refuted"
   ],
   "note": "proved when one frame was active; refuted inside called functions"
  },
  {
   "property": "C32",
   "status": "partial",
   "theorems": [
    "C32_instance_partial",
    "C32_no_fit_partial",
    "C32_exports",
    "C32_start_refuted",
    "C32_elem_expr_refuted",
    "C32_ref_global_refuted",
    "C32_imports_refuted",
    "C32_empty_elem_refuted",
    "C32_data_kept_refuted",
    "C32_largest_memory_refuted",
    "C32_large_memory_refuted"
   ],
   "note": "Holds for modules importing only WASI functions, with function-index element segments and without ref.func globals, memory below 32768 pages (C32_instance_partial, C32_no_fit_partial). Refuted beyond: the start function is never run, expression element segments are dropped, ref.func globals fail, other imports abort, empty out-of-range element segments are accepted, active data segments are not dropped, 65536 pages wrap to none."
  },
  {
   "property": "C33",
   "status": "partial",
   "theorems": [
    "C33_split",
    "C33_every_line",
    "C33_quoted_partial",
    "C33_empty_and_quote_refuted",
    "C33_argv"
   ],
   "note": "the split of every argument line is proved; an empty argument or one containing a quote cannot be expressed at all (refuted), so the quoted form reaches only the arguments it can express"
  },
  {
   "property": "C34",
   "status": "partial",
   "theorems": [
    "C34_sizes",
    "C34_get_partial",
    "C34_overwrite_refuted"
   ],
   "note": "sizes exact; args_get proved for all argument lists and layouts, except that the four bytes after the pointer array are also overwritten (refuted)"
  },
  {
   "property": "C35",
   "status": "partial",
   "theorems": [
    "C35_gather_partial",
    "C35_wrap_refuted",
    "C35_table_refuted"
   ],
   "note": "proved whenever no address computation reaches 2^32 and there are fewer than 2^28 iovecs; beyond that refuted (host memory read outside the guest's; panic)"
  },
  {
   "property": "C36",
   "status": "partial",
   "theorems": [
    "C36_typed_registers",
    "C36_owned",
    "C36_set_val",
    "C36_set_val_v128_refuted"
   ],
   "note": "all write histories; set_val on a v128 register is a no-op (refuted)"
  },
  {
   "property": "C37",
   "status": "proved",
   "theorems": [
    "C37_dead_code"
   ],
   "note": "any dead code, valid or not, in any supported module without undefined behaviour at run time"
  },
  {
   "property": "C38",
   "status": "partial",
   "theorems": [
    "C38_mixed_results_refuted",
    "C38_loop_parameter_refuted",
    "C38_carried_values_partial",
    "C38_found",
    "C38_one_class",
    "C38_stays",
    "C38_stays_check"
   ],
   "note": "proved for blocks whenever the translator's way of counting finds the values (C38_found: exactly when; always for values of one class, C38_one_class) and, to loops, for parameters of any types already in place (no other operand of their classes above the loop's bottom), by br, br_if and br_table; refuted otherwise: other mixed-type results, displaced loop parameters"
  },
  {
   "property": "C39",
   "status": "proved",
   "theorems": [
    "C39_disabled"
   ],
   "note": "all modules, environments, fresh and restored states"
  },
  {
   "property": "C40",
   "status": "partial",
   "theorems": [
    "C40_select_ref_refuted",
    "C40_select"
   ],
   "note": "select at machine level for all operands; select of references refuted; drop/tee inside C23"
  },
  {
   "property": "C41",
   "status": "proved",
   "theorems": [
    "C41_budget",
    "C41_one_outcome",
    "C41_dispatcher",
    "C41_start"
   ],
   "note": "budget independence and both dispatchers"
  },
  {
   "property": "C42",
   "status": "partial",
   "theorems": [
    "C42_many_locals_refuted",
    "C42_modest"
   ],
   "note": "refuted: more than 65536 locals are silently miscompiled; C42_modest: below a limit on the source (stack heights and locals) every register number fits, and such functions are covered by C23"
  },
  {
   "property": "C43",
   "status": "proved",
   "theorems": [
    "C43_reinterpret"
   ],
   "note": "all bit patterns"
  },
  {
   "property": "C44",
   "status": "proved",
   "theorems": [
    "C44_targets",
    "C44_unique"
   ],
   "note": "all translated bodies"
  },
  {
   "property": "C45",
   "status": "proved",
   "theorems": [
    "C45_label_stack"
   ],
   "note": "all executions of translated modules"
  },
  {
   "property": "C46",
   "status": "proved",
   "theorems": [
    "C46_pointer_current",
    "C46_restored"
   ],
   "note": "all programs and executions; after restore for every frame"
  },
  {
   "property": "C47",
   "status": "partial",
   "theorems": [
    "C47_sizes",
    "C47_get_partial",
    "C47_overwrite_refuted"
   ],
   "note": "sizes exact; environ_get proved for all replies and layouts, except that the four bytes after the pointer array are also overwritten (refuted)"
  },
  {
   "property": "C48",
   "status": "partial",
   "theorems": [
    "C48_scatter_partial",
    "C48_pwrite_partial",
    "C48_bounds_refuted"
   ],
   "note": "exact for tables and buffers inside memory; a buffer outside is not refused (refuted)"
  },
  {
   "property": "C49",
   "status": "partial",
   "theorems": [
    "C49_paths_partial",
    "C49_nul_refuted"
   ],
   "note": "exact for every path without a zero byte; a path with one is cut there (refuted)"
  },
  {
   "property": "C50",
   "status": "partial",
   "theorems": [
    "C50_arguments_partial",
    "C50_results",
    "C50_exit",
    "C50_names",
    "C50_proc_raise_refuted",
    "C50_no_memory_refuted",
    "C50_sock_refuted",
    "C50_types",
    "C50_typed_arguments"
   ],
   "note": "arguments, results and names proved for all functions but proc_raise (never reaches the host), sock_recv/sock_send (raw guest table passed on), and modules without memory: these are refuted"
  },
  {
   "property": "C51",
   "status": "proved",
   "theorems": [
    "C51_accepts",
    "C51_shape",
    "C51_within",
    "C51_vector_refuted",
    "C51_ref_global_refuted"
   ],
   "note": "All valid modules without vector values or reference globals in live code; WASI imports have at most one result. Vectors and reference globals are refuted (rejected by the code)."
  },
  {
   "property": "C52",
   "status": "partial",
   "theorems": [
    "C52_loaded_partial",
    "C52_incomplete_refuted",
    "C52_placeholder_refuted",
    "C52_structure_refuted",
    "C52_rest_ignored",
    "C52_version"
   ],
   "note": "C52_loaded_partial: a file presenting a valid module (known operators, the loader's means of C32) gives that module's instance; unknown versions are not run. The other half is refuted: main ignores the loader's error and runs a partly loaded module, functions without code doing nothing (C52_incomplete_refuted, C52_placeholder_refuted)."
  },
  {
   "property": "C53",
   "status": "partial",
   "theorems": [
    "C53_extra_value_refuted",
    "C53_no_value_refuted",
    "C53_no_local_refuted",
    "C53_import_type_refuted"
   ],
   "note": "Refuted: nothing is validated. Files with surplus results run, missing results or locals are undefined behaviour, and the declared type of a WASI import is never looked at (for all files). No positive part holds beyond the translator's own refusals."
  },
  {
   "property": "C54",
   "status": "partial",
   "theorems": [
    "C54_status_partial",
    "C54_trap_refuted",
    "C54_parameter_count_refuted",
    "C54_import_refuted"
   ],
   "note": "C54_status_partial: proc_exit code and last result, for all programs of C56. Refuted for failures: a trap, or a wrong number of parameters, exits with status 0."
  },
  {
   "property": "C55",
   "status": "partial",
   "theorems": [
    "C55_integers",
    "C55_parameters",
    "C55_rejects",
    "C55_value",
    "C55_parenthesis",
    "C55_dropped_refuted",
    "C55_dropped_run_refuted",
    "C55_type_refuted"
   ],
   "note": "Exactly the numerals of the type are accepted, well-written lists of parameters are read back, malformed integers are refused. Refuted: other texts are dropped silently and types are not compared with the function's."
  },
  {
   "property": "C56",
   "status": "partial",
   "theorems": [
    "C56_end_to_end_partial"
   ],
   "note": "Loader, translator, instantiation, run loop (both dispatchers) and reporting composed, for the programs and runs of C23 and the modules of C32 without start function. Missing: those restrictions."
  },
  {
   "property": "C57",
   "status": "partial",
   "theorems": [
    "C57_transparent_partial",
    "C57_steps",
    "C57_reply"
   ],
   "note": "C57_steps holds for all modules, states and prefixes whose calls are acceptable (proper). C57_transparent_partial composes it with C56: terminating runs of the standard's semantics, under C56's restrictions (one result, within, modest) and proper calls; proper excludes what the WASI layer gets wrong elsewhere (C49 zero bytes in paths, C50 sock_recv/sock_send/proc_raise, C34/C47 word after argv)."
  },
  {
   "property": "C58",
   "status": "partial",
   "theorems": [
    "C58_host_calls_partial",
    "C58_main_partial",
    "C58_transparent_partial"
   ],
   "note": "C58_host_calls_partial: standard and machine have the same host-call histories (both directions, non-terminating runs included), for programs within the restrictions of C23 (within, small, clear); C58_main_partial: the same for the whole program main, under C56's restrictions; C58_transparent_partial: on a WASI host through the interpreter's WASI layer, for histories of proper calls (C57). Missing: the programs these restrictions exclude."
  },
  {
   "property": "C59",
   "status": "partial",
   "theorems": [
    "C59_read_back",
    "C59_distinct",
    "C59_processes_partial",
    "C59_end_to_end_partial",
    "C59_states",
    "C59_later_states_partial"
   ],
   "note": "C59_read_back and C59_distinct: every state whose values are of their types (state_ok), byte for byte (bincode modelled; LZ4 any lossless compressor), for files of length below 2^32. C59_states: every state at which any program is stopped is such a state (C59_later_states_partial: also in later processes, for movable programs). C59_processes_partial, C59_end_to_end_partial: any number of processes; missing: programs with table.get/set/fill or data.drop (false: C29) and the restrictions of C56"
  },
  {
   "property": "C60",
   "status": "partial",
   "theorems": [
    "C60_cut",
    "C60_crash_partial",
    "C60_lost_refuted"
   ],
   "note": "proved: a file cut short anywhere is refused, so a crash leaves the old, the new or a refused file; refuted: that one of the two checkpoints survives"
  },
  {
   "property": "C61",
   "status": "partial",
   "theorems": [
    "C61_decoded_partial",
    "C61_damage_refuted",
    "C61_damage_ub_refuted",
    "C61_trailing_refuted",
    "C61_other_program_refuted",
    "C61_globals_refuted"
   ],
   "note": "proved: what is resumed is the encoding of a unique state; refuted: one changed byte, trailing bytes, a checkpoint of another program and another number of globals are accepted"
  },
  {
   "property": "C62",
   "status": "partial",
   "theorems": [
    "C62_file_written_partial",
    "C62_lost_refuted"
   ],
   "note": "proved for movable programs, in whichever process; refuted for a program holding a function reference: it is ended, without file, with status 0; no condition on the state (only that the file is shorter than 2^32 bytes)"
  },
  {
   "property": "C63",
   "status": "partial",
   "theorems": [
    "C63_continued_partial",
    "C63_open_files_refuted"
   ],
   "note": "proved: moving is invisible exactly if the new process' host goes on where the old one stopped; refuted: open descriptors are not carried over"
  },
  {
   "property": "C64",
   "status": "partial",
   "theorems": [
    "C64_whole_partial"
   ],
   "note": "C64_whole_partial: all components composed, under the restrictions of C56 (fragment of C23, modules of C32), C57 (proper calls) and C59 (programs that can be moved), for terminating runs; missing: what these restrictions exclude (refuted there)"
  },
  {
   "property": "C65",
   "status": "partial",
   "theorems": [
    "C65_moved_partial",
    "C65_server_partial"
   ],
   "note": "C65_moved_partial (any host) and C65_server_partial (WASI host, argument line): all prefixes of the host calls of ending and non-ending runs, under the restrictions of C58, C57 (proper calls) and C59 (programs that can be moved); what these exclude is refuted there"
  },
  {
   "property": "C66",
   "status": "proved",
   "theorems": [
    "C66_registers",
    "C66_bounded",
    "C66_checkpoints",
    "C66_file"
   ],
   "note": "C66_registers (every module), C66_bounded, C66_checkpoints, C66_file; sizes count entries (bytes in C66_file); the Rust allocator's spare capacity is not modelled"
  },
  {
   "property": "C67",
   "status": "partial",
   "theorems": [
    "C67_checked_partial",
    "C67_server_partial",
    "C67_sched_yield_partial"
   ],
   "note": "C67_checked_partial: for every file that passes the computable check Accept.admit_moved (proved sound: admit_sound, admit_moved_sound; it decides validity, the restrictions of Restrict.v, ranges and segments) the conclusion of C64 holds with no other hypothesis on the file. C67_sched_yield_partial: instance for tests/wasi/sched_yield.wasm, a compiled Rust program of 197 functions, on every host. All 24 compiled programs in tests/wasi and 54 of the 56 modules the test-suites load pass the check (ConfSpec.v, DESIGN.md). Missing: programs outside the check, and the run-time condition clear (computed to hold for sched_yield on one host in ConfProgram.v). C67_server_partial: the same for every prefix of the calls of programs that do not end (C65)."
  },
  {
   "property": "C68",
   "status": "partial",
   "theorems": [
    "C68_errno",
    "C68_ends_partial",
    "C68_host_partial",
    "C68_fault_refuted"
   ],
   "note": "C68_errno: every nonzero error number of the host arrives, for all functions, memories and replies. C68_ends_partial, C68_host_partial: with texts, tables and buffers in memory every call but proc_exit and proc_raise returns a number. C68_fault_refuted: fd_write with a buffer outside memory ends the program, with status 0, instead of giving it error 21 (the other functions hand the pointer to the host unchecked: C48, C35)."
  },
  {
   "property": "C69",
   "status": "proved",
   "theorems": [
    "C69_code",
    "C69_functions",
    "C69_registers"
   ],
   "note": "C69_code (any operator sequence), C69_functions and C69_registers (any module with imports before definitions, which the binary format imposes); example meeting both bounds exactly. Sizes of single instructions (register lists of calls and branches, br_table targets) are not counted."
  },
  {
   "property": "C70",
   "status": "proved",
   "theorems": [
    "C70_outcome",
    "C70_termination",
    "C70_fixed_size",
    "C70_calls_before",
    "C70_command",
    "C70_server",
    "C70_sched_yield",
    "C70_bound_refuted"
   ],
   "note": "C70_outcome, C70_termination, C70_fixed_size (machine, modules within Restrict.within that compile), C70_calls_before (calls before a fault), C70_command and C70_server (the whole command on every file accepted by Accept.admit_moved and by the computable check steady: no locals of reference type, no imported function in a table or no imports), C70_sched_yield (one compiled Rust program on every host). The in-bounds condition is on the standard's run (BoundsSpec.below_2GiB, at_bound). C70_bound_refuted: the bound condition is needed."
  },
  {
   "property": "C71",
   "status": "proved",
   "theorems": [
    "C71_arithmetic",
    "C71_determined",
    "C71_instructions",
    "C71_exact"
   ],
   "note": "C71_arithmetic: exact arithmetic on bit patterns (Ieee.v, the model of Rust's primitives, which are IEEE 754's) meets RoundSpec.v (rationals and the decoding of Core 4.3.3, no axioms, no Flocq); C71_determined: RoundSpec.v leaves only NaN patterns open; C71_instructions: the handlers, on every host whose primitives meet RoundSpec.v; C71_exact: promotion, demotion after it, small integers. That rustc's code for these primitives is IEEE 754 is trusted (it is WebAssembly's own instruction set on chiwawa's target)."
  },
  {
   "property": "C72",
   "status": "proved",
   "theorems": [
    "C72_processes",
    "C72_command",
    "C72_standard",
    "C72_report",
    "C72_same_execution",
    "C72_moved",
    "C72_nan_visible"
   ],
   "note": "C72_same_execution: every prefix without such an instruction is equal step by step; C72_moved: the run loop with any checkpoints and machines in between has exactly the outcomes of the undisturbed run on the first machine (carried: tables and data segments at a checkpoint as at the start, since checkpoints do not keep them, C29); C72_nan_visible: two machines meeting the standard on which a program returns different integers. C72_example: a loop adding tenths, stopped twice on the second machine. standard_fp is RoundSpec.v's reading of Core 4.3.3 (C71). C72_processes: a whole history of processes, each on a machine of its own: every session is, schedule by schedule, what it is on the first machine (same report, same checkpoint file). C72_command: composed with C70_command, the last process reports what the standard prescribes for the first machine; C72_command_example stops ten times 0.1 on one machine and finishes it on another. C72_standard, C72_report: the condition put on the standard's own run for one machine only (without_nan of NanSpec.v: the run is undefined where such a NaN appears): the standard prescribes the same run for every machine, and every machine, with any history of stops on it, reports that outcome; chiwawa does not occur in the condition. C72_report_example."
  },
  {
   "property": "C73",
   "status": "proved",
   "theorems": [
    "C73_unchanged",
    "C73_restored_unchanged"
   ],
   "note": "C73_unchanged, C73_restored_unchanged: commands and restored commands report what they report without instrumentation. C73_output_file shows that the condition on the trace file is needed. That run does not use the probes is how the code is written (runtime.rs 201-425, dispatchers and handlers do not mention them), modelled by run_probes"
  },
  {
   "property": "C74",
   "status": "partial",
   "theorems": [
    "C74_counts_partial",
    "C74_zero_refuted",
    "C74_exit_refuted",
    "C74_printed",
    "C74_warns"
   ],
   "note": "C74_counts_partial: what is recorded is summarised right, for every sequence and map order. That what is executed is recorded is false of the code: nothing is (C74_zero_refuted), and a program ending by proc_exit gets no summary (C74_exit_refuted)"
  },
  {
   "property": "C75",
   "status": "partial",
   "theorems": [
    "C75_selects_partial",
    "C75_names_partial",
    "C75_line_partial",
    "C75_values",
    "C75_warns",
    "C75_silent_refuted",
    "C75_memory_refuted",
    "C75_unknown_refuted",
    "C75_call_refuted",
    "C75_names_refuted"
   ],
   "note": "C75_selects_partial, C75_names_partial, C75_line_partial: every instruction of a translated body is selected if and only if its operator is asked for, named by its keyword and shown with the resources asked for, with the exceptions the refuted theorems name (imported calls, data.drop, local.tee of i32, the resource memory). That lines are written is false: C75_silent_refuted"
  },
  {
   "property": "C76",
   "status": "proved",
   "theorems": [
    "C76_handlers"
   ],
   "note": "C76_handlers: numbers read off the source by tools/indexes.py (Indexes.v), the translator's by Instrument.handler_index on the instructions of Decoder.translate; that the function of that name computes the operation is C01-C13 and C43"
  }
 ]
}