#!/usr/bin/env python3
"""Turns the results of tools/mutate.py into seeded/LOG.jsonl.  Usage: mklog.py LOG OUT.jsonl..."""
import sys, json
CLAIM = {
  'bump': 'C74: the counter of the executed opcode, and no other, goes up by one', 'insert': 'C74: the report is ordered by count', 'lower': 'C75: event and resource names are matched whatever their case',
  'record_instruction': 'C74: every executed instruction is counted once', 'selects': 'C75: which instructions a selected event covers', 'stats_report': 'C74: the total and the most frequent opcodes of the report',
  'trace_instruction': 'C75: contents of a trace line', 'w_all': 'C75: the name of an event or resource', 'w_call': 'C75: the name of an event', 'w_locals': 'C75: the name of a resource', 'w_pc': 'C75: the name of a resource', 'wants': 'C75: which resources a line shows',
 'open_block': 'C23: blocks keep the registers of their parameters and results', 'select_cls': 'C40: the class select works on', 'is_load': 'C21: operand folding', 'branch_src': 'C38: values a branch moves', 'benv': 'C52: types of the functions a body refers to', 'up_to_close': 'C55: the text between the parentheses', 'parse_param': 'C55: parameters of the command line', 'load_bytes': 'C10: width of loads', 'reinterpret_i2f': 'C09: reinterpretation keeps the bits', 'F32': 'C07-C09: format of f32', 'sop_eval': 'C23: each operator is the one of its name', 'in_u': 'C01: range of unsigned numbers',
 # numeric
 'div_signed': 'C02: signed division is exact, rounds toward zero and traps on overflow and zero', 'rem_unsigned': 'C02: unsigned remainder', 'wrapping_rem': 'C02: signed remainder, 0 for the overflowing quotient',
 'wrapping_sub': 'C01: subtraction is modulo 2^w', 'wrapping_add': 'C01: addition is modulo 2^w', 'rotate_right': 'C03: rotation', 'of_opt': 'C02: a division by zero traps', 'in_s': 'C01: results are in the signed range of their width',
 'cast_s': 'C01, C06: reinterpretation as signed', 'i32_binop': 'C01-C03: each i32 operator is the one of its name', 'i64_binop': 'C01-C03: each i64 operator is the one of its name', 'i32_relop': 'C04: i32 comparisons', 'i64_relop': 'C04: i64 comparisons', 'i64_unop': 'C05, C06: clz, ctz, popcnt, extensions of i64',
 'int_as_float': 'C07: the bounds used for truncation are the rounded integers', 'fmag': 'C07-C09: value of a float', 'conv_i64_trunc': 'C07: truncation to i64 traps exactly outside its range', 'conv_i32_trunc': 'C07: truncation to i32 traps exactly outside its range',
 'conv_trunc_sat': 'C08: saturating truncation', 'sat': 'C08: saturation', 'f_neg': 'C09: negation flips only the sign bit', 'f_abs': 'C09: abs clears only the sign bit', 'f_copysign': 'C09: copysign', 'f_relop': 'C09: float comparisons', 'fnan': 'C09: NaN', 'f_min': 'C09: min',
 # memory
 'isize_max': 'C10, C12: largest object', 'usize': 'C10, C11: addresses have 32 bits', 'eff_addr': 'C10: effective address', 'raw_read': 'C10: bytes read', 'mem_new': 'C32: a new memory has min pages of zeros', 'load_cls': 'C10: a load yields a value of its type', 'load_conv': 'C10: width and sign extension of loads',
 'store_bytes_n': 'C10: width of stores', 'le_encode': 'C10: little-endian stores', 'le_decode': 'C10: little-endian loads', 'mem_copy': 'C13: memory.copy', 'mem_fill': 'C13: memory.fill', 'mem_init': 'C13: memory.init', 'mem_init_at': 'C13, C32: data segments', 'mem_grow_raw': 'C12: memory.grow', 'resize': 'C12: growing keeps the contents and adds zeros',
 'table_get': 'C16: table.get', 'table_set': 'C16: table.set', 'table_fill': 'C16: table.fill', 'fill_loop': 'C16: table.fill', 'table_func': 'C17: the function called through a table', 'global_get': 'C15: global.get', 'global_set': 'C15: global.set', 'ref_is_null': 'C16: ref.is_null',
 # registers
 'sget': 'C36: each type has its own registers', 'sset': 'C36: each type has its own registers', 'sbuild': 'C36: register counts per type', 'u16': 'C20, C42: register numbers have 16 bits', 'al_pop': 'C20: register of the popped operand', 'al_pop_any': 'C20', 'al_pops': 'C20', 'al_push': 'C20: fresh register for a result', 'al_peek_regs': 'C19, C38: registers of block results', 'al_restore': 'C23: operand stack at the end of a block',
 'rf_get': 'C36: register read', 'rf_set': 'C36: register write', 'rf_set_val': 'C26, C36: results reach the registers of the caller', 'rf_restore': 'C18: the registers of the caller are restored',
 # machine
 'hstep': 'C23: each instruction does what the standard says', 'dstep': 'C23: each instruction does what the standard says', 'new_label': 'C45: label stack', 'initial': 'C23, C41: initial frame', 'pop_to': 'C24, C45: branching pops the labels left', 'ftype_eqb': 'C17: type check of call_indirect', 'vts_eqb': 'C17: type check of call_indirect',
 'goto': 'C23: jump', 'set_ip': 'C27, C28: resume after a yield', 'hres': 'C23: a trap ends the run', 'sres': 'C23: a trap ends the run', 'enter': 'C26: locals of the callee are arguments then zeros', 'do_select': 'C40: select', 'branch': 'C19: a branch moves its results', 'arrayvec8': 'C42: number of results', 'write': 'C22: result written to its destination', 'fresh_ptr': 'C46: cached memory pointer',
 # decoder
 'dec_live': 'C23: translation of structured operators', 'dec_basic': 'C21, C23: operand folding', 'dec_op': 'C22, C23: result folding', 'dec_dead': 'C37: unreachable code', 'dec_ops': 'C23', 'scan1': 'C44: resolution of branch targets', 'scan': 'C44: resolution of branch targets', 'table_target': 'C25: targets of br_table', 'fix1': 'C44: resolution of branch targets', 'phase3': 'C25: targets of br_table', 'sop_takes': 'C21: which operators take folded operands',
 'call_info': 'C26: arguments and results of calls', 'flatten': 'C23', 'fold_dst': 'C22: result folding into local.set/tee', 'sop_ok': 'C51: supported operators', 'can_fold_for_store': 'C21: operand folding', 'consumer': 'C21: operand folding', 'is_num': 'C21', 'dst_foldable': 'C22: result folding', 'translate': 'C23', 'is_br_table': 'C25',
 # runtime
 'poll': 'C30: a request is seen within 1024 instructions', 'loop_dispatch': 'C27: both dispatchers agree', 'tco_dispatch': 'C27: both dispatchers agree', 'restore': 'C28: a restored run continues as if not interrupted', 'checkpoint': 'C28, C29: a restored run continues as if not interrupted', 'ser_state': 'C28: which states can be saved', 'ser_rf': 'C28: which states can be saved', 'start': 'C41: initial state', 'rres': 'C41', 'set_outermost': 'C30, C31: the outermost frame checks for requests',
 # args, wasi
 'parse_loop': 'C33: splitting of the command line', 'parse_args': 'C33: splitting of the command line', 'quote': 'C33: quotes', 'space': 'C33: blanks', 'perform': 'C50: arguments reach the host unchanged', 'environ_sizes_get': 'C47: sizes of the environment', 'environ_get': 'C47: layout of the environment', 'environ_ptrs': 'C47: layout of the environment', 'args_ptrs': 'C34: layout of argv', 'args_sizes_get': 'C34: sizes of argv', 'args_get': 'C34: layout of argv',
 'iovecs': 'C35, C48: buffers named by the guest', 'iovs': 'C35, C48: buffers named by the guest', 'u64': 'C50: 64-bit arguments', 'u32': 'C50: 32-bit arguments', 'u32_at': 'C35: words of memory', 'fd_p': 'C48: pread/pwrite', 'random_get': 'C50: random_get', 'fd_write': 'C35: fd_write', 'fd_read': 'C48: fd_read', 'with_path': 'C49: the path the guest named', 'ret': 'C50: the guest gets the error number of the host', 'ret_errno': 'C50: the guest gets the error number of the host', 'out': 'C50: results of the host', 'clock': 'C50: clock functions', 'u16': 'C20, C42: register numbers have 16 bits',
 # module
 'instantiate': 'C32: instantiation', 'elems': 'C32: element segments', 'table_init': 'C32: element segments', 'export_ok': 'C32: exports', 'alloc_mem': 'C32: memory', 'offset': 'C32: offsets of segments',
 # load, world
 'capture': 'C55: parameters are the text between the parentheses', 'panics': 'C52: a malformed body is refused', 'whole': 'C52: a malformed section is refused',
 'expected': 'C50, C57: the type a WASI function is imported with', 'I32s': 'C50, C57: types of WASI functions', 'parse_int': 'C55: decimal numerals', 'digit': 'C55: decimal digits', 'digits': 'C55: decimal digits', 'prefix': 'C55: the type name of a parameter', 'load1': 'C52: loading of a section', 'handle_result': 'C54: exit status and output', 'empty_mod': 'C52: loading starts from nothing',
 'sop_args': 'C23: operand types', 'wz': 'C01: widths', 'offsets': 'C57: layout of argv and environ', 'env_reply': 'C57: answers about the environment', 'ser_val': 'C28: which values can be saved', 'to_src': 'C52: the memory of the module', 'is_fimport': 'C52: numbering of functions',
 # proof devices
 'chk_func': 'C51: accepted functions', 'chk_basic': 'C51: accepted operators', 'small_func': 'C42: register numbers fit', 'homog': 'C38: block results of one type', 'fits16': 'C42: 16 bits', 'cls_list_eqb': 'C51', 'all_cls': 'C36: the six register classes',
 # files
 'c_label': 'C59-C61: what is read back from a checkpoint file is what was written, and nothing else is accepted', 'cls_tag': 'C59-C61: what is read back from a checkpoint file is what was written, and nothing else is accepted', 'cls_of_tag': 'C59-C61: what is read back from a checkpoint file is what was written, and nothing else is accepted', 'c_vec128': 'C59-C61: what is read back from a checkpoint file is what was written, and nothing else is accepted', 'c_regs': 'C59-C61: what is read back from a checkpoint file is what was written, and nothing else is accepted', 'c_enum': 'C59-C61: what is read back from a checkpoint file is what was written, and nothing else is accepted', 'c_u16': 'C59-C61: what is read back from a checkpoint file is what was written, and nothing else is accepted', 'c_i32': 'C59-C61: what is read back from a checkpoint file is what was written, and nothing else is accepted', 'c_val': 'C59-C61: what is read back from a checkpoint file is what was written, and nothing else is accepted', 'c_six': 'C59-C61: what is read back from a checkpoint file is what was written, and nothing else is accepted', 'c_vec': 'C59-C61: what is read back from a checkpoint file is what was written, and nothing else is accepted', 'c_num': 'C59-C61: what is read back from a checkpoint file is what was written, and nothing else is accepted', 'c_bool': 'C59-C61: what is read back from a checkpoint file is what was written, and nothing else is accepted', 'c_ref': 'C59-C61: what is read back from a checkpoint file is what was written, and nothing else is accepted', 'c_reg': 'C59-C61: what is read back from a checkpoint file is what was written, and nothing else is accepted', 'c_f32': 'C59-C61: what is read back from a checkpoint file is what was written, and nothing else is accepted', 'c_nat': 'C59-C61: what is read back from a checkpoint file is what was written, and nothing else is accepted',
 'top_ip': 'C27, C45: where a label resumes', 'default_local': 'C26: declared locals are zero', 'is_store': 'C21: operand folding', 'can_fold': 'C21: operand folding', 'hd_is': 'C21: operand folding', 'folds': 'C21: operand folding', 'i64_extend_i32_u': 'C06: zero extension', 'binop': 'C01-C03: each operator is the one of its name', 'i32_unop': 'C05: clz, ctz, popcnt', 'is_nan': 'C09: what is a NaN', 'is_inf': 'C07-C09: what is infinite', 'F64': 'C07-C09: format of f64', 'i_max': 'C07, C08: largest integer', 'fexpo': 'C07-C09: exponent of a float',
 'tbl_ok': 'C25: br_table is covered', 'fold_safe': 'C21: operators in a row are covered',
}
WHY = [  # (file, definition, part of new) -> verdict on a survivor
 ('Wasi.v', 'perform', 'cast_s 16', 'the rights word was only compared up to the casts of the model: the claim was broken', ['C50_arguments_partial']),
 ('Load.v', 'up_to_close', '', 'the characters allowed inside the parentheses were not stated on their own: the claim was broken', ['C55_value']),
 ('Decoder.v', 'consumer', 'Iext8 | Iext16 => false', 'no claim broken: i64.extend32_s may take its operand folded as well, the handler reads it from either place', []),
 ('Float.v', 'int_as_float', '', 'the constants were only used through their comparisons: the claim was broken', ['C07_constants_rounded']),
 ('Machine.v', 'initial', '', 'a start that fails was not compared with the run loop', ['C41_start', 'C54_import_refuted']),
 ('Mem.v', 'mem_new', 'm_gen', 'no claim broken: m_gen is the identity of the first allocation, any value will do', []),
 ('Store.v', 'global_', '', 'no claim broken: index outside the module, excluded by validation', []),
 ('Regs.v', 'rf_set', '', 'no claim broken: register outside the frame, shown unreachable by C20', []),
 ('Machine.v', 'write', '', 'no claim broken: local outside the frame, shown unreachable by C20', []),
 ('Machine.v', 'dstep', 'UB', 'no claim broken: access outside the frame, shown unreachable by C20', []),
 ('Machine.v', 'dstep', 'Trap THost', 'no claim broken: access outside the frame, shown unreachable by C20', []),
 ('Machine.v', 'dstep', 'DLoc', 'no claim broken: the class is not used when writing a local', []),
 ('Machine.v', 'new_label', '', 'no claim broken: the fields of the bottom label are never read', []),
 ('Decoder.v', 'dst_foldable', '', 'no claim broken: more or fewer results go straight into locals, with the same effect', []),
 ('Decoder.v', 'table_target', '', 'no claim broken: every block has an end, the default is not used', []),
 ('Decoder.v', 'dec_dead', 'leb', 'no claim broken: n <= 0 is n = 0', []),
 ('Decoder.v', 'is_br_table', '', 'no claim broken: no fixup is recorded for br_table and none would change it', []),
 ('Runtime.v', 'loop_dispatch', '', 'no claim broken: at the end of the code only the bottom label is left (C45)', []),
 ('Runtime.v', 'ser_rf', '', 'no claim broken: only the registers for references can hold a value that cannot be saved', []),
 ('Load.v', 'to_src', '', 'no claim broken: a valid module has at most one memory', []),
 ('Load.v', 'is_fimport', '', 'no claim broken: a module with another import is refused before functions are numbered', []),
 ('Load.v', 'capture', '', 'the text before the parenthesis was not looked at: the claim was broken', ['C55_parenthesis']),
 ('Load.v', 'panics', '', 'malformed bodies with more operators were not claimed to be refused', ['C52_structure_refuted']),
 ('Load.v', 'whole', '', 'sections with a malformed entry were only covered entry by entry', ['C52_rest_ignored']),
 ('Check.v', 'tbl_ok', '', 'no covered program had a br_table', ['C23_switch_example']),
 ('Check.v', 'fold_safe', '', 'no covered program had two operators in a row after a local.get', ['C23_switch_example']),
 ('Module.v', 'export_ok', 'leb i nm', 'exports of a missing memory were not claimed to be refused', ['C32_exports']),
 ('Wasi.v', 'out', '', 'no claim broken: the host gives as many results as the function has', []),
 ('Decoder.v', 'can_fold', '', 'no claim broken: every body ends with end, so something follows every value', []),
 ('Machine.v', 'top_ip', '', 'no claim broken: no label stack is empty (C45)', []),
 ('Codec.v', 'c_reg', '', 'no claim broken: the file is read back all the same; the width of the tag is only observable to other programs', []),
 ('Indexes.v', 'select_handler', 'i32_local_set', 'no claim broken: the tee of an i32 has the index LOCAL_SET, no instruction has LOCAL_TEE in this table', []),
 ('Wasi.v', 'perform', 'cast_', 'no claim broken: the host function takes a parameter of 16 (8) bits, congruent numbers are the same argument', []),
]
RENAMED = {'C22_destination_fold_partial': 'C22_in_context'}  # theorems renamed since
def main():
    log, outs = sys.argv[1], sys.argv[2:]
    n = 0
    with open(log, 'w') as L:
        for o in outs:
            for l in open(o):
                r = json.loads(l)
                if r['status'] not in ('killed', 'survived', 'timeout'): continue
                d, f = r['definition'], r['file']
                claim = r.get('claim') or CLAIM.get(d)
                if claim is None: print('no claim', f, d); claim = 'behaviour of ' + d
                e = {'definition': f + ': ' + d, 'edit': r['old'].strip() + '  =>  ' + r['new'].strip(), 'claim': claim, 'theorems_failed': [RENAMED.get(t, t) for t in r['theorems']], 'lemmas_failed': r['failed'][:6], 'tightened': r.get('tightened', [])}
                if not e['theorems_failed'] and r['status'] == 'killed':
                    e['note'] = 'the lemmas that fail are used through tactics by the proofs of the C-theorems of the claim'
                if r['status'] == 'timeout': e['note'] = 'the rebuild did not end within its time limit'
                if r['status'] == 'survived':
                    if 'note' in r: e['note'] = r['note']
                    else:
                        for (wf, wd, part, why, t) in WHY:
                            if f == wf and d.startswith(wd) and part in r['new']: e['note'], e['tightened'] = why, t; break
                        else: print('no verdict', f, d, r['old'].strip(), '=>', r['new'].strip()); continue
                L.write(json.dumps(e) + '\n'); n += 1
    print(n, 'lines')
main()
