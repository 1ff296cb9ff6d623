(** The same tests on the specification of WebAssembly the theorems refer to (Wasm.v): the specification, too, is the one the tests assert.
    Then which functions of the test modules lie outside the fragment of Restrict.v, by index, and which
    modules meet all the conditions the theorems put on the file of a module (Accept.v). *)
From Coq Require Import List.
From Verif Require Import Machine Runtime Load Restrict ConfTests.
Import ListNotations.
Definition spec_block := Eval vm_compute in spec_bad t_block.
Example spec_block_ok : spec_block = []. Proof. reflexivity. Qed.
Definition spec_br := Eval vm_compute in spec_bad t_br.
Example spec_br_ok : spec_br = []. Proof. reflexivity. Qed.
Definition spec_br_if := Eval vm_compute in spec_bad t_br_if.
Example spec_br_if_ok : spec_br_if = []. Proof. reflexivity. Qed.
Definition spec_call := Eval vm_compute in spec_bad t_call.
Example spec_call_ok : spec_call = []. Proof. reflexivity. Qed.
Definition spec_call_indirect := Eval vm_compute in spec_bad t_call_indirect.
Example spec_call_indirect_ok : spec_call_indirect = []. Proof. reflexivity. Qed.
Definition spec_conversions := Eval vm_compute in spec_bad t_conversions.
Example spec_conversions_ok : spec_conversions = []. Proof. reflexivity. Qed.
Definition spec_f32 := Eval vm_compute in spec_bad t_f32.
Example spec_f32_ok : spec_f32 = []. Proof. reflexivity. Qed.
Definition spec_i32 := Eval vm_compute in spec_bad t_i32.
Example spec_i32_ok : spec_i32 = []. Proof. reflexivity. Qed.
Definition spec_i64 := Eval vm_compute in spec_bad t_i64.
Example spec_i64_ok : spec_i64 = []. Proof. reflexivity. Qed.
Definition spec_if := Eval vm_compute in spec_bad t_if.
Example spec_if_ok : spec_if = []. Proof. reflexivity. Qed.
Definition spec_labels := Eval vm_compute in spec_bad t_labels.
Example spec_labels_ok : spec_labels = []. Proof. reflexivity. Qed.
Definition spec_loop := Eval vm_compute in spec_bad t_loop.
Example spec_loop_ok : spec_loop = []. Proof. reflexivity. Qed.
Definition spec_memory := Eval vm_compute in spec_bad t_memory.
Example spec_memory_ok : spec_memory = []. Proof. reflexivity. Qed.
Definition spec_memorycopy := Eval vm_compute in spec_bad t_memorycopy.
Example spec_memorycopy_ok : spec_memorycopy = []. Proof. reflexivity. Qed.
Definition spec_memoryfill := Eval vm_compute in spec_bad t_memoryfill.
Example spec_memoryfill_ok : spec_memoryfill = []. Proof. reflexivity. Qed.
Definition spec_memoryinit := Eval vm_compute in spec_bad t_memoryinit.
Example spec_memoryinit_ok : spec_memoryinit = []. Proof. reflexivity. Qed.
Definition spec_memorysize := Eval vm_compute in spec_bad t_memorysize.
Example spec_memorysize_ok : spec_memorysize = []. Proof. reflexivity. Qed.
Definition spec_ref_is_null := Eval vm_compute in spec_bad t_ref_is_null.
Example spec_ref_is_null_ok : spec_ref_is_null = []. Proof. reflexivity. Qed.
Definition spec_ref_null := Eval vm_compute in spec_bad t_ref_null.
Example spec_ref_null_ok : spec_ref_null = []. Proof. reflexivity. Qed.
Definition spec_select := Eval vm_compute in spec_bad t_select.
Example spec_select_ok : spec_select = []. Proof. reflexivity. Qed.
Definition spec_stack := Eval vm_compute in spec_bad t_stack.
Example spec_stack_ok : spec_stack = []. Proof. reflexivity. Qed.
Definition spec_store := Eval vm_compute in spec_bad t_store.
Example spec_store_ok : spec_store = []. Proof. reflexivity. Qed.
Definition spec_switch := Eval vm_compute in spec_bad (positive t_switch).
Example spec_switch_ok : spec_switch = []. Proof. reflexivity. Qed.
Definition spec_table_fill := Eval vm_compute in spec_bad t_table_fill.
Example spec_table_fill_ok : spec_table_fill = []. Proof. reflexivity. Qed.
Definition spec_table_get := Eval vm_compute in spec_bad t_table_get.
Example spec_table_get_ok : spec_table_get = []. Proof. reflexivity. Qed.
Definition spec_table_set := Eval vm_compute in spec_bad t_table_set.
Example spec_table_set_ok : spec_table_set = []. Proof. reflexivity. Qed.
Definition meets_block := Eval vm_compute in meets_all w_block.
Example meets_block_ok : meets_block = true. Proof. reflexivity. Qed.
Definition outside_block := Eval vm_compute in option_map fst (outside w_block).
Example outside_block_ok : outside_block = Some []. Proof. reflexivity. Qed.
Definition meets_br := Eval vm_compute in meets_all w_br.
Example meets_br_ok : meets_br = true. Proof. reflexivity. Qed.
Definition outside_br := Eval vm_compute in option_map fst (outside w_br).
Example outside_br_ok : outside_br = Some []. Proof. reflexivity. Qed.
Definition meets_br_if := Eval vm_compute in meets_all w_br_if.
Example meets_br_if_ok : meets_br_if = true. Proof. reflexivity. Qed.
Definition outside_br_if := Eval vm_compute in option_map fst (outside w_br_if).
Example outside_br_if_ok : outside_br_if = Some []. Proof. reflexivity. Qed.
Definition meets_call := Eval vm_compute in meets_all w_call.
Example meets_call_ok : meets_call = true. Proof. reflexivity. Qed.
Definition outside_call := Eval vm_compute in option_map fst (outside w_call).
Example outside_call_ok : outside_call = Some []. Proof. reflexivity. Qed.
Definition meets_call_indirect := Eval vm_compute in meets_all w_call_indirect.
Example meets_call_indirect_ok : meets_call_indirect = true. Proof. reflexivity. Qed.
Definition outside_call_indirect := Eval vm_compute in option_map fst (outside w_call_indirect).
Example outside_call_indirect_ok : outside_call_indirect = Some []. Proof. reflexivity. Qed.
Definition meets_conversions := Eval vm_compute in meets_all w_conversions.
Example meets_conversions_ok : meets_conversions = true. Proof. reflexivity. Qed.
Definition outside_conversions := Eval vm_compute in option_map fst (outside w_conversions).
Example outside_conversions_ok : outside_conversions = Some []. Proof. reflexivity. Qed.
Definition meets_f32 := Eval vm_compute in meets_all w_f32.
Example meets_f32_ok : meets_f32 = true. Proof. reflexivity. Qed.
Definition outside_f32 := Eval vm_compute in option_map fst (outside w_f32).
Example outside_f32_ok : outside_f32 = Some []. Proof. reflexivity. Qed.
Definition meets_i32 := Eval vm_compute in meets_all w_i32.
Example meets_i32_ok : meets_i32 = true. Proof. reflexivity. Qed.
Definition outside_i32 := Eval vm_compute in option_map fst (outside w_i32).
Example outside_i32_ok : outside_i32 = Some []. Proof. reflexivity. Qed.
Definition meets_i64 := Eval vm_compute in meets_all w_i64.
Example meets_i64_ok : meets_i64 = true. Proof. reflexivity. Qed.
Definition outside_i64 := Eval vm_compute in option_map fst (outside w_i64).
Example outside_i64_ok : outside_i64 = Some []. Proof. reflexivity. Qed.
Definition meets_if := Eval vm_compute in meets_all w_if.
Example meets_if_ok : meets_if = true. Proof. reflexivity. Qed.
Definition outside_if := Eval vm_compute in option_map fst (outside w_if).
Example outside_if_ok : outside_if = Some []. Proof. reflexivity. Qed.
Definition meets_labels := Eval vm_compute in meets_all w_labels.
Example meets_labels_ok : meets_labels = true. Proof. reflexivity. Qed.
Definition outside_labels := Eval vm_compute in option_map fst (outside w_labels).
Example outside_labels_ok : outside_labels = Some []. Proof. reflexivity. Qed.
Definition meets_loop := Eval vm_compute in meets_all w_loop.
Example meets_loop_ok : meets_loop = false. Proof. reflexivity. Qed.
Definition outside_loop := Eval vm_compute in option_map fst (outside w_loop).
Example outside_loop_ok : outside_loop = Some [40; 41]. Proof. reflexivity. Qed.
Definition meets_memory := Eval vm_compute in meets_all w_memory.
Example meets_memory_ok : meets_memory = true. Proof. reflexivity. Qed.
Definition outside_memory := Eval vm_compute in option_map fst (outside w_memory).
Example outside_memory_ok : outside_memory = Some []. Proof. reflexivity. Qed.
Definition meets_memorycopy_1 := Eval vm_compute in meets_all w_memorycopy_1.
Example meets_memorycopy_1_ok : meets_memorycopy_1 = true. Proof. reflexivity. Qed.
Definition outside_memorycopy_1 := Eval vm_compute in option_map fst (outside w_memorycopy_1).
Example outside_memorycopy_1_ok : outside_memorycopy_1 = Some []. Proof. reflexivity. Qed.
Definition meets_memorycopy_2 := Eval vm_compute in meets_all w_memorycopy_2.
Example meets_memorycopy_2_ok : meets_memorycopy_2 = true. Proof. reflexivity. Qed.
Definition outside_memorycopy_2 := Eval vm_compute in option_map fst (outside w_memorycopy_2).
Example outside_memorycopy_2_ok : outside_memorycopy_2 = Some []. Proof. reflexivity. Qed.
Definition meets_memorycopy_3 := Eval vm_compute in meets_all w_memorycopy_3.
Example meets_memorycopy_3_ok : meets_memorycopy_3 = true. Proof. reflexivity. Qed.
Definition outside_memorycopy_3 := Eval vm_compute in option_map fst (outside w_memorycopy_3).
Example outside_memorycopy_3_ok : outside_memorycopy_3 = Some []. Proof. reflexivity. Qed.
Definition meets_memorycopy_4 := Eval vm_compute in meets_all w_memorycopy_4.
Example meets_memorycopy_4_ok : meets_memorycopy_4 = true. Proof. reflexivity. Qed.
Definition outside_memorycopy_4 := Eval vm_compute in option_map fst (outside w_memorycopy_4).
Example outside_memorycopy_4_ok : outside_memorycopy_4 = Some []. Proof. reflexivity. Qed.
Definition meets_memorycopy_5 := Eval vm_compute in meets_all w_memorycopy_5.
Example meets_memorycopy_5_ok : meets_memorycopy_5 = true. Proof. reflexivity. Qed.
Definition outside_memorycopy_5 := Eval vm_compute in option_map fst (outside w_memorycopy_5).
Example outside_memorycopy_5_ok : outside_memorycopy_5 = Some []. Proof. reflexivity. Qed.
Definition meets_memorycopy_6 := Eval vm_compute in meets_all w_memorycopy_6.
Example meets_memorycopy_6_ok : meets_memorycopy_6 = true. Proof. reflexivity. Qed.
Definition outside_memorycopy_6 := Eval vm_compute in option_map fst (outside w_memorycopy_6).
Example outside_memorycopy_6_ok : outside_memorycopy_6 = Some []. Proof. reflexivity. Qed.
Definition meets_memorycopy_7 := Eval vm_compute in meets_all w_memorycopy_7.
Example meets_memorycopy_7_ok : meets_memorycopy_7 = true. Proof. reflexivity. Qed.
Definition outside_memorycopy_7 := Eval vm_compute in option_map fst (outside w_memorycopy_7).
Example outside_memorycopy_7_ok : outside_memorycopy_7 = Some []. Proof. reflexivity. Qed.
Definition meets_memorycopy_8 := Eval vm_compute in meets_all w_memorycopy_8.
Example meets_memorycopy_8_ok : meets_memorycopy_8 = true. Proof. reflexivity. Qed.
Definition outside_memorycopy_8 := Eval vm_compute in option_map fst (outside w_memorycopy_8).
Example outside_memorycopy_8_ok : outside_memorycopy_8 = Some []. Proof. reflexivity. Qed.
Definition meets_memorycopy_9 := Eval vm_compute in meets_all w_memorycopy_9.
Example meets_memorycopy_9_ok : meets_memorycopy_9 = true. Proof. reflexivity. Qed.
Definition outside_memorycopy_9 := Eval vm_compute in option_map fst (outside w_memorycopy_9).
Example outside_memorycopy_9_ok : outside_memorycopy_9 = Some []. Proof. reflexivity. Qed.
Definition meets_memorycopy_10 := Eval vm_compute in meets_all w_memorycopy_10.
Example meets_memorycopy_10_ok : meets_memorycopy_10 = true. Proof. reflexivity. Qed.
Definition outside_memorycopy_10 := Eval vm_compute in option_map fst (outside w_memorycopy_10).
Example outside_memorycopy_10_ok : outside_memorycopy_10 = Some []. Proof. reflexivity. Qed.
Definition meets_memorycopy_11 := Eval vm_compute in meets_all w_memorycopy_11.
Example meets_memorycopy_11_ok : meets_memorycopy_11 = true. Proof. reflexivity. Qed.
Definition outside_memorycopy_11 := Eval vm_compute in option_map fst (outside w_memorycopy_11).
Example outside_memorycopy_11_ok : outside_memorycopy_11 = Some []. Proof. reflexivity. Qed.
Definition meets_memorycopy_12 := Eval vm_compute in meets_all w_memorycopy_12.
Example meets_memorycopy_12_ok : meets_memorycopy_12 = true. Proof. reflexivity. Qed.
Definition outside_memorycopy_12 := Eval vm_compute in option_map fst (outside w_memorycopy_12).
Example outside_memorycopy_12_ok : outside_memorycopy_12 = Some []. Proof. reflexivity. Qed.
Definition meets_memorycopy_13 := Eval vm_compute in meets_all w_memorycopy_13.
Example meets_memorycopy_13_ok : meets_memorycopy_13 = true. Proof. reflexivity. Qed.
Definition outside_memorycopy_13 := Eval vm_compute in option_map fst (outside w_memorycopy_13).
Example outside_memorycopy_13_ok : outside_memorycopy_13 = Some []. Proof. reflexivity. Qed.
Definition meets_memoryfill_1 := Eval vm_compute in meets_all w_memoryfill_1.
Example meets_memoryfill_1_ok : meets_memoryfill_1 = true. Proof. reflexivity. Qed.
Definition outside_memoryfill_1 := Eval vm_compute in option_map fst (outside w_memoryfill_1).
Example outside_memoryfill_1_ok : outside_memoryfill_1 = Some []. Proof. reflexivity. Qed.
Definition meets_memoryfill_2 := Eval vm_compute in meets_all w_memoryfill_2.
Example meets_memoryfill_2_ok : meets_memoryfill_2 = true. Proof. reflexivity. Qed.
Definition outside_memoryfill_2 := Eval vm_compute in option_map fst (outside w_memoryfill_2).
Example outside_memoryfill_2_ok : outside_memoryfill_2 = Some []. Proof. reflexivity. Qed.
Definition meets_memoryfill_3 := Eval vm_compute in meets_all w_memoryfill_3.
Example meets_memoryfill_3_ok : meets_memoryfill_3 = true. Proof. reflexivity. Qed.
Definition outside_memoryfill_3 := Eval vm_compute in option_map fst (outside w_memoryfill_3).
Example outside_memoryfill_3_ok : outside_memoryfill_3 = Some []. Proof. reflexivity. Qed.
Definition meets_memoryfill_4 := Eval vm_compute in meets_all w_memoryfill_4.
Example meets_memoryfill_4_ok : meets_memoryfill_4 = true. Proof. reflexivity. Qed.
Definition outside_memoryfill_4 := Eval vm_compute in option_map fst (outside w_memoryfill_4).
Example outside_memoryfill_4_ok : outside_memoryfill_4 = Some []. Proof. reflexivity. Qed.
Definition meets_memoryfill_5 := Eval vm_compute in meets_all w_memoryfill_5.
Example meets_memoryfill_5_ok : meets_memoryfill_5 = true. Proof. reflexivity. Qed.
Definition outside_memoryfill_5 := Eval vm_compute in option_map fst (outside w_memoryfill_5).
Example outside_memoryfill_5_ok : outside_memoryfill_5 = Some []. Proof. reflexivity. Qed.
Definition meets_memoryfill_6 := Eval vm_compute in meets_all w_memoryfill_6.
Example meets_memoryfill_6_ok : meets_memoryfill_6 = true. Proof. reflexivity. Qed.
Definition outside_memoryfill_6 := Eval vm_compute in option_map fst (outside w_memoryfill_6).
Example outside_memoryfill_6_ok : outside_memoryfill_6 = Some []. Proof. reflexivity. Qed.
Definition meets_memoryfill_7 := Eval vm_compute in meets_all w_memoryfill_7.
Example meets_memoryfill_7_ok : meets_memoryfill_7 = true. Proof. reflexivity. Qed.
Definition outside_memoryfill_7 := Eval vm_compute in option_map fst (outside w_memoryfill_7).
Example outside_memoryfill_7_ok : outside_memoryfill_7 = Some []. Proof. reflexivity. Qed.
Definition meets_memoryinit_1 := Eval vm_compute in meets_all w_memoryinit_1.
Example meets_memoryinit_1_ok : meets_memoryinit_1 = true. Proof. reflexivity. Qed.
Definition outside_memoryinit_1 := Eval vm_compute in option_map fst (outside w_memoryinit_1).
Example outside_memoryinit_1_ok : outside_memoryinit_1 = Some []. Proof. reflexivity. Qed.
Definition meets_memoryinit_2 := Eval vm_compute in meets_all w_memoryinit_2.
Example meets_memoryinit_2_ok : meets_memoryinit_2 = true. Proof. reflexivity. Qed.
Definition outside_memoryinit_2 := Eval vm_compute in option_map fst (outside w_memoryinit_2).
Example outside_memoryinit_2_ok : outside_memoryinit_2 = Some []. Proof. reflexivity. Qed.
Definition meets_memoryinit_3 := Eval vm_compute in meets_all w_memoryinit_3.
Example meets_memoryinit_3_ok : meets_memoryinit_3 = true. Proof. reflexivity. Qed.
Definition outside_memoryinit_3 := Eval vm_compute in option_map fst (outside w_memoryinit_3).
Example outside_memoryinit_3_ok : outside_memoryinit_3 = Some []. Proof. reflexivity. Qed.
Definition meets_memoryinit_4 := Eval vm_compute in meets_all w_memoryinit_4.
Example meets_memoryinit_4_ok : meets_memoryinit_4 = true. Proof. reflexivity. Qed.
Definition outside_memoryinit_4 := Eval vm_compute in option_map fst (outside w_memoryinit_4).
Example outside_memoryinit_4_ok : outside_memoryinit_4 = Some []. Proof. reflexivity. Qed.
Definition meets_memoryinit_5 := Eval vm_compute in meets_all w_memoryinit_5.
Example meets_memoryinit_5_ok : meets_memoryinit_5 = true. Proof. reflexivity. Qed.
Definition outside_memoryinit_5 := Eval vm_compute in option_map fst (outside w_memoryinit_5).
Example outside_memoryinit_5_ok : outside_memoryinit_5 = Some []. Proof. reflexivity. Qed.
Definition meets_memoryinit_6 := Eval vm_compute in meets_all w_memoryinit_6.
Example meets_memoryinit_6_ok : meets_memoryinit_6 = true. Proof. reflexivity. Qed.
Definition outside_memoryinit_6 := Eval vm_compute in option_map fst (outside w_memoryinit_6).
Example outside_memoryinit_6_ok : outside_memoryinit_6 = Some []. Proof. reflexivity. Qed.
Definition meets_memoryinit_7 := Eval vm_compute in meets_all w_memoryinit_7.
Example meets_memoryinit_7_ok : meets_memoryinit_7 = true. Proof. reflexivity. Qed.
Definition outside_memoryinit_7 := Eval vm_compute in option_map fst (outside w_memoryinit_7).
Example outside_memoryinit_7_ok : outside_memoryinit_7 = Some []. Proof. reflexivity. Qed.
Definition meets_memoryinit_8 := Eval vm_compute in meets_all w_memoryinit_8.
Example meets_memoryinit_8_ok : meets_memoryinit_8 = true. Proof. reflexivity. Qed.
Definition outside_memoryinit_8 := Eval vm_compute in option_map fst (outside w_memoryinit_8).
Example outside_memoryinit_8_ok : outside_memoryinit_8 = Some []. Proof. reflexivity. Qed.
Definition meets_memoryinit_9 := Eval vm_compute in meets_all w_memoryinit_9.
Example meets_memoryinit_9_ok : meets_memoryinit_9 = true. Proof. reflexivity. Qed.
Definition outside_memoryinit_9 := Eval vm_compute in option_map fst (outside w_memoryinit_9).
Example outside_memoryinit_9_ok : outside_memoryinit_9 = Some []. Proof. reflexivity. Qed.
Definition meets_memoryinit_10 := Eval vm_compute in meets_all w_memoryinit_10.
Example meets_memoryinit_10_ok : meets_memoryinit_10 = true. Proof. reflexivity. Qed.
Definition outside_memoryinit_10 := Eval vm_compute in option_map fst (outside w_memoryinit_10).
Example outside_memoryinit_10_ok : outside_memoryinit_10 = Some []. Proof. reflexivity. Qed.
Definition meets_memorysize_1 := Eval vm_compute in meets_all w_memorysize_1.
Example meets_memorysize_1_ok : meets_memorysize_1 = true. Proof. reflexivity. Qed.
Definition outside_memorysize_1 := Eval vm_compute in option_map fst (outside w_memorysize_1).
Example outside_memorysize_1_ok : outside_memorysize_1 = Some []. Proof. reflexivity. Qed.
Definition meets_memorysize_2 := Eval vm_compute in meets_all w_memorysize_2.
Example meets_memorysize_2_ok : meets_memorysize_2 = true. Proof. reflexivity. Qed.
Definition outside_memorysize_2 := Eval vm_compute in option_map fst (outside w_memorysize_2).
Example outside_memorysize_2_ok : outside_memorysize_2 = Some []. Proof. reflexivity. Qed.
Definition meets_memorysize_3 := Eval vm_compute in meets_all w_memorysize_3.
Example meets_memorysize_3_ok : meets_memorysize_3 = true. Proof. reflexivity. Qed.
Definition outside_memorysize_3 := Eval vm_compute in option_map fst (outside w_memorysize_3).
Example outside_memorysize_3_ok : outside_memorysize_3 = Some []. Proof. reflexivity. Qed.
Definition meets_memorysize_4 := Eval vm_compute in meets_all w_memorysize_4.
Example meets_memorysize_4_ok : meets_memorysize_4 = true. Proof. reflexivity. Qed.
Definition outside_memorysize_4 := Eval vm_compute in option_map fst (outside w_memorysize_4).
Example outside_memorysize_4_ok : outside_memorysize_4 = Some []. Proof. reflexivity. Qed.
Definition meets_ref_is_null := Eval vm_compute in meets_all w_ref_is_null.
Example meets_ref_is_null_ok : meets_ref_is_null = true. Proof. reflexivity. Qed.
Definition outside_ref_is_null := Eval vm_compute in option_map fst (outside w_ref_is_null).
Example outside_ref_is_null_ok : outside_ref_is_null = Some []. Proof. reflexivity. Qed.
Definition meets_ref_null := Eval vm_compute in meets_all w_ref_null.
Example meets_ref_null_ok : meets_ref_null = true. Proof. reflexivity. Qed.
Definition outside_ref_null := Eval vm_compute in option_map fst (outside w_ref_null).
Example outside_ref_null_ok : outside_ref_null = Some []. Proof. reflexivity. Qed.
Definition meets_select := Eval vm_compute in meets_all w_select.
Example meets_select_ok : meets_select = false. Proof. reflexivity. Qed.
Definition outside_select := Eval vm_compute in option_map fst (outside w_select).
Example outside_select_ok : outside_select = Some [9; 10]. Proof. reflexivity. Qed.
Definition meets_stack := Eval vm_compute in meets_all w_stack.
Example meets_stack_ok : meets_stack = true. Proof. reflexivity. Qed.
Definition outside_stack := Eval vm_compute in option_map fst (outside w_stack).
Example outside_stack_ok : outside_stack = Some []. Proof. reflexivity. Qed.
Definition meets_store := Eval vm_compute in meets_all w_store.
Example meets_store_ok : meets_store = true. Proof. reflexivity. Qed.
Definition outside_store := Eval vm_compute in option_map fst (outside w_store).
Example outside_store_ok : outside_store = Some []. Proof. reflexivity. Qed.
Definition meets_switch := Eval vm_compute in meets_all w_switch.
Example meets_switch_ok : meets_switch = true. Proof. reflexivity. Qed.
Definition outside_switch := Eval vm_compute in option_map fst (outside w_switch).
Example outside_switch_ok : outside_switch = Some []. Proof. reflexivity. Qed.
Definition meets_table_fill := Eval vm_compute in meets_all w_table_fill.
Example meets_table_fill_ok : meets_table_fill = true. Proof. reflexivity. Qed.
Definition outside_table_fill := Eval vm_compute in option_map fst (outside w_table_fill).
Example outside_table_fill_ok : outside_table_fill = Some []. Proof. reflexivity. Qed.
Definition meets_table_get := Eval vm_compute in meets_all w_table_get.
Example meets_table_get_ok : meets_table_get = true. Proof. reflexivity. Qed.
Definition outside_table_get := Eval vm_compute in option_map fst (outside w_table_get).
Example outside_table_get_ok : outside_table_get = Some []. Proof. reflexivity. Qed.
Definition meets_table_set := Eval vm_compute in meets_all w_table_set.
Example meets_table_set_ok : meets_table_set = true. Proof. reflexivity. Qed.
Definition outside_table_set := Eval vm_compute in option_map fst (outside w_table_set).
Example outside_table_set_ok : outside_table_set = Some []. Proof. reflexivity. Qed.
