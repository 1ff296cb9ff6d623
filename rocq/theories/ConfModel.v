(** Each call of each of the repository's tests (ConfTests.v, written by tools/conform.py) gets from the model the answer the test asserts,
    under both dispatchers.  Concrete runs, not theorems about all inputs: each definition is bound to the
    result computed when this file is compiled (the calls answered differently), which the example then says is empty. *)
From Coq Require Import List.
From Verif Require Import Machine Runtime Load Restrict ConfTests.
Import ListNotations.
Definition model_block := Eval vm_compute in bad LoopStyle t_block ++ bad TailCall t_block.
Example model_block_ok : model_block = []. Proof. reflexivity. Qed.
Definition model_br := Eval vm_compute in bad LoopStyle t_br ++ bad TailCall t_br.
Example model_br_ok : model_br = []. Proof. reflexivity. Qed.
Definition model_br_if := Eval vm_compute in bad LoopStyle t_br_if ++ bad TailCall t_br_if.
Example model_br_if_ok : model_br_if = []. Proof. reflexivity. Qed.
Definition model_call := Eval vm_compute in bad LoopStyle t_call ++ bad TailCall t_call.
Example model_call_ok : model_call = []. Proof. reflexivity. Qed.
Definition model_call_indirect := Eval vm_compute in bad LoopStyle t_call_indirect ++ bad TailCall t_call_indirect.
Example model_call_indirect_ok : model_call_indirect = []. Proof. reflexivity. Qed.
Definition model_conversions := Eval vm_compute in bad LoopStyle t_conversions ++ bad TailCall t_conversions.
Example model_conversions_ok : model_conversions = []. Proof. reflexivity. Qed.
Definition model_f32 := Eval vm_compute in bad LoopStyle t_f32 ++ bad TailCall t_f32.
Example model_f32_ok : model_f32 = []. Proof. reflexivity. Qed.
Definition model_i32 := Eval vm_compute in bad LoopStyle t_i32 ++ bad TailCall t_i32.
Example model_i32_ok : model_i32 = []. Proof. reflexivity. Qed.
Definition model_i64 := Eval vm_compute in bad LoopStyle t_i64 ++ bad TailCall t_i64.
Example model_i64_ok : model_i64 = []. Proof. reflexivity. Qed.
Definition model_if := Eval vm_compute in bad LoopStyle t_if ++ bad TailCall t_if.
Example model_if_ok : model_if = []. Proof. reflexivity. Qed.
Definition model_labels := Eval vm_compute in bad LoopStyle t_labels ++ bad TailCall t_labels.
Example model_labels_ok : model_labels = []. Proof. reflexivity. Qed.
Definition model_loop := Eval vm_compute in bad LoopStyle t_loop ++ bad TailCall t_loop.
Example model_loop_ok : model_loop = []. Proof. reflexivity. Qed.
Definition model_memory := Eval vm_compute in bad LoopStyle t_memory ++ bad TailCall t_memory.
Example model_memory_ok : model_memory = []. Proof. reflexivity. Qed.
Definition model_memorycopy := Eval vm_compute in bad LoopStyle t_memorycopy ++ bad TailCall t_memorycopy.
Example model_memorycopy_ok : model_memorycopy = []. Proof. reflexivity. Qed.
Definition model_memoryfill := Eval vm_compute in bad LoopStyle t_memoryfill ++ bad TailCall t_memoryfill.
Example model_memoryfill_ok : model_memoryfill = []. Proof. reflexivity. Qed.
Definition model_memoryinit := Eval vm_compute in bad LoopStyle t_memoryinit ++ bad TailCall t_memoryinit.
Example model_memoryinit_ok : model_memoryinit = []. Proof. reflexivity. Qed.
Definition model_memorysize := Eval vm_compute in bad LoopStyle t_memorysize ++ bad TailCall t_memorysize.
Example model_memorysize_ok : model_memorysize = []. Proof. reflexivity. Qed.
Definition model_ref_is_null := Eval vm_compute in bad LoopStyle t_ref_is_null ++ bad TailCall t_ref_is_null.
Example model_ref_is_null_ok : model_ref_is_null = []. Proof. reflexivity. Qed.
Definition model_ref_null := Eval vm_compute in bad LoopStyle t_ref_null ++ bad TailCall t_ref_null.
Example model_ref_null_ok : model_ref_null = []. Proof. reflexivity. Qed.
Definition model_select := Eval vm_compute in bad LoopStyle t_select ++ bad TailCall t_select.
Example model_select_ok : model_select = []. Proof. reflexivity. Qed.
Definition model_stack := Eval vm_compute in bad LoopStyle t_stack ++ bad TailCall t_stack.
Example model_stack_ok : model_stack = []. Proof. reflexivity. Qed.
Definition model_store := Eval vm_compute in bad LoopStyle t_store ++ bad TailCall t_store.
Example model_store_ok : model_store = []. Proof. reflexivity. Qed.
Definition model_switch := Eval vm_compute in bad LoopStyle t_switch ++ bad TailCall t_switch.
Example model_switch_ok : model_switch = []. Proof. reflexivity. Qed.
Definition model_table_fill := Eval vm_compute in bad LoopStyle t_table_fill ++ bad TailCall t_table_fill.
Example model_table_fill_ok : model_table_fill = []. Proof. reflexivity. Qed.
Definition model_table_get := Eval vm_compute in bad LoopStyle t_table_get ++ bad TailCall t_table_get.
Example model_table_get_ok : model_table_get = []. Proof. reflexivity. Qed.
Definition model_table_set := Eval vm_compute in bad LoopStyle t_table_set ++ bad TailCall t_table_set.
Example model_table_set_ok : model_table_set = []. Proof. reflexivity. Qed.
