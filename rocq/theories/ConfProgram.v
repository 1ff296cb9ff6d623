(** A compiled Rust program (Program.v) run from its entry point by the model and by the specification, on a host that
    accepts every call.  Concrete runs: each definition is bound to the result computed when this file is compiled. *)
From Coq Require Import String ZArith List Bool.
From Verif Require Import Word Value Numeric Float Mem Store Regs IR Machine Wasm Decoder Module WasmPrims PrimFacts Check Restrict Runtime Load LoadSpec Correct Wasi WasiSpec WorldSpec World Ieee Accept Program.
Import ListNotations.
Local Open Scope string_scope.
Local Open Scope list_scope.
Local Open Scope nat_scope.
Definition yes : system := fun past =>
  {| r_errno := 0; r_out := []; r_ptrs := []; r_buf := []; r_mem := match past with (_, _, m) :: _ => m | [] => [] end |}.
Definition words : list (list Z) := [[115; 99]%Z].
Definition fuel : nat := Z.to_nat 30000.
(** how it ends, and its host calls *)
Inductive ended := Returned (vs : list val) (calls : list (nat * list val)) | Otherwise.
Definition model_ends (D : variant) (F : list payload) (name : string) : ended :=
  match instance expected_type F with
  | Some x =>
      match get_export_func x name with
      | Some f =>
          match start (mi_modul x) (mi_inst x) f [] with
          | Ok st => match run ieee (passthrough yes words []) (mi_modul x) {| atomics := false; has_wasi := true; request := fun _ => false |} D true fuel fuel st with
                     | RDone vs _ l => Returned vs (map fst l)
                     | _ => Otherwise
                     end
          | _ => Otherwise
          end
      | None => Otherwise
      end
  | None => Otherwise
  end.
(** the specification, undefined where the code differs from the standard: the run meets no such point *)
Definition spec_ends (F : list payload) (name : string) : ended :=
  match admit expected_type F, instance expected_type F with
  | Some (W, _), Some x =>
      match get_export_func x name with
      | Some f => match invoke (guarded (w_code W) (wasm_prims ieee)) (direct yes words []) (w_code W) fuel f [] (mi_inst x) with
                  | ONorm vs y => Returned vs (map fst (x_log y))
                  | _ => Otherwise
                  end
      | None => Otherwise
      end
  | _, _ => Otherwise
  end.
(** the program calls sched_yield (number 13) once and returns *)
Definition loop_run := Eval vm_compute in model_ends LoopStyle sched_yield "_start".
Example loop_run_ok : loop_run = Returned [] [(13, [])]. Proof. reflexivity. Qed.
Definition tail_run := Eval vm_compute in model_ends TailCall sched_yield "_start".
Example tail_run_ok : tail_run = Returned [] [(13, [])]. Proof. reflexivity. Qed.
Definition spec_run := Eval vm_compute in spec_ends sched_yield "_start".
Example spec_run_ok : spec_run = Returned [] [(13, [])]. Proof. reflexivity. Qed.
