(** Specification for C72: when an execution makes a NaN whose pattern the standard leaves open, and programs moved
    between machines with different floating-point hardware. *)
From Coq Require Import ZArith List Bool.
From Coq Require String.
From Verif Require Import Word Value Float WasmFloat Mem Store Regs IR Machine Wasm Runtime Load Codec FileSpec RoundSpec.
Import ListNotations.

(** instructions whose result the host's floating point computes *)
Definition rounding (o : sop) : bool :=
  match o with
  | SNum2 (B_flt _ (FBarith _)) | SNum1 (U_flt _ (FUround _)) | SCvt (C_convert _ _ _) | SCvt C_demote | SCvt C_promote => true
  | _ => false
  end.
Definition nan_value (v : val) : Prop :=
  match v with VF32 b => ieee_decode F32 b = NNan | VF64 b => ieee_decode F64 b = NNan | _ => False end.
(** the next instruction is such an instruction and its result is a NaN *)
Definition makes_nan (hf : hostfp) (M : modul) (c : config) : Prop :=
  exists fd o t srcs args s v,
    nth_error (md_funcs M) (c_fn c) = Some (FWasm fd) /\ nth_error (fd_code fd) (s_pc (c_v c)) = Some (IOp o t srcs) /\ rounding o = true /\
    read_all (s_d (c_v c)) (map class_of (sop_args o)) srcs = Ok args /\
    sop_eval hf o (d_inst (s_d (c_v c))) args = Ok (s, Some v) /\ nan_value v.
(** no instruction of the run from [c] does that *)
Definition nan_free (hf : hostfp) (host : hostfn) (M : modul) (c : config) : Prop :=
  forall n c', steps hf host M n c = inl c' -> ~ makes_nan hf M c'.

(** stopped and continued any number of times, each time on a machine with its own IEEE 754 floating point,
    dispatcher and request schedule (tables and data segments unchanged, C29) *)
Inductive carried (host : hostfn) (M : modul) (s : inst) (st0 : rstate) : rstate -> Prop :=
| CarNone : carried host M s st0 st0
| CarMore hf E D en k n st st1 g st2 : standard_fp hf -> carried host M s st0 st -> run hf host M E D en k n st = RCheckpoint st1 ->
    checkpoint st1 = Some g -> i_tables (r_inst st1) = i_tables s -> i_datas (r_inst st1) = i_datas s ->
    restore M s g (r_log st1) (r_t st1) = Some st2 -> carried host M s st0 st2.

(** the same for the whole command: a program run in several processes, each on its own machine, which begins with
    the file the one before has written *)
Inductive across (host : hostfn) (sg : nat -> ftype) (ff : cls -> list Z -> option Z) (z : lz4) (F : list payload) (name : String.string) (ps : list (list Z)) : begin -> Prop :=
| AFresh : across host sg ff z F name ps Fresh
| ANext hf E D k n how st b : standard_fp hf -> across host sg ff z F name ps how ->
    session hf host sg ff z how E D true k n F name ps = inr (RCheckpoint st) -> checkpoint_bytes z st = Some b -> short b ->
    across host sg ff z F name ps (From b (r_log st) (r_t st)).

(** ** the standard's own run (Wasm.v): the primitives [P], left undefined where such an instruction gives a NaN *)
Definition nanb (v : val) : bool :=
  match v with
  | VF32 b => match ieee_decode F32 b with NNan => true | _ => false end
  | VF64 b => match ieee_decode F64 b with NNan => true | _ => false end
  | _ => false
  end.
Definition gives_nan (o : sop) (r : res (inst * option val)) : bool :=
  rounding o && match r with Ok (_, Some v) => nanb v | _ => false end.
Definition without_nan (P : prims) : prims :=
  {| p_op := fun o s args => if gives_nan o (p_op P o s args) then UB else p_op P o s args;
     p_func := p_func P; p_default := p_default P; p_ind_host := p_ind_host P |}.
