(** The register IR: src/execution/ir.rs 65-240 (ProcessedInstr), with the computation each handler
    of src/execution/handlers.rs performs on the values it reads.

    Representation.  [ProcessedInstr] = a variant that fixes the operand shapes + a [handler_index]
    that [select_handler] (handlers.rs 2096-2345) maps to a handler.  All handlers of the families
    I32Reg .. F64Reg, ConversionReg, MemoryLoadReg, MemoryStoreReg, MemoryOpsReg, GlobalGetReg,
    GlobalSetReg, DataDropReg and TableRefReg read their operands, compute, write at most one
    destination and advance [pc]: they are one constructor [IOp] carrying the operation [sop].
    Simplification: [handler_index] is replaced by the constructor of the handler it selects. *)
From Coq Require Import ZArith List Bool Lia.
From Verif Require Import Word Value Numeric Float Mem Store Regs.
Import ListNotations.
Open Scope nat_scope.

(** ** operations on values *)
Inductive iw := W32 | W64.
Inductive fty := FT32 | FT64.
Definition wz (w : iw) : Z := match w with W32 => 32%Z | W64 => 64%Z end.
Definition ff (f : fty) : fmt := match f with FT32 => F32 | FT64 => F64 end.
Definition ity (w : iw) : valtype := match w with W32 => TI32 | W64 => TI64 end.
Definition fvt (f : fty) : valtype := match f with FT32 => TF32 | FT64 => TF64 end.
Definition ival (w : iw) (z : Z) : val := match w with W32 => VI32 z | W64 => VI64 z end.
Definition fval (f : fty) (z : Z) : val := match f with FT32 => VF32 z | FT64 => VF64 z end.

Inductive fun1 := FUround (r : fround) | FUabs | FUneg.
Inductive fun2 := FBarith (b : fbin) | FBmin | FBmax | FBcopysign.

(** unary handlers, handlers.rs 443-448, 602-619, 764-771, 873-880 *)
Inductive op1 := U_int (w : iw) (o : iunop) | U_eqz (w : iw) | U_flt (f : fty) (o : fun1).
(** binary handlers, handlers.rs 412-508, 573-690, 731-779, 840-888 *)
Inductive op2 :=
| B_int (w : iw) (o : ibinop) | B_irel (w : iw) (o : irelop)
| B_flt (f : fty) (o : fun2) | B_frel (f : fty) (o : frelop).
(** conversion handlers, handlers.rs 892-1276 *)
Inductive cvt :=
| C_wrap | C_ext (s : sx)
| C_trunc (w : iw) (f : fty) (s : sx) | C_trunc_sat (w : iw) (f : fty) (s : sx)
| C_convert (f : fty) (w : iw) (s : sx) | C_demote | C_promote
| C_f2i (w : iw) | C_i2f (w : iw).

Definition fty_of (w : iw) : fty := match w with W32 => FT32 | W64 => FT64 end.

Definition op1_arg (o : op1) : valtype :=
  match o with U_int w _ | U_eqz w => ity w | U_flt f _ => fvt f end.
Definition op1_res (o : op1) : valtype :=
  match o with U_int w _ => ity w | U_eqz _ => TI32 | U_flt f _ => fvt f end.
Definition op2_arg (o : op2) : valtype :=
  match o with B_int w _ | B_irel w _ => ity w | B_flt f _ | B_frel f _ => fvt f end.
Definition op2_res (o : op2) : valtype :=
  match o with B_int w _ => ity w | B_irel _ _ | B_frel _ _ => TI32 | B_flt f _ => fvt f end.
Definition cvt_arg (c : cvt) : valtype :=
  match c with
  | C_wrap => TI64 | C_ext _ => TI32 | C_trunc _ f _ | C_trunc_sat _ f _ => fvt f
  | C_convert _ w _ => ity w | C_demote => TF64 | C_promote => TF32
  | C_f2i w => fvt (fty_of w) | C_i2f w => ity w
  end.
Definition cvt_res (c : cvt) : valtype :=
  match c with
  | C_wrap => TI32 | C_ext _ => TI64 | C_trunc w _ _ | C_trunc_sat w _ _ => ity w
  | C_convert f _ _ => fvt f | C_demote => TF32 | C_promote => TF64
  | C_f2i w => ity w | C_i2f w => fvt (fty_of w)
  end.

Definition rmap {A B} (f : A -> B) (r : res A) : res B := bind r (fun a => Ok (f a)).

Definition op1_eval (hf : hostfp) (o : op1) (a : Z) : val :=
  match o with
  | U_int w o => ival w (unop (wz w) o a)
  | U_eqz w => VI32 (eqz (wz w) a)
  | U_flt f (FUround r) => fval f (h_round hf (ff f) r a)
  | U_flt f FUabs => fval f (f_abs (ff f) a)
  | U_flt f FUneg => fval f (f_neg (ff f) a)
  end.
Definition op2_eval (hf : hostfp) (o : op2) (a b : Z) : res val :=
  match o with
  | B_int w o => rmap (ival w) (binop (wz w) o a b)
  | B_irel w o => Ok (VI32 (relop (wz w) o a b))
  | B_flt f (FBarith o) => Ok (fval f (h_bin hf (ff f) o a b))
  | B_flt f FBmin => Ok (fval f (f_min (ff f) a b))
  | B_flt f FBmax => Ok (fval f (f_max (ff f) a b))
  | B_flt f FBcopysign => Ok (fval f (f_copysign (ff f) a b))
  | B_frel f o => Ok (VI32 (f_relop (ff f) o a b))
  end.
(** the integer a conversion to float converts: [v as f32] or [(v as uN) as f32] *)
Definition conv_src (w : iw) (s : sx) (a : Z) : Z :=
  match s with Sx => a | Ux => cast_u (wz w) a end.
Definition cvt_eval (hf : hostfp) (c : cvt) (a : Z) : res val :=
  match c with
  | C_wrap => Ok (VI32 (i32_wrap_i64 a))
  | C_ext Sx => Ok (VI64 (i64_extend_i32_s a))
  | C_ext Ux => Ok (VI64 (i64_extend_i32_u a))
  | C_trunc W32 f s => rmap VI32 (conv_i32_trunc (ff f) s a)
  | C_trunc W64 f s => rmap VI64 (conv_i64_trunc (ff f) s a)
  | C_trunc_sat w f s => Ok (ival w (conv_trunc_sat (wz w) (ff f) s a))
  | C_convert f w s => Ok (fval f (h_of_int hf (ff f) (conv_src w s a)))
  | C_demote => Ok (VF32 (h_demote hf a))
  | C_promote => Ok (VF64 (h_promote hf a))
  | C_f2i w => Ok (ival w (reinterpret_f2i (wz w) a))
  | C_i2f w => Ok (fval (fty_of w) (reinterpret_i2f (wz w) a))
  end.

(** ** operations that may also touch the instance *)
Inductive sop :=
| SNum1 (o : op1) | SNum2 (o : op2) | SCvt (c : cvt)
| SLoad (op : loadop) (off : Z) | SStore (op : storeop) (off : Z)
| SMemSize | SMemGrow | SMemCopy | SMemInit (k : nat) | SMemFill | SDataDrop (k : nat)
| SGlobalGet (t : valtype) (i : nat) | SGlobalSet (t : valtype) (i : nat)
| SRefNull (t : valtype) | SRefIsNull
| STableGet (t : nat) (e : valtype) | STableSet (t : nat) (e : valtype) | STableFill (t : nat) (e : valtype).

Definition vt_of_cls (c : cls) : valtype :=
  match c with CI32 => TI32 | CI64 => TI64 | CF32 => TF32 | CF64 => TF64 | CRef => TFuncRef | CV128 => TV128 end.
(** operand types, first operand (deepest on the stack) first *)
Definition sop_args (o : sop) : list valtype :=
  match o with
  | SNum1 o => [op1_arg o]
  | SNum2 o => [op2_arg o; op2_arg o]
  | SCvt c => [cvt_arg c]
  | SLoad _ _ => [TI32]
  | SStore op _ => [TI32; vt_of_cls (store_cls op)]
  | SMemSize => [] | SMemGrow => [TI32]
  | SMemCopy | SMemInit _ | SMemFill => [TI32; TI32; TI32]
  | SDataDrop _ => []
  | SGlobalGet _ _ => [] | SGlobalSet t _ => [t]
  | SRefNull _ => [] | SRefIsNull => [TFuncRef]
  | STableGet _ _ => [TI32] | STableSet _ e => [TI32; e] | STableFill _ e => [TI32; e; TI32]
  end.
Definition sop_res (o : sop) : option valtype :=
  match o with
  | SNum1 o => Some (op1_res o)
  | SNum2 o => Some (op2_res o)
  | SCvt c => Some (cvt_res c)
  | SLoad op _ => Some (vt_of_cls (load_cls op))
  | SStore _ _ => None
  | SMemSize | SMemGrow => Some TI32
  | SMemCopy | SMemInit _ | SMemFill | SDataDrop _ => None
  | SGlobalGet t _ => Some t | SGlobalSet _ _ => None
  | SRefNull t => Some t | SRefIsNull => Some TI32
  | STableGet _ e => Some e | STableSet _ _ | STableFill _ _ => None
  end.

(** The mutable part of [ModuleInst] (module.rs 20-40): [mem_addrs[0]] (the only memory), globals,
    tables, data segments. *)
Record inst := { i_mem : option meminst; i_globals : list val; i_tables : list table; i_datas : list (list Z) }.
Definition with_mem (s : inst) (m : meminst) : inst :=
  {| i_mem := Some m; i_globals := i_globals s; i_tables := i_tables s; i_datas := i_datas s |}.
Definition with_data (m : meminst) (d : list Z) : meminst := {| m_data := d; m_max := m_max m; m_gen := m_gen m |}.
Definition with_globals (s : inst) (g : list val) : inst :=
  {| i_mem := i_mem s; i_globals := g; i_tables := i_tables s; i_datas := i_datas s |}.
Definition with_tables (s : inst) (t : list table) : inst :=
  {| i_mem := i_mem s; i_globals := i_globals s; i_tables := t; i_datas := i_datas s |}.
Definition with_datas (s : inst) (d : list (list Z)) : inst :=
  {| i_mem := i_mem s; i_globals := i_globals s; i_tables := i_tables s; i_datas := d |}.

(** no memory: the raw pointer is null (runtime.rs 145) *)
Definition raw_mem (s : inst) : res meminst := of_opt (i_mem s).
(** handlers.rs 1981-1986 etc.: MemoryNotFound *)
Definition need_mem (s : inst) : res meminst :=
  match i_mem s with Some m => Ok m | None => Trap TBadOperand end.
Definition vref (v : val) : ref := match v with VRef r => r | _ => RNull end.

(** What a handler computes from the operand values.  Operand lists have the length of [sop_args];
    any other length cannot occur in the IR ([UB]). *)
Definition sop_eval (hf : hostfp) (o : sop) (s : inst) (args : list val) : res (inst * option val) :=
  match o, args with
  | SNum1 o, [a] => Ok (s, Some (op1_eval hf o (payload a)))
  | SNum2 o, [a; b] => let* v := op2_eval hf o (payload a) (payload b) in Ok (s, Some v)
  | SCvt c, [a] => let* v := cvt_eval hf c (payload a) in Ok (s, Some v)
  | SLoad op off, [p] =>
      let* m := raw_mem s in let* v := mem_load op (m_data m) (payload p) off in Ok (s, Some v)
  | SStore op off, [p; v] =>
      let* m := raw_mem s in let* d := mem_store op (m_data m) (payload p) off v in
      Ok (with_mem s (with_data m d), None)
  | SMemSize, [] => let* m := need_mem s in Ok (s, Some (VI32 (mem_size m)))
  | SMemGrow, [n] =>
      let* m := need_mem s in let* r := mem_grow m (payload n) in
      Ok (with_mem s (fst r), Some (VI32 (snd r)))
  | SMemCopy, [d; sr; n] =>
      let* m := need_mem s in let* b := mem_copy (m_data m) (payload d) (payload sr) (payload n) in
      Ok (with_mem s (with_data m b), None)
  | SMemInit k, [d; sr; n] =>
      let* m := need_mem s in
      let* b := mem_init (m_data m) (i_datas s) k (payload d) (payload sr) (payload n) in
      Ok (with_mem s (with_data m b), None)
  | SMemFill, [d; v; n] =>
      let* m := need_mem s in let* b := mem_fill (m_data m) (payload d) (payload v) (payload n) in
      Ok (with_mem s (with_data m b), None)
  | SDataDrop k, [] => Ok (with_datas s (data_drop (i_datas s) k), None)
  | SGlobalGet t i, [] => let* v := global_get (class_of t) (i_globals s) i in Ok (s, Some v)
  | SGlobalSet t i, [v] => let* g := global_set (i_globals s) i v in Ok (with_globals s g, None)
  | SRefNull _, [] => Ok (s, Some (VRef RNull))
  | SRefIsNull, [r] => Ok (s, Some (VI32 (ref_is_null (vref r))))
  | STableGet t _, [i] => let* r := table_get (i_tables s) t (payload i) in Ok (s, Some (VRef r))
  | STableSet t _, [i; r] =>
      let* ts := table_set (i_tables s) t (payload i) (vref r) in Ok (with_tables s ts, None)
  | STableFill t _, [i; r; n] =>
      let* ts := table_fill (i_tables s) t (payload i) (vref r) (payload n) in Ok (with_tables s ts, None)
  | _, _ => UB
  end.

(** loads and stores go through the cached raw pointer (handlers.rs 1294, 1337) *)
Definition uses_ptr (o : sop) : bool := match o with SLoad _ _ | SStore _ _ => true | _ => false end.
(** memory.grow re-reads the pointer (handlers.rs 2010) *)
Definition sets_ptr (o : sop) : bool := match o with SMemGrow => true | _ => false end.

(** ** instructions *)
(** ir.rs 74-108: a source operand; the class comes from the instruction *)
Inductive opnd := OReg (n : nat) | OConst (v : val) | OLoc (n : nat).
(** destination: register or local (ir.rs 66-71, and the Reg/Param cases of the operands) *)
Inductive dst := DReg (n : nat) | DLoc (n : nat).

Inductive instr :=
(** I32Reg/I64Reg/F32Reg/F64Reg with a LOCAL_GET, LOCAL_SET, LOCAL_TEE or CONST handler *)
| IMov (c : cls) (d : dst) (s : opnd)
| IOp (o : sop) (d : option dst) (srcs : list opnd)
(** SelectReg: class of the handler, register indices *)
| ISelect (c : cls) (d v1 v2 cond : nat)
(** RefLocalReg *)
| IRefGet (d l : nat) | IRefSet (l s : nat)
| ICallWasi (w : nat) (params : list reg) (result : option reg)
| ICallInd (ty tb idx : nat) (params results : list reg)
| ICall (f : nat) (params results : list reg)
| IReturn (results : list reg)
| IJump (target : nat)
| IBlock (is_loop : bool)
| IIf (cond else_target : nat) (has_else : bool)
| IEnd (src tgt : list reg)
| IBr (depth target : nat) (src tgt : list reg)
| IBrIf (depth target cond : nat) (src tgt : list reg)
| IBrTable (targets : list (nat * nat * list reg)) (default : nat * nat * list reg) (idx : nat) (src : list reg)
| INop
| IUnreachable.
