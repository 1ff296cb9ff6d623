(** What instructions are called (Core 6.5, the text format), the functions of handlers.rs that execute
    them, and what counting and sorting executed instructions means.  No modelled code. *)
From Coq Require Import String ZArith List Bool Sorting.Permutation.
From Verif Require Import Word Value Numeric Float Mem Store Regs IR Machine Wasm Decoder.
Import ListNotations.
Local Open Scope string_scope.

(** ** the text format *)
Definition it (w : iw) : string := match w with W32 => "i32" | W64 => "i64" end.
Definition ft (f : fty) : string := match f with FT32 => "f32" | FT64 => "f64" end.
Definition sg (s : sx) : string := match s with Sx => "s" | Ux => "u" end.
Definition other (w : iw) : string := match w with W32 => "f32" | W64 => "f64" end.
Definition iun (o : iunop) : string :=
  match o with Iclz => "clz" | Ictz => "ctz" | Ipopcnt => "popcnt" | Iext8 => "extend8_s" | Iext16 => "extend16_s" | Iext32 => "extend32_s" end.
Definition ibin (o : ibinop) : string :=
  match o with Iadd => "add" | Isub => "sub" | Imul => "mul" | Idiv_s => "div_s" | Idiv_u => "div_u" | Irem_s => "rem_s" | Irem_u => "rem_u"
  | Iand => "and" | Ior => "or" | Ixor => "xor" | Ishl => "shl" | Ishr_s => "shr_s" | Ishr_u => "shr_u" | Irotl => "rotl" | Irotr => "rotr" end.
Definition irel (o : irelop) : string :=
  match o with Ieq => "eq" | Ine => "ne" | Ilt_s => "lt_s" | Ilt_u => "lt_u" | Igt_s => "gt_s" | Igt_u => "gt_u" | Ile_s => "le_s" | Ile_u => "le_u" | Ige_s => "ge_s" | Ige_u => "ge_u" end.
Definition fround' (o : fround) : string := match o with Fceil => "ceil" | Ffloor => "floor" | Ftrunc => "trunc" | Fnearest => "nearest" | Fsqrt => "sqrt" end.
Definition fbin' (o : fbin) : string := match o with Fadd => "add" | Fsub => "sub" | Fmul => "mul" | Fdiv => "div" end.
Definition frel (o : frelop) : string := match o with Feq => "eq" | Fne => "ne" | Flt => "lt" | Fgt => "gt" | Fle => "le" | Fge => "ge" end.
(** a unary, a binary, a conversion operator: type and name, joined by [dot] *)
Definition op1_text (dot : string) (o : op1) : string :=
  match o with
  | U_int w o => it w ++ dot ++ iun o | U_eqz w => it w ++ dot ++ "eqz"
  | U_flt f (FUround o) => ft f ++ dot ++ fround' o | U_flt f FUabs => ft f ++ dot ++ "abs" | U_flt f FUneg => ft f ++ dot ++ "neg"
  end.
Definition op2_text (dot : string) (o : op2) : string :=
  match o with
  | B_int w o => it w ++ dot ++ ibin o | B_irel w o => it w ++ dot ++ irel o
  | B_flt f (FBarith o) => ft f ++ dot ++ fbin' o | B_flt f FBmin => ft f ++ dot ++ "min" | B_flt f FBmax => ft f ++ dot ++ "max"
  | B_flt f FBcopysign => ft f ++ dot ++ "copysign" | B_frel f o => ft f ++ dot ++ frel o
  end.
Definition cvt_text (dot : string) (o : cvt) : string :=
  match o with
  | C_wrap => "i32" ++ dot ++ "wrap_i64" | C_ext s => "i64" ++ dot ++ "extend_i32_" ++ sg s
  | C_trunc w f s => it w ++ dot ++ "trunc_" ++ ft f ++ "_" ++ sg s | C_trunc_sat w f s => it w ++ dot ++ "trunc_sat_" ++ ft f ++ "_" ++ sg s
  | C_convert f w s => ft f ++ dot ++ "convert_" ++ it w ++ "_" ++ sg s
  | C_demote => "f32" ++ dot ++ "demote_f64" | C_promote => "f64" ++ dot ++ "promote_f32"
  | C_f2i w => it w ++ dot ++ "reinterpret_" ++ other w | C_i2f w => other w ++ dot ++ "reinterpret_" ++ it w
  end.
Definition cls_text (c : cls) : string := match c with CI32 => "i32" | CI64 => "i64" | CF32 => "f32" | CF64 => "f64" | CRef => "ref" | CV128 => "v128" end.
(** width in bits and signedness of a partial access *)
Definition part_of (o : loadop) : string :=
  match o with
  | LI32 | LI64 | LF32 | LF64 => "" | LI32_8s | LI64_8s => "8_s" | LI32_8u | LI64_8u => "8_u"
  | LI32_16s | LI64_16s => "16_s" | LI32_16u | LI64_16u => "16_u" | LI64_32s => "32_s" | LI64_32u => "32_u"
  end.
Definition spart_of (o : storeop) : string :=
  match o with SI32 | SI64 | SF32 | SF64 => "" | SI32_8 | SI64_8 => "8" | SI32_16 | SI64_16 => "16" | SI64_32 => "32" end.
Definition sop_text (o : sop) : string :=
  match o with
  | SNum1 o => op1_text "." o | SNum2 o => op2_text "." o | SCvt o => cvt_text "." o
  | SLoad o _ => cls_text (load_cls o) ++ ".load" ++ part_of o | SStore o _ => cls_text (store_cls o) ++ ".store" ++ spart_of o
  | SMemSize => "memory.size" | SMemGrow => "memory.grow" | SMemCopy => "memory.copy" | SMemInit _ => "memory.init" | SMemFill => "memory.fill"
  | SDataDrop _ => "data.drop" | SGlobalGet _ _ => "global.get" | SGlobalSet _ _ => "global.set"
  | SRefNull _ => "ref.null" | SRefIsNull => "ref.is_null" | STableGet _ _ => "table.get" | STableSet _ _ => "table.set" | STableFill _ _ => "table.fill"
  end.
(** the keyword of an operator *)
Definition keyword (op : fop) : string :=
  match op with
  | FBasic (BConst v) => cls_text (val_cls v) ++ ".const"
  | FBasic (BGet _) => "local.get" | FBasic (BSet _) => "local.set" | FBasic (BTee _) => "local.tee"
  | FBasic BDrop => "drop" | FBasic BNop => "nop" | FBasic (BSelect _) => "select" | FBasic (BOp o) => sop_text o
  | FBlock true _ _ => "loop" | FBlock false _ _ => "block" | FIf _ _ => "if" | FElse => "else" | FEnd => "end"
  | FBr _ => "br" | FBrIf _ => "br_if" | FBrTable _ _ => "br_table" | FReturn => "return" | FUnreachable => "unreachable"
  | FCall _ => "call" | FCallInd _ _ => "call_indirect"
  end.
Definition is_tee (op : fop) : bool := match op with FBasic (BTee _) => true | _ => false end.
(** loads, stores, calls and branches among the operators *)
Definition op_store (op : fop) : Prop := exists o off, op = FBasic (BOp (SStore o off)).
Definition op_load (op : fop) : Prop := exists o off, op = FBasic (BOp (SLoad o off)).
Definition op_call (op : fop) : Prop := (exists f, op = FCall f) \/ exists ty tb, op = FCallInd ty tb.
Definition op_branch (op : fop) : Prop := (exists d, op = FBr d) \/ (exists d, op = FBrIf d) \/ exists ds d, op = FBrTable ds d.

(** ** the functions of handlers.rs *)
(** what this model says a handler computes is cited from the function of this name *)
Definition load_fn (o : loadop) : string :=
  match o with
  | LI32 | LI64 | LF32 | LF64 => "" | LI32_8s | LI64_8s => "_8s" | LI32_8u | LI64_8u => "_8u"
  | LI32_16s | LI64_16s => "_16s" | LI32_16u | LI64_16u => "_16u" | LI64_32s => "_32s" | LI64_32u => "_32u"
  end.
Definition store_fn (o : storeop) : string :=
  match o with SI32 | SI64 | SF32 | SF64 => "" | SI32_8 | SI64_8 => "_8" | SI32_16 | SI64_16 => "_16" | SI64_32 => "_32" end.
Definition handler_fn (i : instr) : string :=
  match i with
  | IMov c (DReg _) (OConst _) => cls_text c ++ "_const" | IMov c (DReg _) _ => cls_text c ++ "_local_get" | IMov c (DLoc _) _ => cls_text c ++ "_local_set"
  | IOp (SNum1 o) _ _ => op1_text "_" o | IOp (SNum2 o) _ _ => op2_text "_" o | IOp (SCvt o) _ _ => "conv_" ++ cvt_text "_" o
  | IOp (SLoad o _) _ _ => "mem_load_" ++ cls_text (load_cls o) ++ load_fn o | IOp (SStore o _) _ _ => "mem_store_" ++ cls_text (store_cls o) ++ store_fn o
  | IOp SMemSize _ _ => "mem_size" | IOp SMemGrow _ _ => "mem_grow" | IOp SMemCopy _ _ => "mem_copy" | IOp (SMemInit _) _ _ => "mem_init" | IOp SMemFill _ _ => "mem_fill"
  | IOp (SGlobalGet t _) _ _ => "global_get_" ++ cls_text (class_of t) | IOp (SGlobalSet t _) _ _ => "global_set_" ++ cls_text (class_of t)
  | IOp (SRefNull _) _ _ => "ref_null" | IOp SRefIsNull _ _ => "ref_is_null" | IOp (STableGet _ _) _ _ => "table_get"
  | IOp (STableSet _ _) _ _ => "table_set" | IOp (STableFill _ _) _ _ => "table_fill"
  | ISelect c _ _ _ _ => "select_" ++ cls_text c | IRefGet _ _ => "ref_local_get" | IRefSet _ _ => "ref_local_set"
  | _ => ""
  end.

(** ** counting *)
Local Open Scope Z_scope.
Definition times (i : Z) (l : list Z) : Z := Z.of_nat (count_occ Z.eq_dec l i).
(** [x] is a subsequence of [y] *)
Inductive subseq {A} : list A -> list A -> Prop :=
| ss_nil : forall y, subseq [] y
| ss_take : forall a x y, subseq x y -> subseq (a :: x) (a :: y)
| ss_skip : forall a x y, subseq x y -> subseq x (a :: y).

(** ** words of the command line *)
(** [s] is the word [w] (of small letters), in capital and small letters *)
Definition spelled (s w : list Z) : Prop := Forall2 (fun c k => c = k \/ c = k - 32) s w.
Definition letters (w : list Z) : Prop := Forall (fun k => 97 <= k <= 122) w.
Definition given (l : list (list Z)) (w : list Z) : Prop := exists s, In s l /\ spelled s w.
(** what --trace-events asks for, of an operator; nothing: everything *)
Definition asked (evs : option (list (list Z))) (op : fop) : Prop :=
  match evs with
  | None => True
  | Some l => given l [97; 108; 108] (* all *) \/ (given l [115; 116; 111; 114; 101] (* store *) /\ op_store op)
              \/ (given l [108; 111; 97; 100] (* load *) /\ op_load op) \/ (given l [99; 97; 108; 108] (* call *) /\ op_call op)
              \/ (given l [98; 114; 97; 110; 99; 104] (* branch *) /\ op_branch op)
  end.
(** a call of an imported function *)
Definition wasi_call (E : denv) (op : fop) : Prop := exists f w t, op = FCall f /\ call_info (e_mod E) f = CIWasi w t.
(** local.tee of an i32 or a reference *)
Definition odd_tee (E : denv) (op : fop) : Prop := exists n, op = FBasic (BTee n) /\ (class_of (ltype E n) = CI32 \/ class_of (ltype E n) = CRef).
