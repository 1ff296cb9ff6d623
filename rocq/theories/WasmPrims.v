(** Specification: the meaning of every non-control operator, from WebAssembly Core 2.0 sections
    4.3 (numerics) and 4.4 (instructions), in terms of WasmNum.v, WasmFloat.v and WasmMem.v.
    Independent of chiwawa's handlers (from IR.v: operator names and operand types only).

    [op_spec hf o s args r]: executing [o] on instance [s] and operands [args] (first operand
    first) may give [r] = [Ok (s', result)] or [Trap _].  Where the standard allows several results
    (NaN payloads) the relation does too.  Rounding float arithmetic is the host's, [hf]. *)
From Coq Require Import ZArith List Bool Lia.
From Verif Require Import Word Value Numeric WasmNum Float WasmFloat Mem WasmMem Store StoreSpec Regs IR Machine Wasm WasmTyping.
Import ListNotations.
Open Scope Z_scope.

(** ** what validation says about the instance an operator may assume *)
Record shape := { sh_mem : bool; sh_globals : list valtype; sh_tables : nat; sh_datas : nat }.
(** operator [o] refers to existing memory, globals, tables and segments; offsets are u32 *)
Definition op_in (h : shape) (o : sop) : bool :=
  match o with
  | SLoad _ off | SStore _ off => sh_mem h && (0 <=? off) && (off <? 2 ^ 32)
  | SMemSize | SMemGrow | SMemCopy | SMemFill => sh_mem h
  | SMemInit k => sh_mem h && Nat.ltb k (sh_datas h)
  | SDataDrop k => Nat.ltb k (sh_datas h)
  | SGlobalGet t i | SGlobalSet t i =>
      match nth_error (sh_globals h) i with Some t' => valtype_eqb t t' | None => false end
  | STableGet t _ | STableSet t _ | STableFill t _ => Nat.ltb t (sh_tables h)
  | _ => true
  end.
Definition has_type (t : valtype) (v : val) : Prop := val_cls v = class_of t /\ val_ok v.
(** memory: whole pages, at most 65536, a maximum within the limit; everything well-formed *)
Definition mem_ok (m : meminst) : Prop :=
  bytes_ok (m_data m) /\ mlen (m_data m) <= 2 ^ 32 /\ mlen (m_data m) mod page = 0 /\
  match m_max m with Some x => 0 <= x <= 65536 | None => True end.
Record inst_ok (h : shape) (s : inst) : Prop := {
  io_mem : if sh_mem h then exists m, i_mem s = Some m /\ mem_ok m else i_mem s = None;
  io_globals : Forall2 has_type (sh_globals h) (i_globals s);
  io_tables : length (i_tables s) = sh_tables h;
  io_small : Forall (fun tb : table => Z.of_nat (length tb) < 2 ^ 32) (i_tables s);
  io_datas : length (i_datas s) = sh_datas h;
  io_bytes : Forall (fun d => bytes_ok d /\ mlen d < 2 ^ 32) (i_datas s)
}.

(** ** results *)
Definition traps (r : res (inst * option val)) : Prop := exists t, r = Trap t.
(** the instance does not change and the result has bit pattern [u] *)
Definition gives_int (s : inst) (w : iw) (u : Z) (r : res (inst * option val)) : Prop :=
  exists v, r = Ok (s, Some (ival w v)) /\ in_s (wz w) v /\ unsigned (wz w) v = u.
Definition gives_i32 (s : inst) (u : Z) (r : res (inst * option val)) : Prop := gives_int s W32 u r.
Definition gives_flt (s : inst) (f : fty) (ok : Z -> Prop) (r : res (inst * option val)) : Prop :=
  exists b, r = Ok (s, Some (fval f b)) /\ in_u (fw (ff f)) b /\ ok b.
(** memory becomes [d] for some [d] the relation allows, or a trap if it says so *)
Definition gives_mem (s : inst) (m : meminst) (spec : option (list Z) -> Prop) (r : res (inst * option val)) : Prop :=
  (exists d, spec (Some d) /\ r = Ok (with_mem s (with_data m d), None)) \/ (spec None /\ traps r).
(** [l'] is [l] with entry [i] replaced by [x] *)
Definition replaced_at {A} (l l' : list A) (i : nat) (x : A) : Prop :=
  length l' = length l /\ nth_error l' i = Some x /\ forall j, j <> i -> nth_error l' j = nth_error l j.

(** sign-bit operators, bit by bit *)
Definition bits_are (F : fmt) (f : Z -> bool) (b : Z) : Prop := forall k, 0 <= k < fw F -> Z.testbit b k = f k.

Definition spec1 (hf : hostfp) (s : inst) (o : op1) (a : Z) (r : res (inst * option val)) : Prop :=
  match o with
  | U_int w o => gives_int s w (wasm_iunop (wz w) o a) r
  | U_eqz w => gives_i32 s (wasm_eqz a) r
  | U_flt f (FUround q) => gives_flt s f (fun b => b = h_round hf (ff f) q a) r
  | U_flt f FUabs => gives_flt s f (bits_are (ff f) (fun k => if k =? fw (ff f) - 1 then false else Z.testbit a k)) r
  | U_flt f FUneg =>
      gives_flt s f (bits_are (ff f) (fun k => if k =? fw (ff f) - 1 then negb (Z.testbit a k) else Z.testbit a k)) r
  end.
Definition spec2 (hf : hostfp) (s : inst) (o : op2) (a b : Z) (r : res (inst * option val)) : Prop :=
  match o with
  | B_int w o => match wasm_ibinop (wz w) o a b with Some u => gives_int s w u r | None => traps r end
  | B_irel w o => gives_i32 s (wasm_irelop (wz w) o a b) r
  | B_flt f (FBarith q) => gives_flt s f (fun c => c = h_bin hf (ff f) q a b) r
  | B_flt f FBmin => gives_flt s f (wasm_fmin (ff f) a b) r
  | B_flt f FBmax => gives_flt s f (wasm_fmax (ff f) a b) r
  | B_flt f FBcopysign =>
      gives_flt s f (bits_are (ff f) (fun k => if k =? fw (ff f) - 1 then Z.testbit b k else Z.testbit a k)) r
  | B_frel f o =>
      (gives_i32 s 1 r /\ wasm_frel o (ieee_decode (ff f) a) (ieee_decode (ff f) b)) \/
      (gives_i32 s 0 r /\ ~ wasm_frel o (ieee_decode (ff f) a) (ieee_decode (ff f) b))
  end.
(** a mathematical integer in the range of the chosen signedness, as a bit pattern *)
Definition wrap_int (w : iw) (z : Z) : Z := z mod 2 ^ wz w.
Definition spec_cvt (hf : hostfp) (s : inst) (c : cvt) (a : Z) (r : res (inst * option val)) : Prop :=
  match c with
  | C_wrap => gives_int s W32 (wasm_wrap a) r
  | C_ext Sx => gives_int s W64 (wasm_extend_s 32 64 a) r
  | C_ext Ux => gives_int s W64 (wasm_extend_u a) r
  | C_trunc w f x =>
      (exists z, wasm_trunc x (wz w) (ieee_decode (ff f) a) (Some z) /\ gives_int s w (wrap_int w z) r) \/
      (wasm_trunc x (wz w) (ieee_decode (ff f) a) None /\ traps r)
  | C_trunc_sat w f x => gives_int s w (wrap_int w (wasm_trunc_sat x (wz w) (ieee_decode (ff f) a))) r
  | C_convert f w x =>
      gives_flt s f (fun b => b = h_of_int hf (ff f) (match x with Sx => signed (wz w) a | Ux => a end)) r
  | C_demote => gives_flt s FT32 (fun b => b = h_demote hf a) r
  | C_promote => gives_flt s FT64 (fun b => b = h_promote hf a) r
  | C_f2i w => gives_int s w a r
  | C_i2f w => gives_flt s (fty_of w) (fun b => b = a) r
  end.

Definition op_spec (hf : hostfp) (o : sop) (s : inst) (args : list val) (r : res (inst * option val)) : Prop :=
  match o, args, i_mem s with
  | SNum1 o, [a], _ => spec1 hf s o (pattern a) r
  | SNum2 o, [a; b], _ => spec2 hf s o (pattern a) (pattern b) r
  | SCvt c, [a], _ => spec_cvt hf s c (pattern a) r
  | SLoad op off, [p], Some m =>
      match wasm_load op (m_data m) (pattern p) off with Some v => r = Ok (s, Some v) | None => traps r end
  | SStore op off, [p; v], Some m => gives_mem s m (wasm_store op (m_data m) (pattern p) off v) r
  | SMemSize, [], Some m => gives_i32 s (pages (m_data m)) r
  | SMemGrow, [n], Some m =>
      match wasm_grow (m_data m) (m_max m) (pattern n) with
      | Some d => exists g, r = Ok (with_mem s {| m_data := d; m_max := m_max m; m_gen := g |},
                                    Some (VI32 (pages (m_data m))))
      | None => r = Ok (s, Some (VI32 (-1)))
      end
  | SMemCopy, [d; sr; n], Some m => gives_mem s m (wasm_copy (m_data m) (pattern d) (pattern sr) (pattern n)) r
  | SMemFill, [d; v; n], Some m => gives_mem s m (wasm_fill (m_data m) (pattern d) (pattern v) (pattern n)) r
  | SMemInit k, [d; sr; n], Some m =>
      match nth_error (i_datas s) k with
      | Some seg => gives_mem s m (wasm_init (m_data m) seg (pattern d) (pattern sr) (pattern n)) r
      | None => False
      end
  | SDataDrop k, [], _ => exists ds, replaced_at (i_datas s) ds k [] /\ r = Ok (with_datas s ds, None)
  | SGlobalGet _ i, [], _ => exists v, nth_error (i_globals s) i = Some v /\ r = Ok (s, Some v)
  | SGlobalSet _ i, [v], _ => exists gs, replaced_at (i_globals s) gs i v /\ r = Ok (with_globals s gs, None)
  | SRefNull _, [], _ => r = Ok (s, Some (VRef RNull))
  | SRefIsNull, [VRef RNull], _ => r = Ok (s, Some (VI32 1))
  | SRefIsNull, [VRef _], _ => r = Ok (s, Some (VI32 0))
  | STableGet t _, [i], _ =>
      match nth_error (i_tables s) t with
      | None => False
      | Some tb => match nth_error tb (Z.to_nat (pattern i)) with
                   | Some x => r = Ok (s, Some (VRef x))
                   | None => traps r
                   end
      end
  | STableSet t _, [i; VRef x], _ =>
      match nth_error (i_tables s) t with
      | None => False
      | Some tb =>
          if Z.of_nat (length tb) <=? pattern i then traps r
          else exists tb' ts, replaced_at tb tb' (Z.to_nat (pattern i)) x /\ replaced_at (i_tables s) ts t tb' /\
                              r = Ok (with_tables s ts, None)
      end
  | STableFill t _, [i; VRef x; n], _ =>
      match nth_error (i_tables s) t with
      | None => False
      | Some tb =>
          if Z.of_nat (length tb) <? pattern i + pattern n then traps r
          else exists tb' ts, length tb' = length tb /\
                 (forall j, nth_error tb' j = if (pattern i <=? Z.of_nat j) && (Z.of_nat j <? pattern i + pattern n)
                                              then Some x else nth_error tb j) /\
                 replaced_at (i_tables s) ts t tb' /\ r = Ok (with_tables s ts, None)
      end
  | _, _, _ => False
  end.

(** 4.4.8 call_indirect: the function an element refers to *)
Definition func_spec (ts : list table) (t : nat) (i : Z) (r : res nat) : Prop :=
  match nth_error ts t with
  | None => False
  | Some tb => match nth_error tb (Z.to_nat (unsigned 32 i)) with
               | Some (RFunc f) => r = Ok f
               | _ => exists t, r = Trap t
               end
  end.

(** primitives that are WebAssembly's *)
Record wasm_conforming (hf : hostfp) (P : prims) : Prop := {
  wc_op : forall h o s args, inst_ok h s -> op_in h o = true -> exists_op o = true ->
            Forall2 has_type (sop_args o) args -> op_spec hf o s args (p_op P o s args);
  wc_func : forall h s t i, inst_ok h s -> (t < sh_tables h)%nat -> in_s 32 i ->
            func_spec (i_tables s) t i (p_func P (i_tables s) t i);
  wc_default : forall t, p_default P t = Ok (default_of (class_of t));
  wc_host : p_ind_host P = true
}.
