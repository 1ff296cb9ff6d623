(** The translator from WebAssembly operators to the register IR: src/parser.rs 56-590 (operand
    folding), 1172-1258 (decode_code_section), 1265-1755 (fixups), 1764-1850 (types of locals),
    1856-7283 (decode_processed_instrs_and_fixups), 7309-7376 (compute_branch_regs).

    Simplifications: block types are given as the parameter and result lists they denote; the
    placeholder [usize::MAX] of an unpatched target is 0; hash maps are functions; the dead
    branch of phase 3 behind an unconditional [continue] (parser.rs 1566-1732) is omitted;
    a panic and an [Err] are both [None]. *)
From Coq Require Import ZArith List Bool Lia.
From Verif Require Import Word Value Numeric Float Mem Store Regs IR Machine Wasm.
Import ListNotations.
Open Scope nat_scope.

(** ** the operator stream (wasmparser::Operator) *)
Inductive fop :=
| FBasic (b : basic)
| FBlock (is_loop : bool) (ps rs : list valtype)
| FIf (ps rs : list valtype)
| FElse | FEnd
| FBr (d : nat) | FBrIf (d : nat) | FBrTable (ds : list nat) (d : nat)
| FReturn | FUnreachable
| FCall (f : nat) | FCallInd (ty tb : nat).

(** the binary order of a structured instruction sequence (Core 5.4.1) *)
Fixpoint flatten (c : code) : list fop :=
  match c with
  | CNil => []
  | CBasic b k => FBasic b :: flatten k
  | CBlock lp ps rs body k => FBlock lp ps rs :: flatten body ++ FEnd :: flatten k
  | CIf ps rs th k => FIf ps rs :: flatten th ++ FEnd :: flatten k
  | CIfElse ps rs th el k => FIf ps rs :: flatten th ++ FElse :: flatten el ++ FEnd :: flatten k
  | CBr d k => FBr d :: flatten k
  | CBrIf d k => FBrIf d :: flatten k
  | CBrTable ds d k => FBrTable ds d :: flatten k
  | CReturn k => FReturn :: flatten k
  | CUnreachable k => FUnreachable :: flatten k
  | CCall f k => FCall f :: flatten k
  | CCallInd ty tb k => FCallInd ty tb :: flatten k
  end.

(** ** what the translator knows about the module *)
(** structure/module.rs ImportDesc *)
Inductive import := ImWasi (w : nat) (t : ftype) | ImFunc (ty : nat) | ImOther.
(** [ms_functys]: the types of the defined functions, already looked up in the type section *)
Record modsrc := { ms_imports : list import; ms_nimp : nat; ms_functys : list ftype; ms_types : list ftype }.
Inductive callinfo := CIWasi (w : nat) (t : ftype) | CIFunc (t : ftype).
Definition type_or_empty (m : modsrc) (ty : nat) : ftype :=
  match nth_error (ms_types m) ty with Some t => t | None => ([], []) end.
(** parser.rs 5312-5380: how a call finds its callee's type (the import list is indexed with the
    function index) *)
Definition call_info (m : modsrc) (f : nat) : callinfo :=
  if Nat.ltb f (ms_nimp m) then
    match nth_error (ms_imports m) f with
    | Some (ImWasi w t) => CIWasi w t
    | Some (ImFunc ty) => CIFunc (type_or_empty m ty)
    | _ => CIFunc ([], [])
    end
  else CIFunc (nth (f - ms_nimp m) (ms_functys m) ([], [])).

Record denv := { e_params : list valtype; e_locals : list valtype; e_results : list valtype; e_mod : modsrc }.
(** parser.rs 1764-1788; declared locals expanded to one type each *)
Definition ltype (E : denv) (n : nat) : valtype := nth n (e_params E ++ e_locals E) TI32.

Definition is_num (c : cls) : bool := match c with CI32 | CI64 | CF32 | CF64 => true | _ => false end.

(** ** operand folding *)
(** parser.rs 256-293, 492-588: operators that take a folded operand of class [c] *)
Definition consumer (c : cls) (o : fop) : bool :=
  match o with
  | FBasic (BOp (SNum2 o)) => cls_eqb (class_of (op2_arg o)) c
  | FBasic (BOp (SNum1 (U_int w o))) =>
      match o with Iext8 | Iext16 | Iext32 => false | _ => cls_eqb (class_of (ity w)) c end
  | FBasic (BOp (SNum1 o)) => cls_eqb (class_of (op1_arg o)) c
  | _ => false
  end.
Definition is_const (o : fop) : option cls := match o with FBasic (BConst v) => Some (val_cls v) | _ => None end.
Definition is_get (o : fop) : bool := match o with FBasic (BGet _) => true | _ => false end.
Definition is_load (o : fop) : bool := match o with FBasic (BOp (SLoad _ _)) => true | _ => false end.
Definition is_store (o : fop) : bool := match o with FBasic (BOp (SStore _ _)) => true | _ => false end.
Definition hd_is (p : fop -> bool) (l : list fop) : bool := match l with [] => false | o :: _ => p o end.
(** parser.rs 142-254 (can_fold_i32 .. can_fold_f64) *)
Definition can_fold (c : cls) (nxt : list fop) : bool :=
  match nxt with
  | [] => false
  | o :: rest =>
      consumer c o
      || ((match is_const o with Some c' => cls_eqb c' c | None => is_get o end) && hd_is (consumer c) rest)
  end.
(** parser.rs 317-331 *)
Definition can_fold_for_load (nxt : list fop) : bool := hd_is is_load nxt.
(** parser.rs 353-383 *)
Definition can_fold_for_store (nxt : list fop) : bool :=
  match nxt with
  | [] => false
  | o :: rest =>
      (match is_const o with Some c => is_num c | None => is_get o end) && hd_is is_store rest
  end.
(** parser.rs 1941-1944, 2004-.., 2366-2369: only i32 operands fold into loads and stores *)
Definition folds (c : cls) (nxt : list fop) : bool :=
  can_fold c nxt || (cls_eqb c CI32 && (can_fold_for_load nxt || can_fold_for_store nxt)).

(** allocator and pending operands (top first), parser.rs 61-71 *)
Record cst := CS { k_al : alloc; k_pend : list (cls * opnd) }.

(** parser.rs 74-139 (take_i32_operand ..) *)
Definition take_pend (c : cls) (n : nat) (p : list (cls * opnd)) : opnd * list (cls * opnd) :=
  match p with
  | (c', o) :: p' => if cls_eqb c' c then (o, p') else (OReg n, p)
  | [] => (OReg n, p)
  end.

(** parser.rs 387-490 (try_fold_dst_i32 ..): the next operator sets a local of class [c] *)
Definition fold_dst (E : denv) (c : cls) (nxt : list fop) : option nat :=
  match nxt with
  | FBasic (BSet n) :: _ => if is_num c && cls_eqb (class_of (ltype E n)) c then Some (u16 n) else None
  | _ => None
  end.

(** const and local.get: parser.rs 1937-2030, 2365-2390 and the i64, f32, f64 constants *)
Definition dec_value (t : valtype) (o : opnd) (nxt : list fop) (k : cst) : list instr * cst :=
  let c := class_of t in
  let (a, r) := al_push (k_al k) t in
  if folds c nxt then ([], CS a ((c, o) :: k_pend k))
  else ([IMov c (DReg (r_idx r)) o], CS a (k_pend k)).

(** pops in stack order (top first); register indices in the same order *)
Fixpoint pop_regs (a : alloc) (ts : list valtype) : alloc * list nat :=
  match ts with
  | [] => (a, [])
  | t :: ts => let (a, r) := al_pop a t in let (a, ns) := pop_regs a ts in (a, r_idx r :: ns)
  end.
(** which operands may be taken from the pending stack, top first *)
Definition sop_takes (o : sop) : list bool :=
  match o with
  | SNum1 _ | SLoad _ _ => [true]
  | SNum2 _ => [true; true]
  | SStore _ _ => [false; true]
  | _ => map (fun _ => false) (sop_args o)
  end.
Fixpoint take_all (ts : list valtype) (fl : list bool) (ns : list nat) (p : list (cls * opnd))
  : list opnd * list (cls * opnd) :=
  match ts, fl, ns with
  | t :: ts, b :: fl, n :: ns =>
      let (o, p) := if b then take_pend (class_of t) n p else (OReg n, p) in
      let (os, p) := take_all ts fl ns p in (o :: os, p)
  | _, _, _ => ([], p)
  end.
(** operators whose result may go straight into a local *)
Definition dst_foldable (o : sop) : bool :=
  match o with
  | SNum1 o => cls_eqb (class_of (op1_res o)) (class_of (op1_arg o))
  | SNum2 o => cls_eqb (class_of (op2_res o)) (class_of (op2_arg o))
  | SCvt _ | SLoad _ _ | SGlobalGet _ _ => true
  | _ => false
  end.
(** global.set takes a pending operand but uses it only if it is a local (parser.rs 2257-2360) *)
Definition global_src (c : cls) (n : nat) (p : list (cls * opnd)) : opnd * list (cls * opnd) :=
  let (o, p) := take_pend c n p in
  (match o with OLoc l => OLoc l | _ => OReg n end, p).
(** operators without counterpart in the translator (parser.rs 7179: panic) *)
Definition sop_ok (o : sop) : bool :=
  match o with
  | SNum1 (U_int W32 Iext32) => false
  | SGlobalGet t _ | SGlobalSet t _ => is_num (class_of t)
  | SRefNull t => cls_eqb (class_of t) CRef
  | STableGet _ e | STableSet _ e | STableFill _ e => cls_eqb (class_of e) CRef
  | _ => true
  end.

(** parser.rs 2149-5140, 5608-7030, 7092-7178 *)
Definition dec_op (E : denv) (o : sop) (nxt : list fop) (k : cst) : list instr * cst * bool :=
  let targs := rev (sop_args o) in
  let (a, ns) := pop_regs (k_al k) targs in
  let (srcs, p) := match o with
                   | SGlobalSet t _ => let (s, p) := global_src (class_of t) (hd 0 ns) (k_pend k) in ([s], p)
                   | _ => take_all targs (sop_takes o) ns (k_pend k)
                   end in
  match sop_res o with
  | None => ([IOp o None (rev srcs)], CS a p, false)
  | Some t =>
      let (a, r) := al_push a t in
      match (if dst_foldable o then fold_dst E (class_of t) nxt else None) with
      | Some l => ([IOp o (Some (DLoc l)) (rev srcs)], CS (fst (al_pop a t)) p, true)
      | None => ([IOp o (Some (DReg (r_idx r))) (rev srcs)], CS a p, false)
      end
  end.

(** parser.rs 7032-7090: the type of select and the class of its handler *)
Definition select_type (a : alloc) (t : option valtype) : valtype :=
  match t with Some t => t | None => match al_peek_type a with Some t => t | None => TI32 end end.
Definition select_cls (t : option valtype) (u : valtype) : option cls :=
  match class_of u, t with
  | CV128, _ => None
  | CRef, None => None
  | CRef, Some _ => Some CI64
  | c, _ => Some c
  end.

(** One operator without control: instructions, new state, and whether the next operator (a
    local.set) was consumed. *)
Definition dec_basic (E : denv) (b : basic) (nxt : list fop) (k : cst) : option (list instr * cst * bool) :=
  match b with
  | BConst v =>
      if is_num (val_cls v) then
        let (is, k) := dec_value (vt_of_cls (val_cls v)) (OConst v) nxt k in Some (is, k, false)
      else None
  | BGet n =>
      let t := ltype E n in
      match class_of t with
      | CV128 => None
      | CRef => let (a, r) := al_push (k_al k) t in
                Some ([IRefGet (r_idx r) (u16 n)], CS a (k_pend k), false)
      | _ => let (is, k) := dec_value t (OLoc (u16 n)) nxt k in Some (is, k, false)
      end
  | BSet n =>
      let t := ltype E n in
      let (a, r) := al_pop (k_al k) t in
      match class_of t with
      | CV128 => None
      | CRef => Some ([IRefSet (u16 n) (r_idx r)], CS a (k_pend k), false)
      | c => Some ([IMov c (DLoc (u16 n)) (OReg (r_idx r))], CS a (k_pend k), false)
      end
  | BTee n =>
      let t := ltype E n in
      match al_peek (k_al k) t with
      | None => None
      | Some r =>
          match class_of t with
          | CV128 => None
          | CRef => Some ([IRefSet (u16 n) (r_idx r)], k, false)
          | c => Some ([IMov c (DLoc (u16 n)) (OReg (r_idx r))], k, false)
          end
      end
  | BDrop => Some ([], CS (al_pop_any (k_al k)) (k_pend k), false)
  | BNop => Some ([], k, false)
  | BSelect t =>
      let (a, rc) := al_pop (k_al k) TI32 in
      let u := select_type a t in
      match select_cls t u with
      | None => None
      | Some c =>
          let (a, r2) := al_pop a u in
          let (a, r1) := al_pop a u in
          let (a, rd) := al_push a u in
          Some ([ISelect c (r_idx rd) (r_idx r1) (r_idx r2) (r_idx rc)], CS a (k_pend k), false)
      end
  | BOp o => if sop_ok o then Some (dec_op E o nxt k) else None
  end.

(** ** control *)
(** parser.rs 592-606 (ControlBlockInfo); [param_regs] is always empty *)
Record ctl := { cb_loop : bool; cb_params : list valtype; cb_results : list valtype; cb_regs : list reg }.
(** registers a branch to this block writes *)
Definition cb_target (b : ctl) : list reg := if cb_loop b then [] else cb_regs b.

(** parser.rs 7309-7376 (compute_branch_regs) *)
Fixpoint branch_src (d : six nat) (n i : nat) (tgt : list reg) : list reg :=
  match tgt with
  | [] => []
  | r :: tgt => R (r_cls r) (u16 (sget d (r_cls r) - (n - i))) :: branch_src d n (S i) tgt
  end.
Definition branch_regs (ctls : list ctl) (depth : nat) (a : alloc) : list reg * list reg :=
  match nth_error ctls depth with
  | None => ([], [])
  | Some b => let t := cb_target b in (branch_src (al_d a) (length t) 0 t, t)
  end.

(** parser.rs 5394-5402, 5453-5460: per parameter, last first: peek, insert in front, pop *)
Fixpoint call_params (a : alloc) (ts : list valtype) (acc : list reg) : alloc * list reg :=
  match ts with
  | [] => (a, acc)
  | t :: ts => call_params (fst (al_pop a t)) ts (match al_peek a t with Some r => r :: acc | None => acc end)
  end.

(** parser.rs 1265-1278 (FixupInfo; [source_regs] is not used afterwards) *)
Inductive fixkind := FxIf | FxElse | FxBr.
Record fixup := { fx_pc : nat; fx_depth : nat; fx_kind : fixkind }.

(** parser.rs 1874-1905: decoder state.  Stacks have their top first. *)
Record dst8 := {
  z_k : cst;
  z_ctl : list ctl;
  z_sav : list alstate;
  z_unr : nat;                                  (* unreachable_depth *)
  z_map : list (nat * bool * option nat);       (* control_stack_for_map_building *)
  z_ends : nat -> option nat;                   (* block_end_map *)
  z_elses : nat -> option nat;                  (* if_else_map *)
  z_fix : list fixup;
  z_out : list instr
}.
Definition fupd (m : nat -> option nat) (k v : nat) : nat -> option nat :=
  fun n => if Nat.eqb n k then Some v else m n.

(** push an instruction (with its fixup) *)
Definition emit (z : dst8) (k : cst) (is : list instr) (fx : list fixup) : dst8 :=
  {| z_k := k; z_ctl := z_ctl z; z_sav := z_sav z; z_unr := z_unr z; z_map := z_map z; z_ends := z_ends z;
     z_elses := z_elses z; z_fix := z_fix z ++ fx; z_out := z_out z ++ is |}.
Definition set_unr (z : dst8) (n : nat) : dst8 :=
  {| z_k := z_k z; z_ctl := z_ctl z; z_sav := z_sav z; z_unr := n; z_map := z_map z; z_ends := z_ends z;
     z_elses := z_elses z; z_fix := z_fix z; z_out := z_out z |}.
Definition pc_of (z : dst8) : nat := length (z_out z).
Definition with_al (k : cst) (a : alloc) : cst := CS a (k_pend k).
Definition fx (z : dst8) (d : nat) (k : fixkind) : list fixup := [{| fx_pc := pc_of z; fx_depth := d; fx_kind := k |}].

(** parser.rs 5190-5225, 5237-5275: enter a block: pop the parameters, save, number the results,
    push the parameters back *)
Definition open_block (a : alloc) (lp : bool) (ps rs : list valtype) : alloc * alstate * ctl :=
  let a0 := al_pops a (rev ps) in
  (fst (al_pushes a0 ps), al_save a0,
   {| cb_loop := lp; cb_params := ps; cb_results := rs; cb_regs := number_regs (al_d a0) rs |}).

(** One operator in reachable code (parser.rs 1934-7283).  The flag: skip the next operator. *)
Definition dec_live (E : denv) (op : fop) (nxt : list fop) (z : dst8) : option (dst8 * bool) :=
  let k := z_k z in
  let a := k_al k in
  let pc := pc_of z in
  match op with
  | FBasic b =>
      match dec_basic E b nxt k with
      | Some (is, k, skip) => Some (emit z k is [], skip)
      | None => None
      end
  (* parser.rs 5187-5233, 7190-7197 *)
  | FBlock lp ps rs =>
      let '(a, s, b) := open_block a lp ps rs in
      Some ({| z_k := with_al k a; z_ctl := b :: z_ctl z; z_sav := s :: z_sav z; z_unr := z_unr z;
               z_map := (pc, false, None) :: z_map z; z_ends := z_ends z; z_elses := z_elses z;
               z_fix := z_fix z; z_out := z_out z ++ [IBlock lp] |}, false)
  (* parser.rs 5234-5284, 7198-7201 *)
  | FIf ps rs =>
      let (a, rc) := al_pop a TI32 in
      let '(a, s, b) := open_block a false ps rs in
      Some ({| z_k := with_al k a; z_ctl := b :: z_ctl z; z_sav := s :: z_sav z; z_unr := z_unr z;
               z_map := (pc, true, None) :: z_map z; z_ends := z_ends z; z_elses := z_elses z;
               z_fix := z_fix z ++ fx z 0 FxIf; z_out := z_out z ++ [IIf (r_idx rc) 0 false] |}, false)
  (* parser.rs 5285-5311, 7202-7210 *)
  | FElse =>
      let a := match z_sav z with s :: _ => al_restore a s | [] => a end in
      let a := match z_ctl z with b :: _ => fst (al_pushes a (cb_params b)) | [] => a end in
      match z_map z with
      | (st, true, None) :: m =>
          Some ({| z_k := with_al k a; z_ctl := z_ctl z; z_sav := z_sav z; z_unr := z_unr z;
                   z_map := (st, true, Some (S pc)) :: m; z_ends := z_ends z; z_elses := z_elses z;
                   z_fix := z_fix z ++ fx z 0 FxElse; z_out := z_out z ++ [IJump 0] |}, false)
      | _ => None
      end
  (* parser.rs 5143-5186, 7211-7228 *)
  | FEnd =>
      let rts := match z_ctl z with b :: _ => cb_results b | [] => e_results E end in
      let src := al_peek_regs a rts in
      let tgt := match z_ctl z with b :: _ => cb_regs b | [] => [] end in
      let push := match z_ctl z with b :: _ => cb_results b | [] => [] end in
      let a := match z_sav z with s :: _ => fst (al_pushes (al_restore a s) push) | [] => a end in
      let z' := fun m ends elses =>
        {| z_k := with_al k a; z_ctl := tl (z_ctl z); z_sav := tl (z_sav z); z_unr := z_unr z; z_map := m;
           z_ends := ends; z_elses := elses; z_fix := z_fix z; z_out := z_out z ++ [IEnd src tgt] |} in
      match z_map z with
      | (st, is_if, el) :: m =>
          Some (z' m (fupd (z_ends z) st (S pc))
                   (if is_if then fupd (z_elses z) st (match el with Some e => e | None => S pc end)
                    else z_elses z), false)
      | [] => match nxt with [] => Some (z' [] (z_ends z) (z_elses z), false) | _ => None end
      end
  (* parser.rs 5312-5424 *)
  | FCall f =>
      match call_info (e_mod E) f with
      | CIWasi w (ps, rs) =>
          let prs := al_peek_regs a ps in
          let a := al_pops a (rev ps) in
          match rs with
          | [] => Some (emit z (with_al k a) [ICallWasi w prs None] [], false)
          | t :: _ => let (a, r) := al_push a t in
                      Some (emit z (with_al k a) [ICallWasi w prs (Some r)] [], false)
          end
      | CIFunc ([], []) => Some (emit z k [ICall f [] []] [], false)
      | CIFunc (ps, rs) =>
          let (a, prs) := call_params a (rev ps) [] in
          let (a, rrs) := al_pushes a rs in
          Some (emit z (with_al k a) [ICall f prs rrs] [], false)
      end
  (* parser.rs 5425-5477 *)
  | FCallInd ty tb =>
      let (ps, rs) := type_or_empty (e_mod E) ty in
      match al_peek a TI32 with
      | None => None
      | Some ri =>
          let a := fst (al_pop a TI32) in
          let (a, prs) := call_params a (rev ps) [] in
          let (a, rrs) := al_pushes a rs in
          Some (emit z (with_al k a) [ICallInd ty tb (r_idx ri) prs rrs] [], false)
      end
  (* parser.rs 5478-5500 *)
  | FBr d =>
      let (src, tgt) := branch_regs (z_ctl z) d a in
      Some (set_unr (emit z k [IBr d 0 src tgt] (fx z d FxBr)) 1, false)
  (* parser.rs 5501-5531 *)
  | FBrIf d =>
      let rc := match al_peek a TI32 with Some r => r | None => R CI32 0 end in
      let a := fst (al_pop a TI32) in
      let (src, tgt) := branch_regs (z_ctl z) d a in
      Some (emit z (with_al k a) [IBrIf d 0 (r_idx rc) src tgt] (fx z d FxBr), false)
  (* parser.rs 5532-5589 *)
  | FBrTable ds d =>
      let ri := match al_peek a TI32 with Some r => r | None => R CI32 0 end in
      let a := fst (al_pop a TI32) in
      let ts := map (fun d => (d, 0, snd (branch_regs (z_ctl z) d a))) ds in
      let (src, tgt) := branch_regs (z_ctl z) d a in
      Some (set_unr (emit z (with_al k a) [IBrTable ts (d, 0, tgt) (r_idx ri) src] (fx z d FxBr)) 1, false)
  (* parser.rs 5590-5601 *)
  | FReturn =>
      let rs := al_peek_regs a (e_results E) in
      let a := al_pops a (rev (e_results E)) in
      Some (set_unr (emit z (with_al k a) [IReturn rs] []) 1, false)
  | FUnreachable => Some (set_unr (emit z k [IUnreachable] []) 1, false)
  end.

(** parser.rs 1906-1933: unreachable code.  [inl]: a nop was emitted; [inr]: go on with the operator *)
Definition dec_dead (op : fop) (z : dst8) : dst8 + dst8 :=
  match z_unr z with
  | O => inr z
  | S n =>
      let u := match op with
               | FBlock _ _ _ | FIf _ _ => S (S n)
               | FEnd => n
               | FElse => if Nat.eqb n 0 then 0 else S n
               | _ => S n
               end in
      match u with
      | O => inr (set_unr z 0)
      | S _ => inl (emit (set_unr z u) (z_k z) [INop] [])
      end
  end.

Fixpoint dec_ops (E : denv) (ops : list fop) (z : dst8) : option dst8 :=
  match ops with
  | [] => Some z
  | op :: rest =>
      match dec_dead op z with
      | inl z => dec_ops E rest z
      | inr z =>
          match dec_live E op rest z with
          | None => None
          | Some (z, false) => dec_ops E rest z
          | Some (z, true) => match rest with [] => Some z | _ :: rest => dec_ops E rest z end
          end
      end
  end.

Definition dec_start (E : denv) : dst8 :=
  {| z_k := CS (al_new (e_locals E)) []; z_ctl := []; z_sav := []; z_unr := 0; z_map := [];
     z_ends := fun _ => None; z_elses := fun _ => None; z_fix := []; z_out := [] |}.

(** ** fixups, parser.rs 1284-1755 *)
(** control stack rebuilt from the emitted instructions: (start pc, is_loop), top first *)
Definition scan1 (pc : nat) (i : instr) (st : list (nat * bool)) : list (nat * bool) :=
  match i with
  | IBlock lp => (pc, lp) :: st
  | IIf _ _ _ => (pc, false) :: st
  | IEnd _ _ => tl st
  | _ => st
  end.
Fixpoint scan (pc : nat) (is : list instr) (st : list (nat * bool)) : list (nat * bool) :=
  match is with [] => st | i :: is => scan (S pc) is (scan1 pc i st) end.
Definition is_br_table (i : instr) : bool := match i with IBrTable _ _ _ _ => true | _ => false end.
Definition set_target (i : instr) (t : nat) : instr :=
  match i with
  | IBr d _ s r => IBr d t s r
  | IBrIf d _ c s r => IBrIf d t c s r
  | _ => i
  end.
(** parser.rs 1299-1458: one fixup of phase 2 *)
Definition fix1 (ends elses : nat -> option nat) (f : fixup) (is : list instr) : option (list instr) :=
  match nth_error is (fx_pc f) with
  | None => None
  | Some i =>
      if is_br_table i then Some is
      else
        let st := scan 0 (firstn (S (fx_pc f)) is) [] in
        match nth_error st (fx_depth f) with
        | None => Some (upd is (fx_pc f) (set_target i (length is)))
        | Some (start, lp) =>
            match (if lp then Some start else ends start) with
            | None => None
            | Some t =>
                let i' := match fx_kind f, i with
                          | FxIf, IIf c _ _ =>
                              let e := match elses start with Some e => e | None => t end in
                              IIf c e (negb (Nat.eqb e t))
                          | FxElse, IJump _ => IJump t
                          | FxBr, _ => set_target i t
                          | _, _ => i
                          end in
                Some (upd is (fx_pc f) i')
            end
        end
  end.
Fixpoint phase2 (ends elses : nat -> option nat) (fs : list fixup) (is : list instr) : option (list instr) :=
  match fs with
  | [] => Some is
  | f :: fs => match fix1 ends elses f is with Some is => phase2 ends elses fs is | None => None end
  end.
(** parser.rs 1460-1563: phase 3 resolves br_table; a missing target is 0 *)
Definition table_target (ends : nat -> option nat) (st : list (nat * bool)) (t : nat * nat * list reg)
  : nat * nat * list reg :=
  let '(d, _, rs) := t in
  (d, match nth_error st d with
      | None => 0
      | Some (start, lp) => if lp then start else match ends start with Some e => e | None => 0 end
      end, rs).
Fixpoint phase3 (ends : nat -> option nat) (pc : nat) (is : list instr) (st : list (nat * bool)) : list instr :=
  match is with
  | [] => []
  | i :: is =>
      let st := scan1 pc i st in
      (match i with
       | IBrTable ts d x src => IBrTable (map (table_target ends st) ts) (table_target ends st d) x src
       | _ => i
       end) :: phase3 ends (S pc) is st
  end.

(** parser.rs 1172-1258: the whole translation of a body *)
Definition translate (E : denv) (ops : list fop) : option (list instr * six nat) :=
  match dec_ops E ops (dec_start E) with
  | None => None
  | Some z =>
      match z_map z with
      | _ :: _ => None                                 (* parser.rs 7269-7273 *)
      | [] => match phase2 (z_ends z) (z_elses z) (z_fix z) (z_out z) with
              | None => None
              | Some is => Some (phase3 (z_ends z) 0 is [], al_max (k_al (z_k z)))
              end
      end
  end.
