(** Execution: src/execution/operand.rs, the handlers of handlers.rs on [VmState] (state.rs 24-57),
    and the frame transitions of runtime.rs 200-425. *)
From Coq Require Import ZArith List Bool Lia.
From Verif Require Import Word Value Mem Regs IR Float.
Import ListNotations.
Open Scope nat_scope.

(** ** data part of the state *)
(** Register file, locals of the running frame, instance, cached memory pointer.  A pointer is
    represented by the generation of the allocation it was taken from ([m_gen]); [None] is null. *)
Record data := { d_rf : regfile; d_loc : list val; d_inst : inst; d_ptr : option nat }.
Definition set_rf (d : data) (rf : regfile) : data :=
  {| d_rf := rf; d_loc := d_loc d; d_inst := d_inst d; d_ptr := d_ptr d |}.
Definition set_loc (d : data) (l : list val) : data :=
  {| d_rf := d_rf d; d_loc := l; d_inst := d_inst d; d_ptr := d_ptr d |}.
Definition set_inst (d : data) (s : inst) : data :=
  {| d_rf := d_rf d; d_loc := d_loc d; d_inst := s; d_ptr := d_ptr d |}.
Definition set_ptr (d : data) (p : option nat) : data :=
  {| d_rf := d_rf d; d_loc := d_loc d; d_inst := d_inst d; d_ptr := p |}.
(** mem.rs 75-82 (data_ptr) of the first memory, runtime.rs 310-314, 404-406 *)
Definition cur_ptr (s : inst) : option nat := option_map m_gen (i_mem s).

(** operand.rs 25-38, 52-66, 92-103, 133-144, 171-188: locals are accessed through a raw pointer
    (state.rs 87-97); a local of another class reads as zero. *)
Definition read (d : data) (c : cls) (o : opnd) : res val :=
  match o with
  | OReg n => rf_get (d_rf d) c n
  | OConst v => Ok v
  | OLoc n => match nth_error (d_loc d) n with
              | None => UB
              | Some v => Ok (if cls_eqb (val_cls v) c then v else default_of c)
              end
  end.
Fixpoint read_all (d : data) (cs : list cls) (os : list opnd) : res (list val) :=
  match cs, os with
  | c :: cs, o :: os => let* v := read d c o in let* vs := read_all d cs os in Ok (v :: vs)
  | _, _ => Ok []
  end.
(** operand.rs 40-49 etc., 195-217 *)
Definition write (d : data) (c : cls) (t : dst) (v : val) : res data :=
  match t with
  | DReg n => let* rf := rf_set (d_rf d) c n v in Ok (set_rf d rf)
  | DLoc n => if Nat.ltb n (length (d_loc d)) then Ok (set_loc d (upd (d_loc d) n v)) else UB
  end.
Definition write_opt (d : data) (t : option valtype) (o : option dst) (v : option val) : res data :=
  match t, o, v with Some t, Some o, Some v => write d (class_of t) o v | _, _, _ => Ok d end.

(** is the cached pointer the current one? *)
Definition fresh_ptr (d : data) : bool :=
  match i_mem (d_inst d), d_ptr d with Some m, Some g => Nat.eqb (m_gen m) g | _, _ => false end.

(** handlers.rs 1353-1395 (select): indices into the class of the handler *)
Definition do_select (d : data) (c : cls) (t v1 v2 cond : nat) : res data :=
  let* k := rf_get (d_rf d) CI32 cond in
  let* v := rf_get (d_rf d) c (if Z.eqb (payload k) 0 then v2 else v1) in
  let* rf := rf_set (d_rf d) c t v in Ok (set_rf d rf).

(** the straight-line handlers: effect on the data, [pc] advances by one *)
Definition dstep (hf : hostfp) (i : instr) (d : data) : option (res data) :=
  match i with
  | IMov c t s => Some (let* v := read d c s in write d c t v)
  | IOp o t srcs => Some (
      if uses_ptr o && negb (fresh_ptr d) then UB
      else let* args := read_all d (map class_of (sop_args o)) srcs in
           let* r := sop_eval hf o (d_inst d) args in
           let d := set_inst d (fst r) in
           let d := if sets_ptr o then set_ptr d (cur_ptr (fst r)) else d in
           write_opt d (sop_res o) t (snd r))
  | ISelect c t v1 v2 k => Some (do_select d c t v1 v2 k)
  (* handlers.rs 1842-1856: a local that is not a reference leaves the register unchanged *)
  | IRefGet t l => Some (
      match nth_error (d_loc d) l with
      | None => UB
      | Some (VRef r) => write d CRef (DReg t) (VRef r)
      | Some _ => Ok d
      end)
  (* handlers.rs 1858-1868 *)
  | IRefSet l s => Some (let* v := rf_get (d_rf d) CRef s in write d CRef (DLoc l) v)
  (* handlers.rs 1398-1401 *)
  | INop => Some (Ok d)
  | _ => None
  end.

(** ** control part *)
(** state.rs 245-252, 263-270 (Label, LabelStack) *)
Record label := { l_loop : bool; l_ret : nat; l_ip : nat }.
(** [VmState].  The label stack has its top first; [current_label_idx] is always its length - 1
    (every handler that changes the stack re-establishes it), so it is not stored. *)
Record vs := { s_d : data; s_labels : list label; s_ret : list reg; s_pc : nat }.

(** state.rs 119-132 (ModuleLevelInstr); a function address is its index *)
Inductive yield :=
| YReturn
| YWasi (w : nat) (params : list val) (result : option reg)
| YInvoke (f : nat) (params : list val) (results : list reg).

Inductive hout :=
| HNext (v : vs)            (* Continue / tail call of the handler at the new pc *)
| HHalt (v : vs)
| HYield (y : yield) (v : vs)
| HTrap (t : trap)
| HUB.
Definition hres {A} (r : res A) (k : A -> hout) : hout :=
  match r with Ok a => k a | Trap t => HTrap t | UB => HUB end.

(** ** functions and modules *)
Definition ftype := (list valtype * list valtype)%type.
Definition vts_eqb (a b : list valtype) : bool :=
  (Nat.eqb (length a) (length b)) && forallb (fun p => valtype_eqb (fst p) (snd p)) (combine a b).
Definition ftype_eqb (a b : ftype) : bool := vts_eqb (fst a) (fst b) && vts_eqb (snd a) (snd b).
(** structure/module.rs Func + func.rs FuncInst::RuntimeFunc *)
Record fdef := { fd_type : ftype; fd_locals : list valtype; fd_code : list instr; fd_alloc : six nat }.
Inductive func := FWasm (d : fdef) | FWasi (w : nat) (t : ftype).
Definition func_type (f : func) : ftype := match f with FWasm d => fd_type d | FWasi _ t => t end.
(** immutable part of ModuleInst *)
Record modul := { md_funcs : list func; md_types : list ftype }.

(** [Vec::truncate(keep)] on a stack whose top is the head *)
Definition truncate {A} (l : list A) (keep : nat) : list A := skipn (length l - keep) l.
(** handlers.rs 1426-1431: shared tail of br, br_if, br_table *)
Definition pop_to (labels : list label) (depth : nat) : list label :=
  truncate labels (Nat.max (length labels - 1 - depth) 1).
Definition branch (v : vs) (depth target : nat) (src tgt : list reg) : hout :=
  hres (match src, tgt with
        | [], _ | _, [] => Ok (d_rf (s_d v))
        | _, _ => rf_copies (d_rf (s_d v)) src tgt
        end)
    (fun rf => HNext {| s_d := set_rf (s_d v) rf; s_labels := pop_to (s_labels v) depth;
                        s_ret := s_ret v; s_pc := target |}).
Definition goto (v : vs) (pc : nat) : vs :=
  {| s_d := s_d v; s_labels := s_labels v; s_ret := s_ret v; s_pc := pc |}.
Definition push_label (v : vs) (l : label) (pc : nat) : vs :=
  {| s_d := s_d v; s_labels := l :: s_labels v; s_ret := s_ret v; s_pc := pc |}.
(** [ArrayVec<Reg, 8>]: collecting or pushing more than 8 panics *)
Definition arrayvec8 (rs : list reg) : res (list reg) := if Nat.leb (length rs) 8 then Ok rs else Trap THost.
(** handlers.rs 1599-1606 *)
Definition end_halt (len : nat) (v : vs) (src : list reg) : hout :=
  hres (arrayvec8 src) (fun rs =>
    HNext {| s_d := s_d v; s_labels := s_labels v; s_ret := rs; s_pc := len |}).

(** One handler call.  [code] = [instrs]; [handlers] has one more entry, [halt]. *)
Definition hstep (hf : hostfp) (M : modul) (code : list instr) (v : vs) : hout :=
  let d := s_d v in
  let len := length code in
  match nth_error code (s_pc v) with
  | None => if Nat.eqb (s_pc v) len then HHalt v else HUB
  | Some i =>
    match i with
    (* handlers.rs 1403-1407 *)
    | IUnreachable => HTrap THost
    (* handlers.rs 1409-1432 *)
    | IBr depth target src tgt => branch v depth target src tgt
    (* handlers.rs 1434-1466 *)
    | IBrIf depth target cond src tgt =>
        hres (rf_get (d_rf d) CI32 cond) (fun k =>
          if Z.eqb (payload k) 0 then HNext (goto v (S (s_pc v)))
          else branch v depth target src tgt)
    (* handlers.rs 1468-1503 *)
    | IBrTable targets default idx src =>
        hres (rf_get (d_rf d) CI32 idx) (fun k =>
          let n := cast_u 32 (payload k) in
          let '(depth, target, tgt) :=
            if Z.ltb n (Z.of_nat (length targets)) then nth (Z.to_nat n) targets default else default in
          branch v depth target src tgt)
    (* handlers.rs 1505-1525 *)
    | IBlock is_loop =>
        HNext (push_label v {| l_loop := is_loop; l_ret := S (s_pc v); l_ip := S (s_pc v) |} (S (s_pc v)))
    (* handlers.rs 1527-1570 *)
    | IIf cond else_target has_else =>
        hres (rf_get (d_rf d) CI32 cond) (fun k =>
          if negb (Z.eqb (payload k) 0)
          then HNext (push_label v {| l_loop := false; l_ret := else_target; l_ip := S (s_pc v) |} (S (s_pc v)))
          else if has_else
          then HNext (push_label v {| l_loop := false; l_ret := else_target; l_ip := else_target |} else_target)
          else HNext (goto v else_target))
    (* handlers.rs 1572-1608 *)
    | IEnd src tgt =>
        if Nat.leb (length (s_labels v)) 1 then end_halt len v src
        else hres (rf_copies (d_rf d) src tgt) (fun rf =>
               let v := {| s_d := set_rf d rf; s_labels := tl (s_labels v); s_ret := s_ret v; s_pc := s_pc v |} in
               if Nat.leb len (S (s_pc v)) && Nat.eqb (length (s_labels v)) 1
               then end_halt len v src
               else HNext (goto v (S (s_pc v))))
    (* handlers.rs 1610-1622 *)
    | IJump target =>
        HNext {| s_d := d; s_labels := if Nat.ltb 1 (length (s_labels v)) then tl (s_labels v) else s_labels v;
                 s_ret := s_ret v; s_pc := target |}
    (* handlers.rs 1635-1662 *)
    | ICall f params results =>
        match nth_error (md_funcs M) f with
        | None => HTrap TBadOperand
        | Some _ => hres (rf_get_vals (d_rf d) params) (fun args =>
                    hres (arrayvec8 results) (fun rs => HYield (YInvoke f args rs) (goto v (S (s_pc v)))))
        end
    (* handlers.rs 1664-1707 *)
    | ICallInd ty tb idx params results =>
        hres (rf_get (d_rf d) CI32 idx) (fun k =>
        hres (Store.table_func (i_tables (d_inst d)) tb (payload k)) (fun f =>
        match nth_error (md_funcs M) f, nth_error (md_types M) ty with
        | Some fn, Some t =>
            if ftype_eqb (func_type fn) t
            then hres (rf_get_vals (d_rf d) params) (fun args =>
                 hres (arrayvec8 results) (fun rs => HYield (YInvoke f args rs) (goto v (S (s_pc v)))))
            else HTrap TTypeMismatch
        | _, _ => HTrap THost
        end))
    (* handlers.rs 1709-1733 *)
    | ICallWasi w params result =>
        hres (rf_get_vals (d_rf d) params) (fun args => HYield (YWasi w args result) (goto v (S (s_pc v))))
    (* handlers.rs 1735-1745 *)
    | IReturn rs =>
        hres (arrayvec8 rs) (fun rs =>
          HYield YReturn {| s_d := d; s_labels := s_labels v; s_ret := rs; s_pc := s_pc v |})
    | _ => match dstep hf i d with
           | Some (Ok d) => HNext {| s_d := d; s_labels := s_labels v; s_ret := s_ret v; s_pc := S (s_pc v) |}
           | Some (Trap t) => HTrap t
           | _ => HUB
           end
    end
  end.

(** ** host calls (WASI).  The host is an arbitrary function of the history of calls, each with its
    arguments and the memory it could see; it returns an error, panics, reaches undefined
    behaviour, ends the process, or returns a value and writes some bytes.  World.v instantiates it
    with the WASI functions of Wasi.v over an arbitrary operating system. *)
Definition event := (nat * list val * option (list Z))%type.
Inductive hostres := HoErr | HoPanic | HoUB | HoExit (code : Z) | HoRet (r : option val) (writes : list (nat * Z)).
Definition hostfn := list event -> hostres.
Definition apply_writes (s : inst) (ws : list (nat * Z)) : inst :=
  match i_mem s with
  | None => s
  | Some m => with_mem s (with_data m (fold_left (fun d w => upd d (fst w) (snd w)) ws (m_data m)))
  end.
Definition mem_view (s : inst) : option (list Z) := option_map m_data (i_mem s).

(** ** frames and the run loop *)
(** state.rs 217-243 (Frame, FrameStack) *)
Record frame := { f_fn : nat; f_loc : list val; f_ptr : option nat; f_labels : list label;
                  f_ret : list reg; f_res : list reg; f_n : nat }.
(** The running frame is kept as a [vs] + function index + result count. *)
Record config := { c_v : vs; c_fn : nat; c_n : nat; c_callers : list frame; c_log : list event }.

(** runtime.rs 176-184: write back [pc] into the top label, and the pointer *)
Definition set_ip (ls : list label) (pc : nat) : list label :=
  match ls with [] => [] | l :: ls => {| l_loop := l_loop l; l_ret := l_ret l; l_ip := pc |} :: ls end.
Definition suspend (c : config) (v : vs) (res : list reg) : frame :=
  {| f_fn := c_fn c; f_loc := d_loc (s_d v); f_ptr := d_ptr (s_d v); f_labels := set_ip (s_labels v) (s_pc v);
     f_ret := s_ret v; f_res := res; f_n := c_n c |}.
(** runtime.rs 134-175: read [pc] from the top label *)
Definition top_ip (ls : list label) : nat := match ls with [] => 0 | l :: _ => l_ip l end.
Definition resume (f : frame) (rf : regfile) (s : inst) (p : option nat) : vs :=
  {| s_d := {| d_rf := rf; d_loc := f_loc f; d_inst := s; d_ptr := p |};
     s_labels := f_labels f; s_ret := f_ret f; s_pc := top_ip (f_labels f) |}.

(** Val::default_value (value.rs): a reference type is [todo!()] *)
Definition default_local (t : valtype) : res val :=
  match t with TFuncRef | TExternRef => Trap THost | _ => Ok (default_of (class_of t)) end.
Fixpoint default_locals (ts : list valtype) : res (list val) :=
  match ts with
  | [] => Ok []
  | t :: ts => let* v := default_local t in let* vs := default_locals ts in Ok (v :: vs)
  end.

Inductive sout :=
| SNext (c : config)
| SDone (vals : list val) (s : inst) (log : list event)
| SExit (code : Z) (log : list event)
| STrap (t : trap) (log : list event)
| SUB.
Definition sres {A} (log : list event) (r : res A) (k : A -> sout) : sout :=
  match r with Ok a => k a | Trap t => STrap t log | UB => SUB end.

Definition new_label : label := {| l_loop := false; l_ret := 0; l_ip := 0 |}.
(** runtime.rs 296-352 (InvokeReg of a RuntimeFunc) *)
Definition enter (c : config) (v : vs) (f : nat) (fd : fdef) (args : list val) (rs : list reg) : sout :=
  sres (c_log c) (default_locals (fd_locals fd)) (fun ds =>
    let rf := rf_save (d_rf (s_d v)) (fd_alloc fd) in
    let s := d_inst (s_d v) in
    SNext {| c_v := {| s_d := {| d_rf := rf; d_loc := args ++ ds; d_inst := s; d_ptr := cur_ptr s |};
                       s_labels := [new_label]; s_ret := []; s_pc := 0 |};
             c_fn := f; c_n := length (snd (fd_type fd));
             c_callers := suspend c v rs :: c_callers c; c_log := c_log c |}).
(** runtime.rs 371-420 (Return / end of body) *)
Definition leave (c : config) (v : vs) : sout :=
  let rf := d_rf (s_d v) in let s := d_inst (s_d v) in
  match c_callers c with
  | [] => sres (c_log c) (rf_get_vals rf (firstn (c_n c) (s_ret v))) (fun vals => SDone vals s (c_log c))
  | f :: fs =>
      sres (c_log c) (rf_get_vals rf (s_ret v)) (fun vals =>
      sres (c_log c) (rf_set_vals (rf_restore rf) (f_res f) vals) (fun rf =>
        SNext {| c_v := resume f rf s (cur_ptr s); c_fn := f_fn f; c_n := f_n f;
                 c_callers := fs; c_log := c_log c |}))
  end.
(** runtime.rs 265-289 (InvokeWasiReg) with 427-: a missing result or result register is skipped *)
Definition call_host (host : hostfn) (c : config) (v : vs) (w : nat) (args : list val) (r : option reg) : sout :=
  let s := d_inst (s_d v) in
  let log := (w, args, mem_view s) :: c_log c in
  match host log with
  | HoErr => STrap TBadOperand log
  | HoPanic => STrap THost log
  | HoUB => SUB
  | HoExit z => SExit z log
  | HoRet o ws =>
      let d := set_inst (s_d v) (apply_writes s ws) in
      sres log (match r, o with Some r, Some x => rf_set_val (d_rf d) r x | _, _ => Ok (d_rf d) end) (fun rf =>
        SNext {| c_v := {| s_d := set_rf d rf; s_labels := s_labels v; s_ret := s_ret v; s_pc := s_pc v |};
                 c_fn := c_fn c; c_n := c_n c; c_callers := c_callers c; c_log := log |})
  end.

(** One instruction of the whole machine. *)
Definition step (hf : hostfp) (host : hostfn) (M : modul) (c : config) : sout :=
  match nth_error (md_funcs M) (c_fn c) with
  | Some (FWasm fd) =>
      match hstep hf M (fd_code fd) (c_v c) with
      | HNext v => SNext {| c_v := v; c_fn := c_fn c; c_n := c_n c; c_callers := c_callers c; c_log := c_log c |}
      | HHalt v | HYield YReturn v => leave c v
      | HYield (YWasi w args r) v => call_host host c v w args r
      | HYield (YInvoke f args rs) v =>
          match nth_error (md_funcs M) f with
          | Some (FWasm g) => enter c v f g args rs
          | Some (FWasi _ _) => STrap TBadOperand (c_log c)
          | None => SUB
          end
      | HTrap t => STrap t (c_log c)
      | HUB => SUB
      end
  | _ => SUB
  end.

(** Running [n] steps; [None]: still running. *)
Inductive outcome :=
| Done (vals : list val) (s : inst) (log : list event)
| Exited (code : Z) (log : list event)
| Trapped (t : trap) (log : list event)
| Undefined.
Fixpoint steps (hf : hostfp) (host : hostfn) (M : modul) (n : nat) (c : config) : config + outcome :=
  match n with
  | O => inl c
  | S n => match step hf host M c with
           | SNext c => steps hf host M n c
           | SDone vs s l => inr (Done vs s l)
           | SExit z l => inr (Exited z l)
           | STrap t l => inr (Trapped t l)
           | SUB => inr Undefined
           end
  end.

(** state.rs 147-208 (VMState::new): the initial frame; reference locals start null here *)
Definition initial (M : modul) (s : inst) (f : nat) (args : list val) : res config :=
  match nth_error (md_funcs M) f with
  | Some (FWasm fd) =>
      if Nat.eqb (length args) (length (fst (fd_type fd)))
      then Ok {| c_v := {| s_d := {| d_rf := rf_save rf_new (fd_alloc fd);
                                     d_loc := args ++ map (fun t => default_of (class_of t)) (fd_locals fd);
                                     d_inst := s; d_ptr := cur_ptr s |};
                           s_labels := [new_label]; s_ret := []; s_pc := 0 |};
                 c_fn := f; c_n := length (snd (fd_type fd)); c_callers := []; c_log := [] |}
      else Trap TParamCount
  | _ => Trap TBadOperand
  end.
