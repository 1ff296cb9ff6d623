(** The two dispatchers (src/execution/dispatch_loop.rs, dispatch_tco.rs with [advance!] of
    handlers.rs 295-345), checkpoint polling (migration.rs 60-145), the run loop (runtime.rs
    129-425) and checkpoint / restore (migration.rs 150-370). *)
From Coq Require Import ZArith List Bool Lia.
From Verif Require Import Word Value Float Mem Regs IR Machine.
Import ListNotations.
Open Scope nat_scope.

(** ** polling *)
(** How the environment behaves: which of the two compiled variants of [do_poll_checkpoint] is used,
    whether the instance has a WASI implementation (migration.rs 131), and whether the trigger file
    (or, with atomics, the flag set by the monitor thread) would be found at the [t]-th poll.
    Simplification: finding the request always removes it (134), after which the run ends. *)
Record penv := { atomics : bool; has_wasi : bool; request : nat -> bool }.
(** [enable_checkpoint], [checkpoint_poll_counter] (u32) of VmState, and the number of polls so far *)
Record pollst := { p_en : bool; p_cnt : Z; p_t : nat }.
(** migration.rs 96-140 *)
Definition poll (E : penv) (p : pollst) : bool * pollst :=
  if negb (p_en p) then (false, {| p_en := p_en p; p_cnt := p_cnt p; p_t := S (p_t p) |})
  else if atomics E then (request E (p_t p), {| p_en := p_en p; p_cnt := p_cnt p; p_t := S (p_t p) |})
  else let k := ((p_cnt p + 1) mod 2 ^ 32)%Z in
       ((Z.land k 1023 =? 0)%Z && (has_wasi E && request E (p_t p)),
        {| p_en := p_en p; p_cnt := k; p_t := S (p_t p) |}).

(** ** dispatchers *)
(** what [execute_instructions] returns; [DCheckpoint] is the trap CheckpointRequested *)
Inductive dout := DHalt (v : vs) | DYield (y : yield) (v : vs) | DTrap (t : trap) | DCheckpoint (v : vs) | DUB.

(** a handler's outcome other than "go on" *)
Definition handled (o : hout) (go : vs -> option (dout * nat)) (t : nat) : option (dout * nat) :=
  match o with
  | HNext v => go v
  | HHalt v => Some (DHalt v, t)
  | HYield y v => Some (DYield y v, t)
  | HTrap x => Some (DTrap x, t)
  | HUB => Some (DUB, t)
  end.

(** dispatch_loop.rs 18-52; the result also has the number of polls so far.  [None]: still running after [n] rounds. *)
Fixpoint loop_dispatch (hf : hostfp) (M : modul) (E : penv) (code : list instr) (n : nat) (p : pollst) (v : vs) : option (dout * nat) :=
  match n with
  | O => None
  | S n =>
      let (b, p) := poll E p in
      if b then Some (DCheckpoint v, p_t p)
      else if Nat.leb (length code) (s_pc v)
      then match s_labels v with
           | l :: (_ :: _) as ls =>
               if Nat.leb (l_ret l) (s_pc v) && negb (l_loop l) then Some (DHalt v, p_t p)
               else loop_dispatch hf M E code n p
                      {| s_d := s_d v; s_labels := tl ls; s_ret := s_ret v;
                         s_pc := if l_loop l then S (s_pc v) else l_ret l |}
           | _ => Some (DHalt v, p_t p)
           end
      else handled (hstep hf M code v) (loop_dispatch hf M E code n p) (p_t p)
  end.
(** handlers.rs 296-315, 340-348: [advance!] with [next_handler] *)
Fixpoint tco_advance (hf : hostfp) (M : modul) (E : penv) (code : list instr) (n : nat) (p : pollst) (v : vs) : option (dout * nat) :=
  match n with
  | O => None
  | S n =>
      let (b, p) := poll E p in
      if b then Some (DCheckpoint v, p_t p)
      else handled (hstep hf M code v) (tco_advance hf M E code n p) (p_t p)
  end.
(** dispatch_tco.rs 25-36 *)
Definition tco_dispatch (hf : hostfp) (M : modul) (E : penv) (code : list instr) (n : nat) (p : pollst) (v : vs) : option (dout * nat) :=
  match n with
  | O => None
  | S n =>
      let (b, p) := poll E p in
      if b then Some (DCheckpoint v, p_t p)
      else if Nat.leb (length code) (s_pc v) then Some (DHalt v, p_t p)
      else handled (hstep hf M code v) (tco_advance hf M E code n p) (p_t p)
  end.
Inductive variant := LoopStyle | TailCall.
Definition dispatch (D : variant) := match D with LoopStyle => loop_dispatch | TailCall => tco_dispatch end.

(** ** the runtime state *)
(** VMState (state.rs 136-142) with the instance, the history of host calls and the number of polls.
    Frames have the top (running) one first; the flag is [FrameStack::enable_checkpoint]. *)
Record rstate := { r_rf : regfile; r_frames : list (bool * frame); r_inst : inst; r_log : list event; r_t : nat }.
Inductive rout :=
| RRun (st : rstate)              (* still running *)
| RDone (vals : list val) (s : inst) (log : list event)
| RExit (code : Z) (log : list event)
| RTrap (t : trap) (log : list event)
| RCheckpoint (st : rstate)       (* stopped, [st] is handed to migration::checkpoint *)
| RUB.
Definition rres {A} (log : list event) (r : res A) (k : A -> rout) : rout :=
  match r with Ok a => k a | Trap t => RTrap t log | UB => RUB end.

(** runtime.rs 176-184: the frame after dispatch *)
Definition write_back (f : frame) (v : vs) : frame :=
  {| f_fn := f_fn f; f_loc := d_loc (s_d v); f_ptr := d_ptr (s_d v); f_labels := set_ip (s_labels v) (s_pc v);
     f_ret := s_ret v; f_res := f_res f; f_n := f_n f |}.
Definition with_res (f : frame) (rs : list reg) : frame :=
  {| f_fn := f_fn f; f_loc := f_loc f; f_ptr := f_ptr f; f_labels := f_labels f; f_ret := f_ret f; f_res := rs; f_n := f_n f |}.
Definition with_ptr (f : frame) (p : option nat) : frame :=
  {| f_fn := f_fn f; f_loc := f_loc f; f_ptr := p; f_labels := f_labels f; f_ret := f_ret f; f_res := f_res f; f_n := f_n f |}.

(** one round of the loop in [run] (runtime.rs 224-424): [execute_frame] on the top frame, then what
    it asked for.  [en0] is [Runtime::enable_checkpoint].  [None]: the frame is still running. *)
Definition run_round (hf : hostfp) (host : hostfn) (M : modul) (E : penv) (D : variant) (en0 : bool) (k : nat) (st : rstate) : option rout :=
  match r_frames st with
  | [] => Some (RDone [] (r_inst st) (r_log st))
  | (en, f) :: rest =>
      match nth_error (md_funcs M) (f_fn f) with
      | Some (FWasm fd) =>
          match dispatch D hf M E (fd_code fd) k {| p_en := en; p_cnt := 0; p_t := r_t st |}
                  (resume f (r_rf st) (r_inst st) (f_ptr f)) with
          | None => None
          | Some (o, t) =>
              let ret v :=
                let rf := d_rf (s_d v) in let s := d_inst (s_d v) in
                match rest with
                | [] => rres (r_log st) (rf_get_vals rf (firstn (f_n f) (s_ret v))) (fun vals => RDone vals s (r_log st))
                | (en', g) :: rest' =>
                    rres (r_log st) (rf_get_vals rf (s_ret v)) (fun vals =>
                    rres (r_log st) (rf_set_vals (rf_restore rf) (f_res g) vals) (fun rf =>
                      RRun {| r_rf := rf; r_frames := (en', with_res (with_ptr g (cur_ptr s)) []) :: rest';
                              r_inst := s; r_log := r_log st; r_t := t |}))
                end in
              Some match o with
              | DHalt v | DYield YReturn v => ret v
              | DYield (YWasi w args r) v =>
                  let s := d_inst (s_d v) in
                  let log := (w, args, mem_view s) :: r_log st in
                  match host log with
                  | HoErr => RTrap TBadOperand log
                  | HoPanic => RTrap THost log
                  | HoUB => RUB
                  | HoExit z => RExit z log
                  | HoRet o ws =>
                      rres log (match r, o with Some r, Some x => rf_set_val (d_rf (s_d v)) r x | _, _ => Ok (d_rf (s_d v)) end)
                        (fun rf => RRun {| r_rf := rf; r_frames := (en, write_back f v) :: rest;
                                           r_inst := apply_writes s ws; r_log := log; r_t := t |})
                  end
              | DYield (YInvoke g args rs) v =>
                  match nth_error (md_funcs M) g with
                  | Some (FWasm gd) =>
                      rres (r_log st) (default_locals (fd_locals gd)) (fun ds =>
                        let s := d_inst (s_d v) in
                        RRun {| r_rf := rf_save (d_rf (s_d v)) (fd_alloc gd);
                                r_frames :=
                                  (en0, {| f_fn := g; f_loc := args ++ ds; f_ptr := cur_ptr s; f_labels := [new_label];
                                           f_ret := []; f_res := []; f_n := length (snd (fd_type gd)) |})
                                  :: (en, with_res (write_back f v) rs) :: rest;
                                r_inst := s; r_log := r_log st; r_t := t |})
                  | Some (FWasi _ _) => RTrap TBadOperand (r_log st)
                  | None => RUB
                  end
              | DTrap x => RTrap x (r_log st)
              | DCheckpoint v => RCheckpoint {| r_rf := d_rf (s_d v); r_frames := (en, write_back f v) :: rest;
                                                r_inst := d_inst (s_d v); r_log := r_log st; r_t := t |}
              | DUB => RUB
              end
          end
      | _ => Some RUB
      end
  end.
(** [n] rounds of at most [k] handler calls each *)
Fixpoint run_loop (hf : hostfp) (host : hostfn) (M : modul) (E : penv) (D : variant) (en0 : bool) (k n : nat) (st : rstate) : rout :=
  match n with
  | O => RRun st
  | S n => match run_round hf host M E D en0 k st with
           | None => RRun st
           | Some (RRun st) => run_loop hf host M E D en0 k n st
           | Some o => o
           end
  end.
(** runtime.rs 219-221: [activation_frame_stack.first_mut()] is the outermost frame, here the last *)
Definition set_outermost (en0 : bool) (fs : list (bool * frame)) : list (bool * frame) :=
  match rev fs with [] => [] | (_, f) :: r => rev ((en0, f) :: r) end.
(** runtime.rs 201-425 *)
Definition run hf host M E D en0 k n (st : rstate) : rout :=
  run_loop hf host M E D en0 k n
    {| r_rf := r_rf st; r_frames := set_outermost en0 (r_frames st); r_inst := r_inst st; r_log := r_log st; r_t := r_t st |}.
(** state.rs 147-208 (VMState::new) *)
Definition start (M : modul) (s : inst) (f : nat) (args : list val) : res rstate :=
  match nth_error (md_funcs M) f with
  | Some (FWasm fd) =>
      if Nat.eqb (length args) (length (fst (fd_type fd)))
      then Ok {| r_rf := rf_save rf_new (fd_alloc fd);
                 r_frames := [(false, {| f_fn := f; f_loc := args ++ map (fun t => default_of (class_of t)) (fd_locals fd);
                                         f_ptr := cur_ptr s; f_labels := [new_label]; f_ret := []; f_res := [];
                                         f_n := length (snd (fd_type fd)) |})];
                 r_inst := s; r_log := []; r_t := 0 |}
      else Trap TParamCount
  | _ => Trap TBadOperand
  end.

(** ** checkpoint and restore *)
(** What the file holds of a frame: [Frame::module], [enable_checkpoint], [primary_mem],
    [cached_mem_ptr], [handlers] and [processed_instrs] are not written (state.rs 217-290).
    This is the checkpoint before bincode and LZ4, which are in Codec.v.
    Simplification: writing and reading the file succeed. *)
Record iframe := { g_loc : list val; g_labels : list label; g_ret : list reg; g_res : list reg; g_n : nat }.
(** migration.rs 150-160 (SerializableState) *)
Record image := { g_mem : option (list Z); g_globals : list val; g_funcs : list nat; g_rf : regfile; g_frames : list iframe }.
(** value.rs 102-112: the variants FuncAddr and RefExtern are skipped; serde then fails on them *)
Definition ser_val (v : val) : bool := match v with VRef (RFunc _) | VRef (RExtern _) => false | _ => true end.
Definition ser_rf (rf : regfile) : bool :=
  forallb (fun c => forallb ser_val (sget (rf_vecs rf) c)) [CI32; CI64; CF32; CF64; CRef; CV128].
Definition ser_state (st : rstate) : bool :=
  ser_rf (r_rf st) && forallb (fun f => forallb ser_val (f_loc (snd f))) (r_frames st) && forallb ser_val (i_globals (r_inst st)).
(** migration.rs 165-280; [None] is SerializationError.  Every frame's body is found in the module. *)
Definition checkpoint (st : rstate) : option image :=
  if ser_state st
  then Some {| g_mem := option_map m_data (i_mem (r_inst st)); g_globals := i_globals (r_inst st);
               g_funcs := map (fun f => f_fn (snd f)) (r_frames st); g_rf := r_rf st;
               g_frames := map (fun f => {| g_loc := f_loc (snd f); g_labels := f_labels (snd f); g_ret := f_ret (snd f);
                                            g_res := f_res (snd f); g_n := f_n (snd f) |}) (r_frames st) |}
  else None.
(** mem.rs 141-146 (set_data): a new allocation *)
Definition set_data (m : meminst) (d : list Z) : meminst := {| m_data := d; m_max := m_max m; m_gen := S (m_gen m) |}.
(** migration.rs 319-330 with global.rs 40-48 *)
Fixpoint restore_globals (gs vals : list val) : option (list val) :=
  match gs, vals with
  | g :: gs, v :: vals =>
      if cls_eqb (val_cls g) (val_cls v) then option_map (cons v) (restore_globals gs vals) else None
  | _, _ => Some gs
  end.
(** migration.rs 285-370 into the instance [s]; [log] and [t]: what the host has seen so far.
    A function index outside the module is a panic; of an imported function: no code. *)
Definition restore (M : modul) (s : inst) (g : image) (log : list event) (t : nat) : option rstate :=
  match (match i_mem s, g_mem g with
         | Some m, Some d => Some (with_mem s (set_data m d))
         | Some _, None => None
         | None, _ => Some s
         end) with
  | None => None
  | Some s1 =>
      match (if Nat.eqb (length (i_globals s1)) (length (g_globals g))
             then option_map (with_globals s1) (restore_globals (i_globals s1) (g_globals g))
             else Some s1) with
      | None => None
      | Some s2 =>
          if forallb (fun f => Nat.ltb f (length (md_funcs M))) (g_funcs g)
          then Some {| r_rf := g_rf g;
                       r_frames := map (fun p => (false, {| f_fn := fst p; f_loc := g_loc (snd p); f_ptr := cur_ptr s2;
                                                            f_labels := g_labels (snd p); f_ret := g_ret (snd p);
                                                            f_res := g_res (snd p); f_n := g_n (snd p) |}))
                                       (combine (g_funcs g) (g_frames g));
                       r_inst := s2; r_log := log; r_t := t |}
          else None
      end
  end.
