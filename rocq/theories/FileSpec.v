(** What a checkpoint file can be expected to do.  Written from the WebAssembly and Rust types and from how
    files are written, not from the encoding. *)
From Coq Require Import ZArith List Bool.
From Coq Require String.
From Verif Require Import Word Float Value Mem WasmMem Store Regs IR Machine Runtime Module Load LoadSpec Codec Wasm Decoder Soundness EmitProofs.
Import ListNotations.

(** ** what a state of a program on a 32-bit machine holds *)
Definition u16 (n : nat) : Prop := (Z.of_nat n < 2 ^ 16)%Z.
Definition u32 (n : nat) : Prop := (Z.of_nat n < 2 ^ 32)%Z.
Definition short {A} (l : list A) : Prop := u32 (length l).
Definition regs_ok (rs : list reg) : Prop := (length rs <= 8)%nat /\ Forall (fun r => u16 (r_idx r)) rs.
Record frame_ok (f : frame) : Prop := {
  fo_fn : u32 (f_fn f); fo_n : u32 (f_n f);
  fo_loc : Forall val_ok (f_loc f);
  fo_labels : Forall (fun l => u32 (l_ret l) /\ u32 (l_ip l)) (f_labels f);
  fo_ret : regs_ok (f_ret f); fo_res : regs_ok (f_res f) }.
(** every register holds a value of its class, every offset lies within its registers, every local and global
    holds a value of its type, every byte of memory a byte *)
Record state_ok (st : rstate) : Prop := {
  so_regs : forall c, Forall (fun v => val_cls v = c /\ val_ok v) (sget (rf_vecs (r_rf st)) c);
  so_offs : Forall (fun o => forall c, (sget o c <= length (sget (rf_vecs (r_rf st)) c))%nat) (rf_cur (r_rf st) :: rf_stack (r_rf st));
  so_frames : Forall (fun f => frame_ok (snd f)) (r_frames st);
  so_globals : Forall val_ok (i_globals (r_inst st));
  so_mem : forall m, i_mem (r_inst st) = Some m -> bytes_ok (m_data m) }.
(** what the file of a module can hold: constants and initial values of their types, data segments of bytes,
    fewer than 2^32 functions, operators in a function and results of a function *)
Record in_range (W : wmodule) (gs : list val) : Prop := {
  ir_consts : forallb (oksrc (fun _ => true) val_okb) (sm_funcs (w_code W)) = true;
  ir_globals : Forall val_ok gs;
  ir_datas : Forall (fun d => bytes_ok (ds_bytes d)) (w_datas W);
  ir_funcs : short (sm_funcs (w_code W));
  ir_bodies : forall d, In (SWasm d) (sm_funcs (w_code W)) -> u32 (S (length (flatten (sf_body d)))) /\ short (snd (sf_type d)) }.
(** a compressor: what comes out is bytes, nothing is lost, and nothing is compressed to nothing *)
Record lossless (z : lz4) : Prop := {
  z_bytes : forall m, bytes_ok m -> bytes_ok (squeeze z m);
  z_back : forall m, bytes_ok m -> expand z (squeeze z m) = Some m;
  z_empty : expand z [] = None }.

(** ** a program run in several processes, each writing the file the next one begins with *)
Section History.
  Variables (hf : hostfp) (host : hostfn) (sg : nat -> ftype) (ff : cls -> list Z -> option Z) (z : lz4).
  Variables (F : list payload) (name : String.string) (ps : list (list Z)).
  Inductive history : begin -> Prop :=
  | HFresh : history Fresh
  | HNext how E D k n st b : history how -> session hf host sg ff z how E D true k n F name ps = inr (RCheckpoint st) ->
      checkpoint_bytes z st = Some b -> short b -> history (From b (r_log st) (r_t st)).
End History.

(** the host calls made by the processes so far *)
Definition calls_before (how : begin) : list event := match how with Fresh => [] | From _ log _ => log end.
(** the report of a run before which the calls [log] have been made *)
Definition and_calls (log : list event) (r : report) : report := match r with Exit st out calls => Exit st out (calls ++ log) | r => r end.

(** ** programs that can be moved *)
(** What a checkpoint does not contain does not change, and no function reference gets into a local, a global
    or a register: the code has no table.get, table.set, table.fill and data.drop, no global holds a
    reference at first, and no host function returns one. *)
Definition op_movable (o : sop) : bool := match o with STableGet _ _ | STableSet _ _ | STableFill _ _ | SDataDrop _ => false | _ => true end.
Definition code_movable (SM : smodule) : Prop := forallb (oksrc op_movable (fun _ => true)) (sm_funcs SM) = true.
Definition no_reference (v : val) : Prop := forall r, v = VRef r -> r = RNull.
Record movable (SM : smodule) (gs : list val) (host : hostfn) : Prop := {
  mv_code : code_movable SM;
  mv_globals : Forall no_reference gs;
  mv_host : forall log v ws, host log = HoRet (Some v) ws -> no_reference v }.

(** ** crashes *)
(** File::create empties the file in place, write_all then writes it from the front: if the process, or the
    machine, stops on the way, this is what the file called checkpoint.bin can be ([None]: there is none) *)
Inductive left_by_crash (old : option (list Z)) (new : list Z) : option (list Z) -> Prop :=
| LUntouched : left_by_crash old new old
| LPart p q : new = p ++ q -> left_by_crash old new (Some p).
(** one byte is not what was written *)
Definition damaged (b b' : list Z) : Prop := exists p x y q, b = p ++ x :: q /\ b' = p ++ y :: q /\ is_byte y /\ x <> y.
