(** The checkpoint file: SerializableState (migration.rs 150-160) as bincode 1.3 writes it
    (migration.rs 250-265) and reads it (migration.rs 285-300), and the memory image as lz4_flex
    compresses it (migration.rs 176-180, 303-310).
    bincode::serialize / bincode::deserialize: integers little-endian with their full width, usize and
    lengths as u64, booleans one byte, enums a u32 index, sequences a length and the elements, structs and
    tuples their fields; trailing bytes are ignored.  On wasm32 a u64 of 2^32 or more is no usize. *)
From Coq Require Import ZArith List Bool.
From Verif Require Import Word Float Value Mem Store Regs IR Machine Runtime Module Load.
Import ListNotations.
Open Scope Z_scope.

(** writing a value; reading one: the value and the bytes that follow; the values of the Rust type *)
Record codec (A : Type) := { put : A -> list Z; get : list Z -> option (A * list Z); fits : A -> Prop }.
Arguments put {A} _ _. Arguments get {A} _ _. Arguments fits {A} _ _.

(** bincode's primitives: unsigned and signed integers of [n] bytes *)
Definition take_bytes (n : nat) (b : list Z) : option (list Z * list Z) :=
  if Nat.ltb (length b) n then None else Some (firstn n b, skipn n b).
Definition c_uint (n : nat) : codec Z :=
  {| put := le_encode n; get := fun b => match take_bytes n b with Some (x, r) => Some (le_decode x, r) | None => None end;
     fits := fun z => 0 <= z < 256 ^ Z.of_nat n |}.
Definition c_int (n : nat) : codec Z :=
  {| put := le_encode n; get := fun b => match take_bytes n b with Some (x, r) => Some (cast_s (8 * Z.of_nat n) (le_decode x), r) | None => None end;
     fits := fun z => in_s (8 * Z.of_nat n) z |}.
(** a type [B] represented by [A]: [back] may refuse *)
Definition c_via {A B} (c : codec A) (to : B -> A) (back : A -> option B) (ok : B -> Prop) : codec B :=
  {| put := fun x => put c (to x);
     get := fun b => match get c b with Some (y, r) => match back y with Some x => Some (x, r) | None => None end | None => None end;
     fits := fun x => fits c (to x) /\ ok x |}.
Definition c_pair {A B} (a : codec A) (b : codec B) : codec (A * B) :=
  {| put := fun p => put a (fst p) ++ put b (snd p);
     get := fun l => match get a l with Some (x, r) => match get b r with Some (y, r) => Some ((x, y), r) | None => None end | None => None end;
     fits := fun p => fits a (fst p) /\ fits b (snd p) |}.
Fixpoint get_n {A} (c : codec A) (n : nat) (b : list Z) : option (list A * list Z) :=
  match n with
  | O => Some ([], b)
  | S n => match get c b with
           | Some (x, r) => match get_n c n r with Some (l, r) => Some (x :: l, r) | None => None end
           | None => None
           end
  end.
(** Vec<T> *)
Definition c_vec {A} (c : codec A) : codec (list A) :=
  {| put := fun l => le_encode 8 (Z.of_nat (length l)) ++ flat_map (put c) l;
     get := fun b => match get (c_uint 8) b with
                     | Some (n, r) => if n <? 2 ^ 32 then get_n c (Z.to_nat n) r else None
                     | None => None
                     end;
     fits := fun l => Z.of_nat (length l) < 2 ^ 32 /\ Forall (fits c) l |}.
Definition c_nat (n : nat) (bound : Z) : codec nat :=
  c_via (c_uint n) Z.of_nat (fun z => if z <? bound then Some (Z.to_nat z) else None) (fun x => Z.of_nat x < bound).
Definition c_u16 := c_nat 2 (2 ^ 16). Definition c_u32 := c_nat 4 (2 ^ 32). Definition c_usize := c_nat 8 (2 ^ 32).
Definition c_bool : codec bool :=
  c_via (c_uint 1) b2z (fun z => if z =? 0 then Some false else if z =? 1 then Some true else None) (fun _ => True).
(** enums: the index of the variant, then its fields, by the variant *)
Definition c_enum {A} (tag : A -> Z) (of : Z -> option (codec A)) : codec A :=
  {| put := fun x => le_encode 4 (tag x) ++ match of (tag x) with Some c => put c x | None => [] end;
     get := fun b => match get (c_uint 4) b with
                     | Some (t, r) => match of t with Some c => get c r | None => None end
                     | None => None
                     end;
     fits := fun x => 0 <= tag x < 2 ^ 32 /\ match of (tag x) with Some c => fits c x | None => False end |}.
Definition c_unit {A} (x : A) (is : A -> Prop) : codec A := {| put := fun _ => []; get := fun b => Some (x, b); fits := is |}.

(** ** the types *)
(** value.rs 63-69 (Num), 100-103 (Vec_), 105-115 (Ref: only RefNull is written), 12-17 (Val) *)
Definition c_i32 : codec val := c_via (c_int 4) Mem.payload (fun z => Some (VI32 z)) (fun v => val_cls v = CI32).
Definition c_i64 : codec val := c_via (c_int 8) Mem.payload (fun z => Some (VI64 z)) (fun v => val_cls v = CI64).
Definition c_f32 : codec val := c_via (c_uint 4) Mem.payload (fun z => Some (VF32 z)) (fun v => val_cls v = CF32).
Definition c_f64 : codec val := c_via (c_uint 8) Mem.payload (fun z => Some (VF64 z)) (fun v => val_cls v = CF64).
Definition c_v128 : codec val := c_via (c_uint 16) Mem.payload (fun z => Some (VV128 z)) (fun v => val_cls v = CV128).
Definition c_ref : codec val :=
  c_enum (fun v => match v with VRef RNull => 0 | VRef (RFunc _) => 1 | _ => 2 end)
         (fun t => if t =? 0 then Some (c_unit (VRef RNull) (fun v => v = VRef RNull)) else None).
Definition of_class (c : cls) : codec val :=
  match c with CI32 => c_i32 | CI64 => c_i64 | CF32 => c_f32 | CF64 => c_f64 | CRef => c_ref | CV128 => c_v128 end.
Definition c_num : codec val :=
  c_enum (fun v => match v with VI32 _ => 0 | VI64 _ => 1 | VF32 _ => 2 | _ => 3 end)
         (fun t => if t =? 0 then Some c_i32 else if t =? 1 then Some c_i64 else if t =? 2 then Some c_f32 else if t =? 3 then Some c_f64 else None).
Definition c_vec128 : codec val := c_enum (fun _ => 0) (fun t => if t =? 0 then Some c_v128 else None).
Definition c_val : codec val :=
  c_enum (fun v => match v with VI32 _ | VI64 _ | VF32 _ | VF64 _ => 0 | VV128 _ => 1 | VRef _ => 2 end)
         (fun t => if t =? 0 then Some c_num else if t =? 1 then Some c_vec128 else if t =? 2 then Some c_ref else None).
(** regs.rs 11-19 *)
Definition cls_tag (c : cls) : Z := match c with CI32 => 0 | CI64 => 1 | CF32 => 2 | CF64 => 3 | CRef => 4 | CV128 => 5 end.
Definition cls_of_tag (t : Z) : option cls :=
  if t =? 0 then Some CI32 else if t =? 1 then Some CI64 else if t =? 2 then Some CF32 else if t =? 3 then Some CF64
  else if t =? 4 then Some CRef else if t =? 5 then Some CV128 else None.
Definition c_reg : codec reg :=
  c_via (c_pair (c_uint 4) c_u16) (fun r => (cls_tag (r_cls r), r_idx r))
        (fun p => match cls_of_tag (fst p) with Some c => Some (R c (snd p)) | None => None end) (fun _ => True).
(** ArrayVec<Reg, 8> (arrayvec's serde feature): at most eight *)
Definition c_regs : codec (list reg) := c_via (c_vec c_reg) (fun l => l) (fun l => if Nat.leb (length l) 8 then Some l else None) (fun l => (length l <= 8)%nat).
(** regs.rs 46-70; the vector of offsets has its top last *)
Definition c_six {A} (c : cls -> codec A) : codec (six A) :=
  c_via (c_pair (c CI32) (c_pair (c CI64) (c_pair (c CF32) (c_pair (c CF64) (c_pair (c CRef) (c CV128))))))
        (fun s => (s_i32 s, (s_i64 s, (s_f32 s, (s_f64 s, (s_ref s, s_v128 s))))))
        (fun '(a, (b, (d, (e, (f, g))))) => Some (Six a b d e f g)) (fun _ => True).
Definition c_rev {A} (c : codec (list A)) : codec (list A) := c_via c (@rev A) (fun l => Some (rev l)) (fun _ => True).
Definition c_regfile : codec regfile :=
  c_via (c_pair (c_six (fun c => c_vec (of_class c))) (c_pair (c_rev (c_vec (c_six (fun _ => c_u32)))) (c_six (fun _ => c_u32))))
        (fun rf => (rf_vecs rf, (rf_stack rf, rf_cur rf))) (fun '(v, (s, c)) => Some (RF v s c)) (fun _ => True).
(** state.rs 217-290: Label, LabelStack, Frame, FrameStack; the label stack has its top last *)
Definition c_label : codec label :=
  c_via (c_pair (c_pair c_bool c_usize) c_usize) (fun l => ((l_loop l, l_ret l), l_ip l))
        (fun '((b, r), i) => Some {| l_loop := b; l_ret := r; l_ip := i |}) (fun _ => True).
Definition c_frame : codec iframe :=
  c_via (c_pair (c_pair (c_vec c_val) c_usize) (c_pair (c_rev (c_vec c_label)) (c_pair c_regs c_regs)))
        (fun f => ((g_loc f, g_n f), (g_labels f, (g_res f, g_ret f))))
        (fun '((l, n), (ls, (rs, rt))) => Some {| g_loc := l; g_labels := ls; g_ret := rt; g_res := rs; g_n := n |}) (fun _ => True).
(** migration.rs 150-160, state.rs 136-142; frames with the outermost first *)
Record file := { fi_rf : regfile; fi_frames : list iframe; fi_mem : list Z; fi_globals : list val; fi_funcs : list nat }.
Definition c_byte : codec Z := c_uint 1.
Definition c_file : codec file :=
  c_via (c_pair (c_pair c_regfile (c_rev (c_vec c_frame))) (c_pair (c_vec c_byte) (c_pair (c_vec c_val) (c_rev (c_vec c_u32)))))
        (fun f => ((fi_rf f, fi_frames f), (fi_mem f, (fi_globals f, fi_funcs f))))
        (fun '((r, fs), (m, (g, x))) => Some {| fi_rf := r; fi_frames := fs; fi_mem := m; fi_globals := g; fi_funcs := x |}) (fun _ => True).

(** ** writing and reading *)
(** lz4_flex::compress_prepend_size and decompress_size_prepended *)
Record lz4 := { squeeze : list Z -> list Z; expand : list Z -> option (list Z) }.
(** migration.rs 165-280; [None]: SerializationError *)
Definition file_of (z : lz4) (g : image) : file :=
  {| fi_rf := g_rf g; fi_frames := g_frames g; fi_mem := match g_mem g with Some m => squeeze z m | None => [] end;
     fi_globals := g_globals g; fi_funcs := g_funcs g |}.
Definition checkpoint_bytes (z : lz4) (st : rstate) : option (list Z) := option_map (fun g => put c_file (file_of z g)) (checkpoint st).
(** migration.rs 285-370: the program can be resumed; RuntimeError; a panic; frames without code.
    The outermost frame takes the first index (zip, 336-342), so of too many indices the last ones, which the
    model has first, are not looked at *)
Inductive opened := Resumed (st : rstate) | Refused | Panicked | Unusable.
Definition image_of (z : lz4) (f : file) : image :=
  {| g_mem := expand z (fi_mem f); g_globals := fi_globals f;
     g_funcs := skipn (length (fi_funcs f) - length (fi_frames f)) (fi_funcs f); g_rf := fi_rf f; g_frames := fi_frames f |}.
(** memory and globals are restored before anything else is looked at; a function index outside the module
    panics; with fewer indices than frames some frames stay without code *)
Definition restore_bytes (z : lz4) (M : modul) (s : inst) (b : list Z) (log : list event) (t : nat) : opened :=
  match get c_file b with
  | None => Refused
  | Some (f, _) =>
      match restore M s (image_of z f) log t with
      | Some st => if Nat.ltb (length (fi_funcs f)) (length (fi_frames f)) then Unusable else Resumed st
      | None =>
          match restore M s {| g_mem := expand z (fi_mem f); g_globals := fi_globals f; g_funcs := []; g_rf := fi_rf f; g_frames := [] |} log t with
          | Some _ => Panicked
          | None => Refused
          end
      end
  end.
Section Main.
  Variables (hf : hostfp) (host : hostfn) (sg : nat -> ftype) (ff : cls -> list Z -> option Z) (z : lz4).
  (** where a process begins: with the exported function, or with a checkpoint file, the host having seen
      [log] and the environment having been polled [t] times before *)
  Inductive begin := Fresh | From (b : list Z) (log : list event) (t : nat).
  (** main.rs 146-222: how the run ends, or what is reported if there is none *)
  Definition session (how : begin) (E : penv) (D : variant) (cr : bool) (k n : nat) (F : list payload) (name : String.string) (params : list (list Z)) : report + rout :=
    match instance sg F with
    | None => inl Aborted
    | Some x =>
        match how with
        | Fresh =>
            match get_export_func x name with
            | None => inl (Exit 1 [MNoExport] [])
            | Some f =>
                match parse_params ff params with
                | None => inl Aborted
                | Some args =>
                    match start (mi_modul x) (mi_inst x) f args with
                    | Ok st => inr (run hf host (mi_modul x) E D cr k n st)
                    | Trap _ => inl (Exit 0 [MInit] [])
                    | UB => inl Undefined_behaviour
                    end
                end
            end
        | From b log t =>
            match restore_bytes z (mi_modul x) (mi_inst x) b log t with
            | Resumed st => inr (run hf host (mi_modul x) E D cr k n st)
            | Refused => inl (Exit 1 [MRestore] [])
            | Panicked => inl Aborted
            | Unusable => inl Undefined_behaviour
            end
        end
    end.
  (** what the user sees (main.rs 232-250) *)
  Definition command (how : begin) (E : penv) (D : variant) (cr : bool) (k n : nat) (F : list payload) (name : String.string) (params : list (list Z)) : report :=
    match session how E D cr k n F name params with inl r => r | inr o => handle_result o end.
  (** runtime.rs 232-258: the contents given to checkpoint.bin *)
  Definition saves (how : begin) (E : penv) (D : variant) (cr : bool) (k n : nat) (F : list payload) (name : String.string) (params : list (list Z)) : option (list Z) :=
    match session how E D cr k n F name params with inr (RCheckpoint st) => checkpoint_bytes z st | _ => None end.
End Main.
