(** The whole program on its host: the WASI functions of Wasi.v called from the run loop.
    src/execution/runtime.rs 265-289 and 427-1035 with src/wasi/passthrough.rs, over an arbitrary
    operating system reached through the C interface of wasi-libc (WorldSpec.received). *)
From Coq Require Import ZArith List Bool.
From Verif Require Import Word Value Mem WasmMem Wasi WasiSpec IR Machine WorldSpec.
Import ListNotations.
Open Scope Z_scope.

(** structure/module.rs 160-545 (WasiFuncType::expected_func_type) *)
Definition expected (f : wfun) : ftype :=
  match f with
  | ProcExit => ([TI32], [])
  | FdWrite => ([TI32; TI32; TI32; TI32], [TI32])
  | FdRead => ([TI32; TI32; TI32; TI32], [TI32])
  | RandomGet => ([TI32; TI32], [TI32])
  | FdPrestatGet => ([TI32; TI32], [TI32])
  | FdPrestatDirName => ([TI32; TI32; TI32], [TI32])
  | FdClose => ([TI32], [TI32])
  | EnvironGet => ([TI32; TI32], [TI32])
  | EnvironSizesGet => ([TI32; TI32], [TI32])
  | ArgsGet => ([TI32; TI32], [TI32])
  | ArgsSizesGet => ([TI32; TI32], [TI32])
  | ClockTimeGet => ([TI32; TI64; TI32], [TI32])
  | ClockResGet => ([TI32; TI32], [TI32])
  | SchedYield => ([], [TI32])
  | FdFdstatGet => ([TI32; TI32], [TI32])
  | PathOpen => ([TI32; TI32; TI32; TI32; TI32; TI64; TI64; TI32; TI32], [TI32])
  | FdSeek => ([TI32; TI64; TI32; TI32], [TI32])
  | FdTell => ([TI32; TI32], [TI32])
  | FdSync => ([TI32], [TI32])
  | FdFilestatGet => ([TI32; TI32], [TI32])
  | FdReaddir => ([TI32; TI32; TI32; TI64; TI32], [TI32])
  | FdPread => ([TI32; TI32; TI32; TI64; TI32], [TI32])
  | FdDatasync => ([TI32], [TI32])
  | FdFdstatSetFlags => ([TI32; TI32], [TI32])
  | FdFilestatSetSize => ([TI32; TI64], [TI32])
  | FdPwrite => ([TI32; TI32; TI32; TI64; TI32], [TI32])
  | PathCreateDirectory => ([TI32; TI32; TI32], [TI32])
  | PathFilestatGet => ([TI32; TI32; TI32; TI32; TI32], [TI32])
  | PathFilestatSetTimes => ([TI32; TI32; TI32; TI32; TI64; TI64; TI32], [TI32])
  | PathReadlink => ([TI32; TI32; TI32; TI32; TI32; TI32], [TI32])
  | PathRemoveDirectory => ([TI32; TI32; TI32], [TI32])
  | PathUnlinkFile => ([TI32; TI32; TI32], [TI32])
  | PollOneoff => ([TI32; TI32; TI32; TI32], [TI32])
  | ProcRaise => ([TI32], [TI32])
  | FdAdvise => ([TI32; TI64; TI64; TI32], [TI32])
  | FdAllocate => ([TI32; TI64; TI64], [TI32])
  | FdFdstatSetRights => ([TI32; TI64; TI64], [TI32])
  | FdRenumber => ([TI32; TI32], [TI32])
  | FdFilestatSetTimes => ([TI32; TI64; TI64; TI32], [TI32])
  | PathLink => ([TI32; TI32; TI32; TI32; TI32; TI32; TI32], [TI32])
  | PathRename => ([TI32; TI32; TI32; TI32; TI32; TI32], [TI32])
  | PathSymlink => ([TI32; TI32; TI32; TI32; TI32], [TI32])
  | SockAccept => ([TI32; TI32; TI32], [TI32])
  | SockRecv => ([TI32; TI32; TI32; TI32; TI32; TI32], [TI32])
  | SockSend => ([TI32; TI32; TI32; TI32; TI32], [TI32])
  | SockShutdown => ([TI32; TI32], [TI32])
  end.
(** a WASI import as the loader numbers it: its place in WASI_FUNCTION_MAP (parser.rs 653-706, 926-928) *)
Definition expected_type (w : nat) : ftype := match fun_of w with Some f => expected f | None => ([], []) end.

(** the C library's environ_sizes_get and environ_get for the environment [env] *)
Fixpoint offsets (o : Z) (l : list (list Z)) : list (option Z) :=
  match l with [] => [] | s :: l => Some o :: offsets (o + mlen s + 1) l end.
Definition env_reply (env : list (list Z)) (m : list Z) : reply :=
  {| r_errno := 0; r_out := [Z.of_nat (length env); total env]; r_ptrs := offsets 0 env; r_buf := strings_z env; r_mem := m |}.
Definition insideb (m : list Z) (s : Z * Z) : bool := fst s + snd s <=? mlen m.

Section Host.
  Variables (sys : system) (argv env : list (list Z)).
  (** one WASI call of the guest: the calls the interpreter makes itself, with the guest's memory [m] at
      each; a host that is sent outside of it does as it likes *)
  Fixpoint drive (past : list scall) (m : list Z) (p : wprog) : list scall * wout :=
    match p with
    | WEnd o => (past, o)
    | WCall f hs k =>
        match f with
        | EnvironGet | EnvironSizesGet => drive past m (k (env_reply env m))
        | _ =>
            let a := received (signature f) hs in
            if forallb (insideb m) (spans f a)
            then let past := (f, a, m) :: past in let r := sys past in drive past (r_mem r) (k r)
            else (past, WUB)
        end
    end.
  Definition answer (past : list scall) (e : event) : list scall * wout :=
    let '(w, vs, m) := e in
    match fun_of w with
    | Some f => drive past (match m with Some m => m | None => [] end) (call_wasi argv m f vs)
    | None => (past, WErr ENoSys)
    end.
  (** the calls that reached the system, latest first *)
  Fixpoint made (log : list event) : list scall :=
    match log with [] => [] | e :: log => fst (answer (made log) e) end.
  (** runtime.rs 275: an error ends the run; [proc_exit] does not come back *)
  Definition passthrough : hostfn := fun log =>
    match log with
    | [] => HoErr
    | e :: log =>
        let a := answer (made log) e in
        match snd a with
        | WRet v m => HoRet (Some v) (image (match snd e with Some m => m | None => [] end) m)
        | WErr _ => HoErr
        | WPanic => HoPanic
        | WUB => HoUB
        | WGone => match fst a with (ProcExit, [SInt c], _) :: _ => HoExit c | _ => HoUB end
        end
    end.
End Host.
