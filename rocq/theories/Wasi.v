(** WASI calls: src/wasi/passthrough.rs (PassthroughWasiImpl), src/execution/runtime.rs 427-1035
    (call_wasi_function), src/parser.rs 650-706 (WASI_FUNCTION_MAP).
    The interpreter is itself a WASI guest: each call is passed on to the C functions [__wasi_*] of
    its own host.  A call is modelled as a program over these host functions: it ends, or calls one
    with the arguments built by the code and continues with the host's reply. *)
From Coq Require Import ZArith List Bool Lia.
From Verif Require Import Word Value Mem.
Import ListNotations.
Open Scope Z_scope.

(** wasi/types.rs / structure/module.rs (WasiFuncType) *)
Inductive wfun :=
| ProcExit | FdWrite | FdRead | RandomGet | FdPrestatGet | FdPrestatDirName | FdClose | EnvironGet
| EnvironSizesGet | ArgsGet | ArgsSizesGet | ClockTimeGet | ClockResGet | SchedYield | FdFdstatGet
| PathOpen | FdSeek | FdTell | FdSync | FdFilestatGet | FdReaddir | FdPread | FdDatasync
| FdFdstatSetFlags | FdFilestatSetSize | FdPwrite | PathCreateDirectory | PathFilestatGet
| PathFilestatSetTimes | PathReadlink | PathRemoveDirectory | PathUnlinkFile | PollOneoff | ProcRaise
| FdAdvise | FdAllocate | FdFdstatSetRights | FdRenumber | FdFilestatSetTimes | PathLink | PathRename
| PathSymlink | SockAccept | SockRecv | SockSend | SockShutdown.

(** The errors the code itself returns (wasi/error.rs); any of them ends the run (runtime.rs 275). *)
Inductive werr := EFault | EInval | ENoSys.

(** One argument of a host function.
    [HInt]: a number, after the C type of the parameter has been applied;
    [HBuf o]: the pointer [memory_base.add(o)];
    [HText bs]: a pointer to a fresh array [bs];
    [HVecs l]: a pointer to a fresh array of [WasiIovec]s, [None] being the null pointer.
    Pointers to local variables of the code (nwritten, time ..) are not listed: what the host
    stores there is [r_out] of its reply. *)
Inductive harg := HInt (z : Z) | HBuf (o : Z) | HText (bs : list Z) | HVecs (l : list (option Z * Z)).

(** [r_out]: the values of the out-parameters on the stack; [r_ptrs], [r_buf]: what environ_get
    puts into the two private arrays (pointers as offsets into the second); [r_mem]: guest memory
    after the host wrote through the pointers it was given. *)
Record reply := { r_errno : Z; r_out : list Z; r_ptrs : list (option Z); r_buf : list Z; r_mem : list Z }.

Inductive wout := WRet (v : val) (m : list Z) | WErr (e : werr) | WPanic | WUB | WGone.
Inductive wprog := WEnd (o : wout) | WCall (f : wfun) (args : list harg) (k : reply -> wprog).

Definition u32 (z : Z) : Z := cast_u 32 z.
Definition u64 (z : Z) : Z := cast_u 64 z.
(** [Ok(wasi_errno as i32)], then [Val::Num(Num::I32(result))] *)
Definition ret (e : Z) (m : list Z) : wprog := WEnd (WRet (VI32 (cast_s 32 e)) m).
Definition ret_errno (r : reply) : wprog := ret (r_errno r) (r_mem r).

Definition out (r : reply) (i : nat) : Z := nth i (r_out r) 0.
(** mem.rs 66-71, 126-138: unchecked *)
Definition wstore (m : list Z) (p : Z) (bs : list Z) (k : list Z -> wprog) : wprog :=
  match raw_write m p bs with Ok m => k m | _ => WEnd WUB end.

(** passthrough.rs 195-205: [data[i]] on a Vec is checked *)
Definition idx (m : list Z) (i : Z) : option Z := nth_error m (Z.to_nat (usize i)).
Definition u32_at (m : list Z) (o : Z) : option Z :=
  match idx m o, idx m (o + 1), idx m (o + 2), idx m (o + 3) with
  | Some a, Some b, Some c, Some d => Some (le_decode [a; b; c; d])
  | _, _, _, _ => None
  end.
Inductive iout := IOk (l : list (option Z * Z)) | IFault | IPanic.
(** passthrough.rs 190-231 (fd_write, [checked]), 262-291 (fd_read), 685-713, 782-810 (pread, pwrite);
    release build: [+] wraps *)
Fixpoint iovecs (checked : bool) (m : list Z) (p : Z) (i : Z) (n : nat) : iout :=
  match n with
  | O => IOk []
  | S n =>
      let o := usize (p + usize (i * 8)) in
      if checked && (mlen m <? usize (o + 8)) then IFault else
      match u32_at m o, u32_at m (o + 4) with
      | Some b, Some l =>
          if l =? 0 then
            match iovecs checked m p (i + 1) n with IOk r => IOk ((None, 0) :: r) | e => e end
          else if checked && (mlen m <? usize (b + l)) then IFault
          else match iovecs checked m p (i + 1) n with IOk r => IOk ((Some b, l) :: r) | e => e end
      | _, _ => IPanic
      end
  end.
(** [Vec::with_capacity(iovs_len)] of 8-byte elements *)
Definition iovs (checked : bool) (m : list Z) (p n : Z) : iout :=
  if isize_max <? 8 * n then IPanic else iovecs checked m p 0 (Z.to_nat n).
Definition with_iovs (checked : bool) (m : list Z) (p n : Z) (k : list (option Z * Z) -> wprog) : wprog :=
  match iovs checked m p n with IOk l => k l | IFault => WEnd (WErr EFault) | IPanic => WEnd WPanic end.

(** [slice::from_raw_parts(base.add(p), n).to_vec()], [push(0)] *)
Definition with_path (m : list Z) (p n : Z) (k : list Z -> wprog) : wprog :=
  match raw_read m p n with Ok bs => k (bs ++ [0]) | _ => WEnd WUB end.

(** passthrough.rs 178-250 *)
Definition fd_write (m : list Z) (fd p n q : Z) : wprog :=
  with_iovs true m p n (fun l =>
    WCall FdWrite [HInt (u32 fd); HVecs l; HInt n] (fun r =>
      if r_errno r =? 0 then wstore (r_mem r) q (le_encode 4 (out r 0)) (ret (r_errno r)) else ret_errno r)).
(** 252-305 *)
Definition fd_read (m : list Z) (fd p n q : Z) : wprog :=
  with_iovs false m p n (fun l =>
    WCall FdRead [HInt (u32 fd); HVecs l; HInt n] (fun r =>
      if r_errno r =? 0 then wstore (r_mem r) q (le_encode 4 (out r 0)) (ret (r_errno r)) else ret_errno r)).
(** 672-735, 769-832 *)
Definition fd_p (f : wfun) (m : list Z) (fd p n o q : Z) : wprog :=
  with_iovs false m p n (fun l =>
    WCall f [HInt (u32 fd); HVecs l; HInt n; HInt o] (fun r =>
      if negb (r_errno r =? 0) then ret_errno r else wstore (r_mem r) q (le_encode 4 (out r 0)) (ret 0))).
(** 315-328 *)
Definition random_get (m : list Z) (p n : Z) : wprog :=
  if n =? 0 then ret 0 m else WCall RandomGet [HBuf p; HInt n] ret_errno.
(** 338-385.  [offset_from] of a pointer the host put outside the buffer is out of scope: [r_ptrs]
    are offsets.  The private arrays start as zeros; running out of host memory for them is not
    modelled. *)
Definition environ_ptrs (base : Z) (count : nat) (ps : list (option Z)) : list Z :=
  concat (map (fun i => le_encode 4 (match nth i ps None with Some o => usize (base + u32 o) | None => 0 end)) (seq 0 count)) ++ le_encode 4 0.
Definition environ_get (m : list Z) (p b : Z) : wprog :=
  WCall EnvironSizesGet [] (fun r =>
    if negb (r_errno r =? 0) then ret_errno r else
    let count := Z.to_nat (out r 0) in
    let size := Z.to_nat (out r 1) in
    WCall EnvironGet [] (fun r =>
      if negb (r_errno r =? 0) then ret_errno r else
      wstore (r_mem r) p (environ_ptrs b count (r_ptrs r)) (fun m => wstore m b (firstn size (r_buf r ++ repeat 0 size)) (ret 0)))).
(** 387-408 *)
Definition environ_sizes_get (p q : Z) : wprog :=
  WCall EnvironSizesGet [] (fun r =>
    if negb (r_errno r =? 0) then ret_errno r else
    wstore (r_mem r) p (le_encode 4 (out r 0)) (fun m => wstore m q (le_encode 4 (out r 1)) (ret 0))).
(** 410-437: the loop over the arguments; [off] is [argv_buf.len()] *)
Fixpoint args_ptrs (base off : Z) (args : list (list Z)) : list Z :=
  match args with
  | [] => le_encode 4 0
  | a :: args => le_encode 4 (usize (base + u32 off)) ++ args_ptrs base (off + mlen a + 1) args
  end.
Definition args_buf (args : list (list Z)) : list Z := concat (map (fun a => a ++ [0]) args).
Definition args_get (argv : list (list Z)) (m : list Z) (p b : Z) : wprog :=
  wstore m p (args_ptrs b 0 argv) (fun m => wstore m b (args_buf argv) (ret 0)).
(** 439-461 *)
Definition args_sizes_get (argv : list (list Z)) (m : list Z) (p q : Z) : wprog :=
  wstore m p (le_encode 4 (u32 (Z.of_nat (length argv)))) (fun m =>
    wstore m q (le_encode 4 (u32 (usize (fold_right (fun a s => mlen a + 1 + s) 0 argv)))) (ret 0)).
(** 463-500 *)
Definition clock (f : wfun) (args : list harg) (p : Z) : wprog :=
  WCall f args (fun r =>
    if negb (r_errno r =? 0) then ret_errno r else wstore (r_mem r) p (le_encode 8 (out r 0)) (ret (r_errno r))).

(** runtime.rs 427-1035: number and types of the parameters that each arm takes apart; the length
    check and every [to_i32]/[to_i64] fail with the same error *)
Inductive nt := N32 | N64.
Definition getters (f : wfun) : list nt :=
  match f with
  | ProcExit => [N32] | FdWrite | FdRead => [N32; N32; N32; N32]
  | RandomGet | EnvironGet | EnvironSizesGet | ArgsGet | ArgsSizesGet | ClockResGet | FdPrestatGet
  | FdFdstatGet | FdTell | FdFilestatGet | FdFdstatSetFlags | SockShutdown | FdRenumber => [N32; N32]
  | FdClose | FdSync | FdDatasync => [N32]
  | ClockTimeGet => [N32; N64; N32]
  | FdPrestatDirName | PathCreateDirectory | PathRemoveDirectory | PathUnlinkFile | SockAccept => [N32; N32; N32]
  | SchedYield => []
  | PathOpen => [N32; N32; N32; N32; N32; N64; N64; N32; N32]
  | FdSeek => [N32; N64; N32; N32]
  | FdReaddir | FdPread | FdPwrite => [N32; N32; N32; N64; N32]
  | FdFilestatSetSize => [N32; N64]
  | PathFilestatGet => [N32; N32; N32; N32; N32]
  | PathFilestatSetTimes => [N32; N32; N32; N32; N64; N64; N32]
  | PathReadlink | PathRename | SockRecv => [N32; N32; N32; N32; N32; N32]
  | PollOneoff => [N32; N32; N32; N32]
  | FdFilestatSetTimes => [N32; N64; N64; N32]
  | PathLink => [N32; N32; N32; N32; N32; N32; N32]
  | PathSymlink | SockSend => [N32; N32; N32; N32; N32]
  | FdFdstatSetRights | FdAllocate => [N32; N64; N64]
  | FdAdvise => [N32; N64; N64; N32]
  | ProcRaise => []
  end.
Fixpoint params (ts : list nt) (vs : list val) : option (list Z) :=
  match ts, vs with
  | [], [] => Some []
  | N32 :: ts, VI32 z :: vs | N64 :: ts, VI64 z :: vs => option_map (cons z) (params ts vs)
  | _, _ => None
  end.

(** runtime.rs 427-1035 with the methods of passthrough.rs 240-1265; [argv]: the command line *)
Definition perform (argv : list (list Z)) (m : list Z) (f : wfun) (zs : list Z) : wprog :=
  match f, zs with
  | FdWrite, [fd; p; n; q] => fd_write m fd (u32 p) (u32 n) (u32 q)
  | FdRead, [fd; p; n; q] => fd_read m fd (u32 p) (u32 n) (u32 q)
  | ProcExit, [c] => WCall ProcExit [HInt (u32 c)] (fun _ => WEnd WGone)
  | RandomGet, [p; n] => random_get m (u32 p) (u32 n)
  | FdClose, [fd] => WCall FdClose [HInt (u32 fd)] ret_errno
  | EnvironGet, [p; b] => environ_get m (u32 p) (u32 b)
  | EnvironSizesGet, [p; q] => environ_sizes_get (u32 p) (u32 q)
  | ArgsGet, [p; b] => args_get argv m (u32 p) (u32 b)
  | ArgsSizesGet, [p; q] => args_sizes_get argv m (u32 p) (u32 q)
  | ClockTimeGet, [c; pr; p] => clock ClockTimeGet [HInt (u32 c); HInt (u64 pr)] (u32 p)
  | ClockResGet, [c; p] => clock ClockResGet [HInt (u32 c)] (u32 p)
  | FdPrestatGet, [fd; p] => WCall FdPrestatGet [HInt (u32 fd); HBuf (u32 p)] ret_errno
  | FdPrestatDirName, [fd; p; n] => WCall FdPrestatDirName [HInt (u32 fd); HBuf (u32 p); HInt (u32 n)] ret_errno
  | SchedYield, [] => WCall SchedYield [] ret_errno
  | FdFdstatGet, [fd; p] => WCall FdFdstatGet [HInt (u32 fd); HBuf (u32 p)] ret_errno
  | PathOpen, [fd; df; p; n; fl; rb; ri; ff; q] =>
      with_path m (u32 p) (u32 n) (fun s =>
        WCall PathOpen [HInt (u32 fd); HInt (u32 df); HText s; HInt (cast_u 16 (u32 fl)); HInt (u64 rb); HInt (u64 ri);
                        HInt (cast_u 16 (u32 ff)); HBuf (u32 q)] ret_errno)
  | FdSeek, [fd; o; w; q] => WCall FdSeek [HInt (u32 fd); HInt o; HInt (u32 w); HBuf (u32 q)] ret_errno
  | FdTell, [fd; q] => WCall FdTell [HInt (u32 fd); HBuf (u32 q)] ret_errno
  | FdSync, [fd] => WCall FdSync [HInt (u32 fd)] ret_errno
  | FdFilestatGet, [fd; q] => WCall FdFilestatGet [HInt (u32 fd); HBuf (u32 q)] ret_errno
  | FdReaddir, [fd; p; n; c; q] => WCall FdReaddir [HInt (u32 fd); HBuf (u32 p); HInt (u32 n); HInt (u64 c); HBuf (u32 q)] ret_errno
  | FdPread, [fd; p; n; o; q] => fd_p FdPread m fd (u32 p) (u32 n) (u64 o) (u32 q)
  | FdDatasync, [fd] => WCall FdDatasync [HInt (u32 fd)] ret_errno
  | FdFdstatSetFlags, [fd; fl] => WCall FdFdstatSetFlags [HInt (u32 fd); HInt (u32 fl)] ret_errno
  | FdFilestatSetSize, [fd; n] => WCall FdFilestatSetSize [HInt (u32 fd); HInt (u64 n)] ret_errno
  | FdPwrite, [fd; p; n; o; q] => fd_p FdPwrite m fd (u32 p) (u32 n) (u64 o) (u32 q)
  | PathCreateDirectory, [fd; p; n] => with_path m (u32 p) (u32 n) (fun s => WCall PathCreateDirectory [HInt (u32 fd); HText s] ret_errno)
  | PathFilestatGet, [fd; fl; p; n; q] =>
      with_path m (u32 p) (u32 n) (fun s => WCall PathFilestatGet [HInt (u32 fd); HInt (u32 fl); HText s; HBuf (u32 q)] ret_errno)
  | PathFilestatSetTimes, [fd; fl; p; n; a; t; w] =>
      with_path m (u32 p) (u32 n) (fun s =>
        WCall PathFilestatSetTimes [HInt (u32 fd); HInt (u32 fl); HText s; HInt (u64 a); HInt (u64 t); HInt (u32 w)] ret_errno)
  | PathReadlink, [fd; p; n; b; l; q] =>
      with_path m (u32 p) (u32 n) (fun s =>
        WCall PathReadlink [HInt (u32 fd); HText s; HBuf (u32 b); HInt (u32 l); HBuf (u32 q)] ret_errno)
  | PathRemoveDirectory, [fd; p; n] => with_path m (u32 p) (u32 n) (fun s => WCall PathRemoveDirectory [HInt (u32 fd); HText s] ret_errno)
  | PathUnlinkFile, [fd; p; n] => with_path m (u32 p) (u32 n) (fun s => WCall PathUnlinkFile [HInt (u32 fd); HText s] ret_errno)
  | PollOneoff, [i; o; n; q] => WCall PollOneoff [HBuf (u32 i); HBuf (u32 o); HInt (u32 n); HBuf (u32 q)] ret_errno
  | FdAdvise, [fd; o; n; a] => WCall FdAdvise [HInt (u32 fd); HInt (u64 o); HInt (u64 n); HInt (cast_u 8 (u32 a))] ret_errno
  | FdAllocate, [fd; o; n] => WCall FdAllocate [HInt (cast_s 32 (u32 fd)); HInt (u64 o); HInt (u64 n)] ret_errno
  | FdFdstatSetRights, [fd; b; i] => WCall FdFdstatSetRights [HInt (u32 fd); HInt (u64 b); HInt (u64 i)] ret_errno
  | FdRenumber, [fd; t] => WCall FdRenumber [HInt (cast_s 32 (u32 fd)); HInt (cast_s 32 (u32 t))] ret_errno
  | FdFilestatSetTimes, [fd; a; t; w] => WCall FdFilestatSetTimes [HInt (u32 fd); HInt (u64 a); HInt (u64 t); HInt (u32 w)] ret_errno
  | PathLink, [fd; fl; p; n; fd'; p'; n'] =>
      with_path m (u32 p) (u32 n) (fun s => with_path m (u32 p') (u32 n') (fun s' =>
        WCall PathLink [HInt (u32 fd); HInt (u32 fl); HText s; HInt (u32 fd'); HText s'] ret_errno))
  | PathRename, [fd; p; n; fd'; p'; n'] =>
      with_path m (u32 p) (u32 n) (fun s => with_path m (u32 p') (u32 n') (fun s' =>
        WCall PathRename [HInt (u32 fd); HText s; HInt (u32 fd'); HText s'] ret_errno))
  | PathSymlink, [p; n; fd; p'; n'] =>
      with_path m (u32 p) (u32 n) (fun s => with_path m (u32 p') (u32 n') (fun s' =>
        WCall PathSymlink [HText s; HInt (u32 fd); HText s'] ret_errno))
  | SockAccept, [fd; fl; q] => WCall SockAccept [HInt (u32 fd); HInt (u32 fl); HBuf (u32 q)] ret_errno
  | SockRecv, [fd; p; n; fl; q; q'] =>
      WCall SockRecv [HInt (u32 fd); HBuf (u32 p); HInt (u32 n); HInt (u32 fl); HBuf (u32 q); HBuf (u32 q')] ret_errno
  | SockSend, [fd; p; n; fl; q] =>
      WCall SockSend [HInt (u32 fd); HBuf (u32 p); HInt (u32 n); HInt (u32 fl); HBuf (u32 q)] ret_errno
  | SockShutdown, [fd; h] => WCall SockShutdown [HInt (u32 fd); HInt (u32 h)] ret_errno
  | _, _ => WEnd (WErr ENoSys)
  end.

(** runtime.rs 433-446: no memory, no call.  [wasi_impl] is present whenever a WASI function was
    imported (module.rs 71-80).  ProcRaise has no arm (1033). *)
Definition call_wasi (argv : list (list Z)) (mem : option (list Z)) (f : wfun) (vs : list val) : wprog :=
  match mem with
  | None => WEnd (WErr EFault)
  | Some m =>
      match f with
      | ProcRaise => WEnd (WErr ENoSys)
      | _ => match params (getters f) vs with Some zs => perform argv m f zs | None => WEnd (WErr EInval) end
      end
  end.

From Coq Require Import String.
(** parser.rs 653-706 *)
Definition wasi_map : list (String.string * wfun) :=
  ([("proc_exit", ProcExit); ("fd_write", FdWrite); ("fd_read", FdRead); ("random_get", RandomGet);
   ("fd_prestat_get", FdPrestatGet); ("fd_prestat_dir_name", FdPrestatDirName); ("fd_close", FdClose);
   ("environ_get", EnvironGet); ("environ_sizes_get", EnvironSizesGet); ("args_get", ArgsGet);
   ("args_sizes_get", ArgsSizesGet); ("clock_time_get", ClockTimeGet); ("clock_res_get", ClockResGet);
   ("sched_yield", SchedYield); ("fd_fdstat_get", FdFdstatGet); ("path_open", PathOpen);
   ("fd_seek", FdSeek); ("fd_tell", FdTell); ("fd_sync", FdSync); ("fd_filestat_get", FdFilestatGet);
   ("fd_readdir", FdReaddir); ("fd_pread", FdPread); ("fd_datasync", FdDatasync);
   ("fd_fdstat_set_flags", FdFdstatSetFlags); ("fd_filestat_set_size", FdFilestatSetSize);
   ("fd_pwrite", FdPwrite); ("path_create_directory", PathCreateDirectory);
   ("path_filestat_get", PathFilestatGet); ("path_filestat_set_times", PathFilestatSetTimes);
   ("path_readlink", PathReadlink); ("path_remove_directory", PathRemoveDirectory);
   ("path_unlink_file", PathUnlinkFile); ("poll_oneoff", PollOneoff); ("proc_raise", ProcRaise);
   ("fd_advise", FdAdvise); ("fd_allocate", FdAllocate); ("fd_fdstat_set_rights", FdFdstatSetRights);
   ("fd_renumber", FdRenumber); ("fd_filestat_set_times", FdFilestatSetTimes); ("path_link", PathLink);
   ("path_rename", PathRename); ("path_symlink", PathSymlink); ("sock_accept", SockAccept);
   ("sock_recv", SockRecv); ("sock_send", SockSend); ("sock_shutdown", SockShutdown)])%string.
(** parser.rs 926-928 *)
Fixpoint parse_wasi (map : list (String.string * wfun)) (s : String.string) : option wfun :=
  match map with [] => None | (t, f) :: map => if String.eqb t s then Some f else parse_wasi map s end.
