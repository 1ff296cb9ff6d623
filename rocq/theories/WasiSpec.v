(** What WASI preview 1 asks of the host interface: names and signatures of the functions
    (wasi_snapshot_preview1.witx), the meaning of vectors of buffers, of argument lists and of the
    environment.  From Wasi only the names of the functions and the shape of host arguments. *)
From Coq Require Import ZArith List Bool.
From Verif Require Import Word Value Mem WasmMem Wasi.
Import ListNotations.
Open Scope Z_scope.

(** ** signatures *)
(** [KInt b]: a number of [b] bits; [KPtr]: the address of guest memory the host reads or writes;
    [KPath]: address and length of a text; [KVecs]: address and number of iovecs; [KOut n]: the
    address of a result of [n] bytes. *)
Inductive kind := KInt (b : Z) | KPtr | KPath | KVecs | KOut (n : Z).
Definition fd := KInt 32.
Definition signature (f : wfun) : list kind :=
  match f with
  | ArgsGet => [KPtr; KPtr]
  | ArgsSizesGet => [KOut 4; KOut 4]
  | EnvironGet => [KPtr; KPtr]
  | EnvironSizesGet => [KOut 4; KOut 4]
  | ClockResGet => [KInt 32; KOut 8]
  | ClockTimeGet => [KInt 32; KInt 64; KOut 8]
  | FdAdvise => [fd; KInt 64; KInt 64; KInt 8]
  | FdAllocate => [fd; KInt 64; KInt 64]
  | FdClose => [fd]
  | FdDatasync => [fd]
  | FdFdstatGet => [fd; KPtr]
  | FdFdstatSetFlags => [fd; KInt 16]
  | FdFdstatSetRights => [fd; KInt 64; KInt 64]
  | FdFilestatGet => [fd; KPtr]
  | FdFilestatSetSize => [fd; KInt 64]
  | FdFilestatSetTimes => [fd; KInt 64; KInt 64; KInt 16]
  | FdPread => [fd; KVecs; KInt 64; KOut 4]
  | FdPrestatGet => [fd; KPtr]
  | FdPrestatDirName => [fd; KPtr; KInt 32]
  | FdPwrite => [fd; KVecs; KInt 64; KOut 4]
  | FdRead => [fd; KVecs; KOut 4]
  | FdReaddir => [fd; KPtr; KInt 32; KInt 64; KPtr]
  | FdRenumber => [fd; fd]
  | FdSeek => [fd; KInt 64; KInt 8; KPtr]
  | FdSync => [fd]
  | FdTell => [fd; KPtr]
  | FdWrite => [fd; KVecs; KOut 4]
  | PathCreateDirectory => [fd; KPath]
  | PathFilestatGet => [fd; KInt 32; KPath; KPtr]
  | PathFilestatSetTimes => [fd; KInt 32; KPath; KInt 64; KInt 64; KInt 16]
  | PathLink => [fd; KInt 32; KPath; fd; KPath]
  | PathOpen => [fd; KInt 32; KPath; KInt 16; KInt 64; KInt 64; KInt 16; KPtr]
  | PathReadlink => [fd; KPath; KPtr; KInt 32; KPtr]
  | PathRemoveDirectory => [fd; KPath]
  | PathRename => [fd; KPath; fd; KPath]
  | PathSymlink => [KPath; fd; KPath]
  | PathUnlinkFile => [fd; KPath]
  | PollOneoff => [KPtr; KPtr; KInt 32; KPtr]
  | ProcExit => [KInt 32]
  | ProcRaise => [KInt 8]
  | RandomGet => [KPtr; KInt 32]
  | SchedYield => []
  | SockAccept => [fd; KInt 16; KPtr]
  | SockRecv => [fd; KVecs; KInt 16; KPtr; KPtr]
  | SockSend => [fd; KVecs; KInt 16; KPtr]
  | SockShutdown => [fd; KInt 8]
  end.

(** WebAssembly arguments of such a signature: 64-bit numbers are i64, all else is i32 *)
Inductive arguments : list kind -> list val -> Prop :=
| a_nil : arguments [] []
| a_int b z ks vs : b < 64 -> in_s 32 z -> arguments ks vs -> arguments (KInt b :: ks) (VI32 z :: vs)
| a_long z ks vs : in_s 64 z -> arguments ks vs -> arguments (KInt 64 :: ks) (VI64 z :: vs)
| a_ptr z ks vs : in_s 32 z -> arguments ks vs -> arguments (KPtr :: ks) (VI32 z :: vs)
| a_path p n ks vs : in_s 32 p -> in_s 32 n -> arguments ks vs -> arguments (KPath :: ks) (VI32 p :: VI32 n :: vs)
| a_vecs p n ks vs : in_s 32 p -> in_s 32 n -> arguments ks vs -> arguments (KVecs :: ks) (VI32 p :: VI32 n :: vs)
| a_out k z ks vs : in_s 32 z -> arguments ks vs -> arguments (KOut k :: ks) (VI32 z :: vs).

(** ** guest memory *)
Definition addr (z : Z) : Z := z mod 2 ^ 32.
Definition u32le (m : list Z) (a : Z) : Z := le_sum 4 m a.
Definition range (a n : Z) : list Z := map (fun k => a + Z.of_nat k) (seq 0 (Z.to_nat n)).
Definition bytes_at (m : list Z) (a n : Z) : list Z := map (byte_at m) (range a n).

(** iovec [i] of the table at [p]: address and length of a buffer *)
Definition iovec (m : list Z) (p i : Z) : Z * Z := (u32le m (p + 8 * i), u32le m (p + 8 * i + 4)).
Definition table (m : list Z) (p n : Z) : list (Z * Z) := map (iovec m p) (range 0 n).
(** the addresses of all the bytes of the buffers, in order *)
Definition addresses (l : list (Z * Z)) : list Z := concat (map (fun b => range (fst b) (snd b)) l).
Definition table_in (m : list Z) (p n : Z) : Prop := forall i, 0 <= i < n -> p + 8 * i + 8 <= mlen m.
Definition buffers_in (m : list Z) (l : list (Z * Z)) : Prop := forall a n, In (a, n) l -> n <> 0 -> a + n <= mlen m.

(** what the host finds at a vector of buffers, and what it leaves there when it delivers [d]:
    the host follows the pointers it is given; outside guest memory anything can happen ([UB]) *)
Definition null_or (b : option Z * Z) : option (Z * Z) := match fst b with Some a => Some (a, snd b) | None => if snd b =? 0 then Some (0, 0) else None end.
Fixpoint gather (m : list Z) (l : list (option Z * Z)) : res (list Z) :=
  match l with
  | [] => Ok []
  | b :: l =>
      match null_or b with
      | None => UB
      | Some (a, n) => let* x := if n =? 0 then Ok [] else raw_read m a n in let* y := gather m l in Ok (x ++ y)
      end
  end.
Fixpoint scatter (m : list Z) (l : list (option Z * Z)) (d : list Z) : res (list Z) :=
  match l, d with
  | _, [] => Ok m
  | [], _ :: _ => UB
  | b :: l, _ =>
      match null_or b with
      | None => UB
      | Some (a, n) =>
          let x := firstn (Z.to_nat n) d in
          let* m := match x with [] => Ok m | _ => raw_write m a x end in
          scatter m l (skipn (Z.to_nat n) d)
      end
  end.
(** the memory with the bytes [d] put at the addresses [l], one after the other *)
Fixpoint put (m : list Z) (l d : list Z) : list Z :=
  match l, d with a :: l, b :: d => put (upd m (Z.to_nat a) b) l d | _, _ => m end.

(** ** what the host must be given for such arguments *)
Inductive presents (m : list Z) : list kind -> list val -> list harg -> Prop :=
| p_nil : presents m [] [] []
| p_int b z z' ks vs hs : z' mod 2 ^ b = z mod 2 ^ b -> (b < 32 -> 0 <= z < 2 ^ b -> z' = z) -> presents m ks vs hs -> presents m (KInt b :: ks) (VI32 z :: vs) (HInt z' :: hs)
| p_long z z' ks vs hs : z' mod 2 ^ 64 = z mod 2 ^ 64 -> presents m ks vs hs -> presents m (KInt 64 :: ks) (VI64 z :: vs) (HInt z' :: hs)
| p_ptr z ks vs hs : presents m ks vs hs -> presents m (KPtr :: ks) (VI32 z :: vs) (HBuf (addr z) :: hs)
| p_path p n ks vs hs : presents m ks vs hs ->
    presents m (KPath :: ks) (VI32 p :: VI32 n :: vs) (HText (bytes_at m (addr p) (addr n) ++ [0]) :: hs)
| p_vecs p n l ks vs hs : Forall2 (fun b h => snd h = snd b /\ (snd b <> 0 -> fst h = Some (fst b))) (table m (addr p) (addr n)) l ->
    presents m ks vs hs -> presents m (KVecs :: ks) (VI32 p :: VI32 n :: vs) (HVecs l :: HInt (addr n) :: hs)
| p_out k z ks vs hs : presents m ks vs hs -> presents m (KOut k :: ks) (VI32 z :: vs) hs.
(** the texts lie in memory; the tables too, with fewer than 2^28 entries *)
Inductive readable (m : list Z) : list kind -> list val -> Prop :=
| r_nil : readable m [] []
| r_path p n ks vs : addr p + addr n <= mlen m -> readable m ks vs -> readable m (KPath :: ks) (VI32 p :: VI32 n :: vs)
| r_vecs p n ks vs : addr n < 2 ^ 28 -> addr p + 8 * addr n <= mlen m -> buffers_in m (table m (addr p) (addr n)) -> readable m ks vs ->
    readable m (KVecs :: ks) (VI32 p :: VI32 n :: vs)
| r_other k v ks vs : k <> KPath -> k <> KVecs -> readable m ks vs -> readable m (k :: ks) (v :: vs).

(** the addresses and sizes of the results *)
Fixpoint outs (ks : list kind) (vs : list val) : list (Z * Z) :=
  match ks, vs with
  | KOut n :: ks, VI32 q :: vs => (addr q, n) :: outs ks vs
  | (KPath | KVecs) :: ks, _ :: _ :: vs => outs ks vs
  | _ :: ks, _ :: vs => outs ks vs
  | _, _ => []
  end.

(** a C function that is given the address of [bs] sees a string up to the first zero *)
Fixpoint c_string (bs : list Z) : list Z :=
  match bs with [] => [] | b :: bs => if b =? 0 then [] else b :: c_string bs end.

(** the texts the guest names, and the strings the host sees *)
Fixpoint paths (m : list Z) (ks : list kind) (vs : list val) : list (list Z) :=
  match ks, vs with
  | KPath :: ks, VI32 p :: VI32 n :: vs => bytes_at m (addr p) (addr n) :: paths m ks vs
  | KVecs :: ks, _ :: _ :: vs => paths m ks vs
  | _ :: ks, _ :: vs => paths m ks vs
  | _, _ => []
  end.
Fixpoint strings (hs : list harg) : list (list Z) :=
  match hs with [] => [] | HText s :: hs => c_string s :: strings hs | _ :: hs => strings hs end.

(** ** argument lists and environments *)
(** a zero-terminated copy of [s] at [a] *)
Definition string_at (m : list Z) (a : Z) (s : list Z) : Prop := bytes_at m a (mlen s) = s /\ byte_at m (a + mlen s) = 0.
Definition total (l : list (list Z)) : Z := fold_right (fun s n => mlen s + 1 + n) 0 l.

(** names, as in the standard *)
From Coq Require Import String.
Definition name (f : wfun) : String.string :=
  match f with
  | ProcExit => "proc_exit" | FdWrite => "fd_write" | FdRead => "fd_read" | RandomGet => "random_get"
  | FdPrestatGet => "fd_prestat_get" | FdPrestatDirName => "fd_prestat_dir_name" | FdClose => "fd_close"
  | EnvironGet => "environ_get" | EnvironSizesGet => "environ_sizes_get" | ArgsGet => "args_get"
  | ArgsSizesGet => "args_sizes_get" | ClockTimeGet => "clock_time_get" | ClockResGet => "clock_res_get"
  | SchedYield => "sched_yield" | FdFdstatGet => "fd_fdstat_get" | PathOpen => "path_open"
  | FdSeek => "fd_seek" | FdTell => "fd_tell" | FdSync => "fd_sync" | FdFilestatGet => "fd_filestat_get"
  | FdReaddir => "fd_readdir" | FdPread => "fd_pread" | FdDatasync => "fd_datasync"
  | FdFdstatSetFlags => "fd_fdstat_set_flags" | FdFilestatSetSize => "fd_filestat_set_size"
  | FdPwrite => "fd_pwrite" | PathCreateDirectory => "path_create_directory"
  | PathFilestatGet => "path_filestat_get" | PathFilestatSetTimes => "path_filestat_set_times"
  | PathReadlink => "path_readlink" | PathRemoveDirectory => "path_remove_directory"
  | PathUnlinkFile => "path_unlink_file" | PollOneoff => "poll_oneoff" | ProcRaise => "proc_raise"
  | FdAdvise => "fd_advise" | FdAllocate => "fd_allocate" | FdFdstatSetRights => "fd_fdstat_set_rights"
  | FdRenumber => "fd_renumber" | FdFilestatSetTimes => "fd_filestat_set_times" | PathLink => "path_link"
  | PathRename => "path_rename" | PathSymlink => "path_symlink" | SockAccept => "sock_accept"
  | SockRecv => "sock_recv" | SockSend => "sock_send" | SockShutdown => "sock_shutdown"
  end%string.
