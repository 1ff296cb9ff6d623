(** A WASI host as a guest sees it, and programs running directly on it.
    The host is any function of the history of calls, each with what its arguments mean and the memory
    of the caller; the argument list and the environment are fixed lists of strings. *)
From Coq Require Import ZArith List Bool.
From Verif Require Import Word Value Mem WasmMem Wasi WasiSpec Machine.
Import ListNotations.
Open Scope Z_scope.

(** what an argument means: a number, an address, a text, a vector of buffers (the address of an empty
    buffer means nothing) *)
Inductive sarg := SInt (z : Z) | SBuf (a : Z) | SPath (s : list Z) | SVecs (l : list (Z * Z)).
Definition scall := (wfun * list sarg * list Z)%type.
Definition system := list scall -> reply.
(** a host does not resize its caller's memory; error numbers have 16 bits *)
Definition polite (sys : system) : Prop := forall f a m past, bytes_ok m ->
  let r := sys ((f, a, m) :: past) in 0 <= r_errno r < 2 ^ 16 /\ length (r_mem r) = length m.

(** what a host writes to its caller's memory is bytes *)
Definition byte_replies (sys : system) : Prop := forall f a m past i y,
  nth_error (r_mem (sys ((f, a, m) :: past))) i = Some y -> is_byte y \/ nth_error m i = Some y.

Definition some_buffer (b : Z * Z) : Z * Z := if snd b =? 0 then (0, 0) else b.
(** the arguments of a WebAssembly call *)
Fixpoint named (m : list Z) (ks : list kind) (vs : list val) : list sarg :=
  match ks, vs with
  | KInt b :: ks, (VI32 z | VI64 z) :: vs => SInt (z mod 2 ^ b) :: named m ks vs
  | KPtr :: ks, VI32 z :: vs => SBuf (addr z) :: named m ks vs
  | KPath :: ks, VI32 p :: VI32 n :: vs => SPath (bytes_at m (addr p) (addr n)) :: named m ks vs
  | KVecs :: ks, VI32 p :: VI32 n :: vs => SVecs (map some_buffer (table m (addr p) (addr n))) :: named m ks vs
  | KOut _ :: ks, _ :: vs => named m ks vs
  | _, _ => []
  end.
(** the arguments of a call of the C interface: parameters of fewer bits than the number passed are
    truncated, texts end at their first zero byte *)
Fixpoint received (ks : list kind) (hs : list harg) : list sarg :=
  match ks, hs with
  | KInt b :: ks, HInt z :: hs => SInt (z mod 2 ^ b) :: received ks hs
  | KPtr :: ks, HBuf a :: hs => SBuf a :: received ks hs
  | KPath :: ks, HText s :: hs => SPath (c_string s) :: received ks hs
  | KVecs :: ks, HVecs l :: HInt n :: hs =>
      SVecs (map (fun b => some_buffer (match fst b with Some a => a | None => 0 end, snd b)) (firstn (Z.to_nat n) l)) :: received ks hs
  | KOut _ :: ks, _ => received ks hs
  | _, _ => []
  end.

(** the parts of the caller's memory a call reads and writes through its addresses
    (wasi_snapshot_preview1.witx: sizes of fdstat, filestat, prestat, subscription, event) *)
Definition spans (f : wfun) (args : list sarg) : list (Z * Z) :=
  match f, args with
  | FdFdstatGet, [_; SBuf p] => [(p, 24)]
  | FdFilestatGet, [_; SBuf p] => [(p, 64)]
  | FdPrestatGet, [_; SBuf p] => [(p, 8)]
  | FdPrestatDirName, [_; SBuf p; SInt n] => [(p, n)]
  | FdReaddir, [_; SBuf p; SInt n; _; SBuf q] => [(p, n); (q, 4)]
  | FdSeek, [_; _; _; SBuf q] => [(q, 8)]
  | FdTell, [_; SBuf q] => [(q, 8)]
  | PathFilestatGet, [_; _; _; SBuf q] => [(q, 64)]
  | PathOpen, [_; _; _; _; _; _; _; SBuf q] => [(q, 4)]
  | PathReadlink, [_; _; SBuf b; SInt n; SBuf q] => [(b, n); (q, 4)]
  | PollOneoff, [SBuf i; SBuf o; SInt n; SBuf q] => [(i, 48 * n); (o, 32 * n); (q, 4)]
  | RandomGet, [SBuf p; SInt n] => [(p, n)]
  | SockAccept, [_; _; SBuf q] => [(q, 4)]
  | _, _ => []
  end ++ flat_map (fun a => match a with SVecs l => l | _ => [] end) args.
Definition inside (m : list Z) (s : Z * Z) : Prop := fst s + snd s <= mlen m.

(** ** memory *)
(** [n] bytes of [z] at [a], little-endian; a list of strings: pointers, and the strings with a zero each *)
Definition le_bytes (n z : Z) : list Z := map (fun i => z / 256 ^ i mod 256) (range 0 n).
Definition poke (m : list Z) (a n z : Z) : list Z := put m (range a n) (le_bytes n z).
Fixpoint pointers (a : Z) (l : list (list Z)) : list Z :=
  match l with [] => [] | s :: l => le_bytes 4 a ++ pointers (a + mlen s + 1) l end.
Definition strings_z (l : list (list Z)) : list Z := flat_map (fun s => s ++ [0]) l.
Definition put_list (m : list Z) (p b : Z) (l : list (list Z)) : list Z :=
  put (put m (range p (4 * Z.of_nat (length l))) (pointers b l)) (range b (total l)) (strings_z l).
Fixpoint pokes (m : list Z) (os : list (Z * Z)) (zs : list Z) : list Z :=
  match os with [] => m | (a, n) :: os => pokes (poke m a n (hd 0 zs)) os (tl zs) end.

(** ** running directly on the host *)
(** the functions in the order of WasiSpec.name's standard *)
Definition fun_of (w : nat) : option wfun := nth_error (map snd wasi_map) w.
(** the bytes a host call that turned memory [m] into [m'] has written *)
Definition image (m m' : list Z) : list (nat * Z) :=
  map (fun t => (fst t, snd (snd t))) (filter (fun t => negb (fst (snd t) =? snd (snd t))) (combine (seq 0 (length m)) (combine m m'))).
Section Direct.
  Variables (sys : system) (argv env : list (list Z)).
  Definition strings_of (f : wfun) : option (list (list Z)) :=
    match f with ArgsGet | ArgsSizesGet => Some argv | EnvironGet | EnvironSizesGet => Some env | _ => None end.
  (** the calls that reach the system; lists of strings are answered from the lists *)
  Definition scalls (e : event) : list scall :=
    let '(w, vs, m) := e in
    match fun_of w, m with
    | Some f, Some m => match strings_of f with Some _ => [] | None => [(f, named m (signature f) vs, m)] end
    | _, _ => []
    end.
  Definition direct : hostfn := fun log =>
    match log with
    | (w, vs, Some m) :: _ =>
        match fun_of w, vs with
        | Some ProcExit, [VI32 c] => HoExit (addr c)
        | Some ((ArgsGet | EnvironGet) as f), [VI32 p; VI32 b] =>
            let l := match strings_of f with Some l => l | None => [] end in
            HoRet (Some (VI32 0)) (image m (put_list m (addr p) (addr b) l))
        | Some ((ArgsSizesGet | EnvironSizesGet) as f), [VI32 p; VI32 q] =>
            let l := match strings_of f with Some l => l | None => [] end in
            HoRet (Some (VI32 0)) (image m (poke (poke m (addr p) 4 (Z.of_nat (length l))) (addr q) 4 (total l)))
        | Some f, _ =>
            let r := sys (flat_map scalls log) in
            HoRet (Some (VI32 (r_errno r))) (image m (if r_errno r =? 0 then pokes (r_mem r) (outs (signature f) vs) (r_out r) else r_mem r))
        | None, _ => HoErr
        end
    | _ => HoErr
    end.

  (** a call a WASI host accepts: the types are those of the function, and all texts, tables, buffers and
      results lie in memory.  The rest is what this code base handles: no zero byte in a text, no empty
      request for random bytes, not sock_recv, sock_send or proc_raise, and a zero word after the pointers
      of the argument list. *)
  Definition zero_after (m : list Z) (p b : Z) (l : list (list Z)) : Prop :=
    let e := p + 4 * Z.of_nat (length l) in
    e + 4 <= mlen m /\ b + total l <= mlen m /\ (e + 4 <= b \/ b + total l <= p) /\ bytes_at m e 4 = [0; 0; 0; 0].
  Definition proper_call (f : wfun) (vs : list val) (m : list Z) : Prop :=
    bytes_ok m /\ mlen m <= isize_max /\ arguments (signature f) vs /\ Forall (inside m) (outs (signature f) vs) /\
    match f with
    | ArgsGet | EnvironGet => forall p b l, vs = [VI32 p; VI32 b] -> strings_of f = Some l -> zero_after m (addr p) (addr b) l
    | ArgsSizesGet | EnvironSizesGet => True
    | ProcRaise | SockRecv | SockSend => False
    | _ =>
        readable m (signature f) vs /\ Forall (inside m) (spans f (named m (signature f) vs)) /\
        Forall (fun s => ~ In 0 s) (paths m (signature f) vs) /\
        (f = RandomGet -> forall p n, vs = [VI32 p; VI32 n] -> addr n <> 0)
    end.
  Definition proper (e : event) : Prop :=
    let '(w, vs, m) := e in exists f mem, fun_of w = Some f /\ m = Some mem /\ proper_call f vs mem.
End Direct.
