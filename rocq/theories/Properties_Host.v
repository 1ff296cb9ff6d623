(** C34, C35, C47-C50: the host interface. *)
From Coq Require Import ZArith List Bool Lia ZifyBool ZifyNat.
From Verif Require Import Word Value WasmNum Mem WasmMem MemProofs Wasi WasiSpec WasiProofs.
Import ListNotations.
Open Scope Z_scope.

(** ** C35 *)
(** fd_write hands the host exactly the guest's buffers, or fails when one is outside memory -
    as long as no address computation passes 2^32 and there are fewer than 2^28 iovecs. *)
Theorem C35_gather_partial : forall argv m fd p n q,
  bytes_ok m -> mlen m <= isize_max ->
  addr p + 8 < 2 ^ 32 -> addr n < 2 ^ 28 ->
  (forall i, 0 <= i < addr n -> addr p + 8 * i + 8 <= mlen m -> fst (iovec m (addr p) i) + snd (iovec m (addr p) i) < 2 ^ 32) ->
  let l := table m (addr p) (addr n) in
  let call := call_wasi argv (Some m) FdWrite [VI32 fd; VI32 p; VI32 n; VI32 q] in
  (table_in m (addr p) (addr n) /\ buffers_in m l ->
     exists vecs k, call = WCall FdWrite [HInt (addr fd); HVecs vecs; HInt (addr n)] k /\
       gather m vecs = Ok (map (byte_at m) (addresses l)) /\
       forall r, r_mem r = m -> 0 <= r_errno r < 2 ^ 16 ->
         (r_errno r <> 0 -> k r = WEnd (WRet (VI32 (r_errno r)) m)) /\
         (r_errno r = 0 -> addr q + 4 <= mlen m -> exists m', k r = WEnd (WRet (VI32 0) m') /\ stored m m' (addr q) 4 (out r 0))) /\
  (~ (table_in m (addr p) (addr n) /\ buffers_in m l) -> call = WEnd (WErr EFault)).
Proof.
  intros argv m fd p n q B L P N W l call.
  assert (C : call = with_iovs true m (addr p) (addr n) (fun l => WCall FdWrite [HInt (addr fd); HVecs l; HInt (addr n)] (fun r =>
      if r_errno r =? 0 then wstore (r_mem r) (addr q) (le_encode 4 (out r 0)) (ret (r_errno r)) else ret_errno r))) by reflexivity.
  pose proof (addr_range p). pose proof (addr_range n). pose proof (addr_range q).
  unfold with_iovs, iovs in C. replace (isize_max <? 8 * addr n) with false in C by (unfold isize_max; lia).
  destruct (iovecs_checked m B L (Z.to_nat (addr n)) (addr p) 0) as [[E A]|[E A]]; try lia.
  { intros j J. apply W. lia. }
  - rewrite E in C. rewrite entries_table in C. rewrite Z2Nat.id in A by lia. rewrite Z.add_0_l in A. apply entries_in in A.
    split; [intros _|intros NA; contradiction]. eexists _, _. split; [exact C|]. split.
    + apply gather_view; [now apply table_pos|apply A].
    + intros r R Er. split.
      * intros NZ. replace (r_errno r =? 0) with false by lia. unfold ret_errno, ret. now rewrite R, cast_small by auto.
      * intros Z0 Q. rewrite Z0. cbn [Z.eqb]. unfold wstore. rewrite R, raw_write_ok by (rewrite ?mlen_encode; lia). eexists. split; [reflexivity|]. apply splice_stored; lia.
  - rewrite E in C. rewrite Z2Nat.id in A by lia. rewrite Z.add_0_l in A. rewrite entries_in in A. split; [intros X; contradiction|intros _; exact C].
Qed.
Definition mem35 : list Z := le_encode 4 16 ++ le_encode 4 3 ++ le_encode 4 18 ++ le_encode 4 2 ++ [1; 2; 3; 4; 5; 6; 7; 8].
Example C35_example : exists vecs k,
  call_wasi [] (Some mem35) FdWrite [VI32 1; VI32 0; VI32 2; VI32 20] = WCall FdWrite [HInt 1; HVecs vecs; HInt 2] k /\
  gather mem35 vecs = Ok [1; 2; 3; 3; 4].
Proof. eexists _, _. split; [reflexivity|]. reflexivity. Qed.
Lemma call_write m fd p n q l : iovs true m (addr p) (addr n) = IOk l ->
  call_wasi [] (Some m) FdWrite [VI32 fd; VI32 p; VI32 n; VI32 q] = WCall FdWrite [HInt (addr fd); HVecs l; HInt (addr n)] (fun r =>
      if r_errno r =? 0 then wstore (r_mem r) (addr q) (le_encode 4 (out r 0)) (ret (r_errno r)) else ret_errno r).
Proof. intros H. cbn [call_wasi params getters option_map perform]. unfold fd_write, with_iovs. change Wasi.u32 with addr. now rewrite H. Qed.
(** A buffer of 32 bytes at 2^32 - 16 passes the check, and the host reads outside guest memory. *)
Theorem C35_wrap_refuted : exists m p n fd q vecs k,
  bytes_ok m /\ mlen m <= isize_max /\ ~ buffers_in m (table m (addr p) (addr n)) /\
  call_wasi [] (Some m) FdWrite [VI32 fd; VI32 p; VI32 n; VI32 q] = WCall FdWrite [HInt (addr fd); HVecs vecs; HInt (addr n)] k /\ gather m vecs = UB.
Proof.
  exists (le_encode 4 (2^32 - 16) ++ le_encode 4 32 ++ repeat 0 24), 0, 1, 1, 0. eexists _, _. split; [|split; [|split; [|split]]].
  - repeat constructor; cbn; lia.
  - vm_compute. discriminate.
  - intros H. specialize (H 4294967280 32). assert (I : 4294967280 + 32 <= 32); [|lia]. apply H; [left; vm_compute; reflexivity|lia].
  - apply call_write. vm_compute. reflexivity.
  - vm_compute. reflexivity.
Qed.
(** A table at the very end of the address space makes the interpreter panic instead. *)
Theorem C35_table_refuted : exists m p n fd q,
  bytes_ok m /\ mlen m <= isize_max /\ ~ table_in m (addr p) (addr n) /\
  call_wasi [] (Some m) FdWrite [VI32 fd; VI32 p; VI32 n; VI32 q] = WEnd WPanic.
Proof.
  exists (repeat 0 32), (-8), 1, 1, 0. split; [|split; [|split]].
  - repeat constructor; cbn; lia.
  - vm_compute. discriminate.
  - intros H. specialize (H 0 ltac:(vm_compute; split; congruence)). vm_compute in H. contradiction.
  - cbn [call_wasi params getters option_map perform]. unfold fd_write, with_iovs, iovs. change (isize_max <? 8 * Wasi.u32 1) with false. cbv iota.
    change (Z.to_nat (Wasi.u32 1)) with 1%nat. cbn [iovecs]. set (o := usize (Wasi.u32 (-8) + usize (0 * 8))).
    assert (O : o = 4294967288) by (vm_compute; reflexivity). rewrite O. change (usize (4294967288 + 8)) with 0. cbn [andb mlen repeat length Z.of_nat Z.ltb Z.compare].
    unfold u32_at at 1. unfold idx at 1. change (usize 4294967288) with 4294967288.
    assert (NN : nth_error [0;0;0;0;0;0;0;0;0;0;0;0;0;0;0;0;0;0;0;0;0;0;0;0;0;0;0;0;0;0;0;0] (Z.to_nat 4294967288) = None).
    { apply nth_error_None. cbn [length]. lia. }
    rewrite NN. reflexivity.
Qed.

(** ** C48: scattered reads, and positioned reads and writes *)
Definition vec_call (f : wfun) (fd p n o q : Z) : list val :=
  match f with FdPread | FdPwrite => [VI32 fd; VI32 p; VI32 n; VI64 o; VI32 q] | _ => [VI32 fd; VI32 p; VI32 n; VI32 q] end.
Lemma call_vecs argv f m fd p n o q : In f [FdRead; FdPread; FdPwrite] -> mlen m <= isize_max ->
  addr n < 2 ^ 28 -> addr p + 8 * addr n <= mlen m ->
  exists rest k, call_wasi argv (Some m) f (vec_call f fd p n o q) = WCall f (HInt (addr fd) :: HVecs (map view (table m (addr p) (addr n))) :: HInt (addr n) :: rest) k /\
    (rest = match f with FdRead => [] | _ => [HInt (o mod 2 ^ 64)] end) /\
    forall r, 0 <= r_errno r < 2 ^ 16 ->
      (r_errno r <> 0 -> k r = WEnd (WRet (VI32 (r_errno r)) (r_mem r))) /\
      (r_errno r = 0 -> addr q + 4 <= mlen (r_mem r) -> exists m', k r = WEnd (WRet (VI32 0) m') /\ stored (r_mem r) m' (addr q) 4 (out r 0)).
Proof.
  intros F L N T. pose proof (addr_range p). pose proof (addr_range n). pose proof (addr_range q).
  assert (I : iovs false m (addr p) (addr n) = IOk (map view (table m (addr p) (addr n)))) by (apply iovs_false; lia).
  assert (ST : forall m z, addr q + 4 <= mlen m -> exists m', raw_write m (addr q) (le_encode 4 z) = Ok m' /\ stored m m' (addr q) 4 z).
  { intros m0 z Q. rewrite raw_write_ok by (rewrite ?mlen_encode; lia). eexists. split; [reflexivity|]. apply splice_stored; lia. }
  destruct F as [<-|[<-|[<-|[]]]]; cbn [vec_call call_wasi params getters option_map perform]; unfold fd_read, fd_p, with_iovs; change Wasi.u32 with addr; rewrite I;
    (eexists _, _; split; [reflexivity|]; split; [reflexivity|]; intros r Er; split; [intros NZ|intros Z0 Q]);
    first [ replace (r_errno r =? 0) with false by lia; cbn [negb]; unfold ret_errno, ret; now rewrite cast_small by auto
          | rewrite Z0; cbn [Z.eqb negb]; unfold wstore; destruct (ST _ (out r 0) Q) as (m' & -> & S); exists m'; split; [reflexivity|exact S] ].
Qed.
(** fd_read and fd_pread: the host is given the guest's own buffers, so what it delivers ends up there
    byte for byte and in order; the count is stored at the given address.  For tables and buffers
    inside memory only. *)
Theorem C48_scatter_partial : forall argv f m fd p n o q d r,
  In f [FdRead; FdPread] -> bytes_ok m -> mlen m <= isize_max -> addr n < 2 ^ 28 ->
  let l := table m (addr p) (addr n) in
  addr p + 8 * addr n <= mlen m -> buffers_in m l -> (length d <= length (addresses l))%nat ->
  exists vecs rest k, call_wasi argv (Some m) f (vec_call f fd p n o q) = WCall f (HInt (addr fd) :: HVecs vecs :: HInt (addr n) :: rest) k /\
    scatter m vecs d = Ok (put m (addresses l) d) /\
    (r_errno r = 0 -> r_mem r = put m (addresses l) d -> r_out r = [mlen d] -> addr q + 4 <= mlen m ->
       exists m', k r = WEnd (WRet (VI32 0) m') /\ stored (put m (addresses l) d) m' (addr q) 4 (mlen d)).
Proof.
  intros argv f m fd p n o q d r F B L N l T BI D.
  destruct (call_vecs argv f m fd p n o q) as (rest & k & C & _ & K); auto. { destruct F as [<-|[<-|[]]]; cbn; auto. }
  exists (map view l), rest, k. split; [exact C|]. split; [apply scatter_view; auto; now apply table_pos|].
  intros E M O Q. destruct (K r ltac:(lia)) as [_ K2]. destruct K2 as (m' & A & S); auto.
  { rewrite M. unfold mlen in *. now rewrite put_length. }
  exists m'. split; [exact A|]. rewrite M in S. unfold out in S. now rewrite O in S.
Qed.
Theorem C48_pwrite_partial : forall argv m fd p n o q,
  bytes_ok m -> mlen m <= isize_max -> addr n < 2 ^ 28 ->
  let l := table m (addr p) (addr n) in
  addr p + 8 * addr n <= mlen m -> buffers_in m l ->
  exists vecs k, call_wasi argv (Some m) FdPwrite (vec_call FdPwrite fd p n o q) = WCall FdPwrite [HInt (addr fd); HVecs vecs; HInt (addr n); HInt (o mod 2 ^ 64)] k /\
    gather m vecs = Ok (map (byte_at m) (addresses l)).
Proof.
  intros argv m fd p n o q B L N l T BI.
  destruct (call_vecs argv FdPwrite m fd p n o q) as (rest & k & C & -> & K); auto. { cbn; auto. }
  exists (map view l), k. split; [exact C|]. apply gather_view; auto. now apply table_pos.
Qed.
Example C48_example : let m := le_encode 4 16 ++ le_encode 4 3 ++ le_encode 4 20 ++ le_encode 4 2 ++ repeat 0 8 in
  put m (addresses (table m 0 2)) [1; 2; 3; 4] = le_encode 4 16 ++ le_encode 4 3 ++ le_encode 4 20 ++ le_encode 4 2 ++ [1; 2; 3; 0; 4; 0; 0; 0].
Proof. reflexivity. Qed.
(** A buffer outside memory is not refused: the host is asked to write there. *)
Theorem C48_bounds_refuted : exists m p n fd q vecs k,
  bytes_ok m /\ mlen m <= isize_max /\ ~ buffers_in m (table m (addr p) (addr n)) /\
  call_wasi [] (Some m) FdRead [VI32 fd; VI32 p; VI32 n; VI32 q] = WCall FdRead [HInt (addr fd); HVecs vecs; HInt (addr n)] k /\
  scatter m vecs [7] = UB.
Proof.
  set (m := le_encode 4 100 ++ le_encode 4 3 ++ repeat 0 8). exists m, 0, 1, 0, 0.
  destruct (call_vecs [] FdRead m 0 0 1 0 0) as (rest & k & C & -> & _); [cbn; auto|vm_compute; discriminate|vm_compute; reflexivity|vm_compute; discriminate|].
  exists (map view (table m (addr 0) (addr 1))), k. split; [|split; [|split; [|split]]].
  - unfold m. repeat constructor; cbn; lia.
  - vm_compute. discriminate.
  - intros H. specialize (H 100 3 ltac:(left; vm_compute; reflexivity) ltac:(lia)). vm_compute in H. contradiction.
  - exact C.
  - vm_compute. reflexivity.
Qed.

(** ** C50: every call is passed on with its own arguments *)
Definition passed_on (f : wfun) : Prop := ~ In f [ArgsGet; ArgsSizesGet; EnvironGet; EnvironSizesGet; ProcRaise; SockRecv; SockSend].
Lemma mod_mod b w z : 0 <= b <= w -> (z mod 2 ^ w) mod 2 ^ b = z mod 2 ^ b.
Proof.
  intros H. replace w with (b + (w - b)) by lia. rewrite Z.pow_add_r by lia. rewrite Z.rem_mul_r by (try apply Z.pow_pos_nonneg; try apply Z.pow_nonzero; lia).
  rewrite Z.mul_comm, Z.mod_add by (apply Z.pow_nonzero; lia). apply Z.mod_mod, Z.pow_nonzero; lia.
Qed.
Lemma cast_s_mod w z : 0 < w -> cast_s w z mod 2 ^ w = z mod 2 ^ w.
Proof.
  intros H. unfold cast_s. assert (2 ^ w <> 0) by (apply Z.pow_nonzero; lia). destruct (_ <? _); [apply Z.mod_mod; auto|].
  replace (z mod 2 ^ w - 2 ^ w) with (z mod 2 ^ w + (-1) * 2 ^ w) by lia. rewrite Z.mod_add by auto. now apply Z.mod_mod.
Qed.
Ltac args := repeat match goal with
  | H : arguments (_ :: _) _ |- _ => inversion H; subst; clear H; try lia
  | H : arguments [] _ |- _ => inversion H; subst; clear H
  | H : readable _ (KPath :: _) _ |- _ => inversion H; subst; clear H; try congruence
  | H : readable _ (KVecs :: _) _ |- _ => inversion H; subst; clear H; try congruence
  | H : readable _ (_ :: _) _ |- _ => inversion H; subst; clear H; try congruence
  end.
Ltac ints := unfold Wasi.u32, Wasi.u64, cast_u, addr; rewrite ?cast_s_mod by lia; rewrite ?mod_mod by lia; try reflexivity.
Ltac same := intros; try lia; unfold Wasi.u32, cast_u, addr; rewrite ?mod_mod by lia; apply Z.mod_small; cbn in *; lia.
Theorem C50_arguments_partial : forall argv m f vs,
  bytes_ok m -> mlen m <= isize_max -> passed_on f ->
  arguments (signature f) vs -> readable m (signature f) vs ->
  (f = RandomGet -> exists p n, vs = [VI32 p; VI32 n] /\ addr n <> 0) ->
  exists hs k, call_wasi argv (Some m) f vs = WCall f hs k /\ presents m (signature f) vs hs.
Proof.
  intros argv m f vs B L PO A R RG.
  assert (V : forall p n k, addr n < 2 ^ 28 -> addr p + 8 * addr n <= mlen m -> buffers_in m (table m (addr p) (addr n)) ->
    with_iovs false m (addr p) (addr n) k = k (map view (table m (addr p) (addr n))) /\
    with_iovs true m (addr p) (addr n) k = k (map view (table m (addr p) (addr n)))).
  { intros p n k N T BI. pose proof (addr_range p). pose proof (addr_range n). unfold with_iovs. split; [now rewrite iovs_false by lia|].
    unfold iovs. replace (isize_max <? 8 * addr n) with false by (unfold isize_max; lia).
    destruct (Z.eq_dec (addr n) 0) as [E|NE]; [now rewrite E|].
    destruct (iovecs_checked m B L (Z.to_nat (addr n)) (addr p) 0) as [[E _]|[E X]]; try lia.
    - unfold isize_max in L. lia.
    - intros j J J8. destruct (Z.eq_dec (snd (iovec m (addr p) j)) 0) as [Z0|NZ].
      + rewrite Z0. unfold iovec. cbn [fst]. pose proof (u32le_range m (addr p + 8 * j) B). lia.
      + assert (fst (iovec m (addr p) j) + snd (iovec m (addr p) j) <= mlen m); [|unfold isize_max in L; lia]. apply BI; auto. apply in_table. exists j. split; [lia|]. now destruct (iovec m (addr p) j).
    - rewrite E. now rewrite entries_table.
    - exfalso. apply X. rewrite Z2Nat.id by lia. rewrite Z.add_0_l. apply entries_in. split; auto. intros i I. lia. }
  assert (T : forall p n k, addr p + addr n <= mlen m -> with_path m (addr p) (addr n) k = k (bytes_at m (addr p) (addr n) ++ [0])).
  { intros p n k H. pose proof (addr_range p). pose proof (addr_range n). unfold with_path. now rewrite raw_read_ok by lia. }
  destruct f; try (exfalso; apply PO; cbn; tauto); unfold signature, fd in *; args;
    cbn [call_wasi getters params option_map perform]; unfold fd_write, fd_read, fd_p, clock, random_get; change Wasi.u32 with addr;
    repeat match goal with
    | |- context [with_path m (addr ?p) (addr ?n) ?k] => rewrite (T p n k) by assumption; cbv beta
    | |- context [with_iovs false m (addr ?p) (addr ?n) ?k] => rewrite (proj1 (V p n k ltac:(assumption) ltac:(assumption) ltac:(assumption))); cbv beta
    | |- context [with_iovs true m (addr ?p) (addr ?n) ?k] => rewrite (proj2 (V p n k ltac:(assumption) ltac:(assumption) ltac:(assumption))); cbv beta
    end;
    try (destruct (RG eq_refl) as (p0 & n0 & E0 & NZ); injection E0 as <- <-; replace (addr z0 =? 0) with false by lia);
    (eexists _, _; split; [reflexivity|]); repeat (constructor; try apply view_table; try solve [ints | same]).
Qed.
(** The guest gets the host's error number; a result is stored, little-endian, where the guest asked
    for it, and nothing else changes but what the host wrote itself. *)
Theorem C50_results : forall argv m f vs hs k r,
  passed_on f -> f <> ProcExit -> arguments (signature f) vs -> call_wasi argv (Some m) f vs = WCall f hs k -> 0 <= r_errno r < 2 ^ 16 ->
  match outs (signature f) vs with
  | [] => k r = WEnd (WRet (VI32 (r_errno r)) (r_mem r))
  | [(q, n)] =>
      (r_errno r <> 0 -> k r = WEnd (WRet (VI32 (r_errno r)) (r_mem r))) /\
      (r_errno r = 0 -> q + n <= mlen (r_mem r) -> exists m', k r = WEnd (WRet (VI32 0) m') /\ stored (r_mem r) m' q n (out r 0))
  | _ => False
  end.
Proof.
  intros argv m f vs hs k r PO NX A C E.
  assert (RE : ret_errno r = WEnd (WRet (VI32 (r_errno r)) (r_mem r))) by (unfold ret_errno, ret; now rewrite cast_small by auto).
  assert (ST : forall q n z (k : list Z -> wprog), q + Z.of_nat n <= mlen (r_mem r) -> 0 <= q ->
     exists m', wstore (r_mem r) q (le_encode n z) k = k m' /\ stored (r_mem r) m' q (Z.of_nat n) z).
  { intros q n z k0 Q Q0. unfold wstore. rewrite raw_write_ok by (rewrite ?mlen_encode; lia). eexists. split; [reflexivity|]. apply splice_stored; lia. }
  destruct f; try (exfalso; apply PO; cbn; tauto); try contradiction; unfold signature, fd in *; args;
    cbn [call_wasi getters params option_map perform] in C; unfold fd_write, fd_read, fd_p, clock, random_get, with_path, with_iovs, ret in C; change Wasi.u32 with addr in C;
    repeat match type of C with context [match ?x with _ => _ end] => destruct x; try discriminate end;
    injection C as <- <-; cbn [outs]; try exact RE;
    (split; [intros NZ; replace (r_errno r =? 0) with false by lia; exact RE
            |intros Z0 Q; rewrite Z0; cbn [Z.eqb negb]]);
    match goal with |- context [wstore _ ?q _ ?k] =>
      first [ destruct (ST q 4%nat (out r 0) k Q ltac:(apply addr_range)) as (m' & X & S); exists m'; split; [exact X|exact S]
            | destruct (ST q 8%nat (out r 0) k Q ltac:(apply addr_range)) as (m' & X & S); exists m'; split; [exact X|exact S] ] end.
Qed.
Theorem C50_exit : forall argv m c, exists k, call_wasi argv (Some m) ProcExit [VI32 c] = WCall ProcExit [HInt (addr c)] k /\ forall r, k r = WEnd WGone.
Proof. intros. eexists. split; [reflexivity|]. auto. Qed.
(** Imports are recognised by their standard names, and no others. *)
Theorem C50_names : forall s f, parse_wasi wasi_map s = Some f <-> s = name f.
Proof.
  intros s f. split.
  - unfold wasi_map. cbn [parse_wasi].
    repeat match goal with |- (if String.eqb ?a s then _ else _) = _ -> _ => destruct (String.eqb_spec a s) as [<-|_]; [intros E; injection E as <-; reflexivity|] end. discriminate.
  - intros ->. destruct f; reflexivity.
Qed.
Example C50_example : exists vs m hs k, passed_on PathLink /\ arguments (signature PathLink) vs /\ readable m (signature PathLink) vs /\
  call_wasi [] (Some m) PathLink vs = WCall PathLink hs k /\ hs = [HInt 3; HInt 1; HText [97; 98; 0]; HInt 4; HText [99; 0]].
Proof.
  exists [VI32 3; VI32 1; VI32 0; VI32 2; VI32 4; VI32 2; VI32 1], [97; 98; 99; 100]. eexists _, _. repeat split; try (vm_compute; reflexivity).
  - unfold passed_on. cbn. intuition discriminate.
  - repeat constructor; vm_compute; congruence.
  - unfold signature, fd. repeat first [apply r_nil | apply r_path; [vm_compute; discriminate|] | apply r_other; [discriminate|discriminate|]].
Qed.
(** proc_raise never reaches the host: its arm is missing. *)
Theorem C50_proc_raise_refuted : forall argv m vs, call_wasi argv m ProcRaise vs = WEnd (WErr (match m with None => EFault | Some _ => ENoSys end)).
Proof. intros argv [m|] vs; reflexivity. Qed.
(** A module without a memory cannot even exit. *)
Theorem C50_no_memory_refuted : forall argv f vs, call_wasi argv None f vs = WEnd (WErr EFault).
Proof. reflexivity. Qed.
(** sock_send and sock_recv pass the guest's table itself, whose entries are guest addresses. *)
Theorem C50_sock_refuted : forall argv m fd p n fl q,
  exists hs k, call_wasi argv (Some m) SockSend [VI32 fd; VI32 p; VI32 n; VI32 fl; VI32 q] = WCall SockSend hs k /\
    ~ presents m (signature SockSend) [VI32 fd; VI32 p; VI32 n; VI32 fl; VI32 q] hs.
Proof. intros. eexists _, _. split; [reflexivity|]. intros P. inversion P; subst. match goal with H : presents _ (KVecs :: _) _ _ |- _ => inversion H end. Qed.

(** ** C49: paths *)
Lemma c_string_app s : ~ In 0 s -> c_string (s ++ [0]) = s.
Proof.
  induction s as [|b s IH]; intros H; [reflexivity|]. cbn [app c_string]. destruct (Z.eqb_spec b 0) as [->|N]; [exfalso; apply H; now left|].
  f_equal. apply IH. intros I. apply H. now right.
Qed.
(** The host sees exactly the paths the guest named, unless one contains a zero byte. *)
Theorem C49_paths_partial : forall argv m f vs,
  bytes_ok m -> mlen m <= isize_max -> passed_on f -> arguments (signature f) vs -> readable m (signature f) vs ->
  (f = RandomGet -> exists p n, vs = [VI32 p; VI32 n] /\ addr n <> 0) ->
  Forall (fun s => ~ In 0 s) (paths m (signature f) vs) ->
  exists hs k, call_wasi argv (Some m) f vs = WCall f hs k /\ strings hs = paths m (signature f) vs.
Proof.
  intros argv m f vs B L PO A R RG F. destruct (C50_arguments_partial argv m f vs B L PO A R RG) as (hs & k & C & P). exists hs, k. split; [exact C|].
  clear C PO A R RG. induction P; cbn [paths strings] in *; auto. inversion F as [|? ? F1 F2]; subst. now rewrite c_string_app, IHP by auto.
Qed.
Theorem C49_nul_refuted : exists m vs hs k, arguments (signature PathUnlinkFile) vs /\ readable m (signature PathUnlinkFile) vs /\
  call_wasi [] (Some m) PathUnlinkFile vs = WCall PathUnlinkFile hs k /\
  paths m (signature PathUnlinkFile) vs = [[97; 0; 98]] /\ strings hs = [[97]].
Proof.
  exists [97; 0; 98; 0], [VI32 3; VI32 0; VI32 3]. eexists _, _. repeat split; try (vm_compute; reflexivity).
  - repeat constructor; vm_compute; congruence.
  - unfold signature, fd. repeat first [apply r_nil | apply r_path; [vm_compute; discriminate|] | apply r_other; [discriminate|discriminate|]].
Qed.

(** ** C34: the argument list *)
Theorem C34_sizes : forall argv m p q,
  Z.of_nat (length argv) < 2 ^ 32 -> total argv < 2 ^ 32 -> addr p + 4 <= mlen m -> addr q + 4 <= mlen m ->
  exists m1 m2, call_wasi argv (Some m) ArgsSizesGet [VI32 p; VI32 q] = WEnd (WRet (VI32 0) m2) /\
    stored m m1 (addr p) 4 (Z.of_nat (length argv)) /\ stored m1 m2 (addr q) 4 (total argv).
Proof.
  intros argv m p q L T P Q. pose proof (addr_range p). pose proof (addr_range q). pose proof (total_pos argv).
  cbn [call_wasi params getters option_map perform]. unfold args_sizes_get. change Wasi.u32 with addr. fold (total argv).
  rewrite (usize_id (total argv)) by lia.
  replace (addr (Z.of_nat (length argv))) with (Z.of_nat (length argv)) by (unfold addr; rewrite Z.mod_small; lia).
  replace (addr (total argv)) with (total argv) by (unfold addr; rewrite Z.mod_small; lia).
  rewrite two_writes by (rewrite ?mlen_encode; lia). eexists _, _. split; [reflexivity|].
  split; [apply (splice_stored m (addr p) 4); lia|apply (splice_stored _ (addr q) 4); rewrite ?splice_mlen; rewrite ?mlen_encode; lia].
Qed.
(** args_get: each pointer addresses a zero-terminated copy of its argument; nothing is changed
    outside the buffer and the pointers - and the four bytes after the pointers. *)
Theorem C34_get_partial : forall argv m p b,
  mlen m <= isize_max ->
  let c := Z.of_nat (length argv) in
  addr p + 4 * c + 4 <= mlen m -> addr b + total argv <= mlen m -> (addr p + 4 * c <= addr b \/ addr b + total argv <= addr p) ->
  exists m', call_wasi argv (Some m) ArgsGet [VI32 p; VI32 b] = WEnd (WRet (VI32 0) m') /\ mlen m' = mlen m /\
    (forall i s, nth_error argv i = Some s ->
       let a := u32le m' (addr p + 4 * Z.of_nat i) in
       addr b <= a /\ a + mlen s + 1 <= addr b + total argv /\ string_at m' a s) /\
    (forall k, 0 <= k < mlen m -> ~ addr p <= k < addr p + 4 * c + 4 -> ~ addr b <= k < addr b + total argv -> byte_at m' k = byte_at m k).
Proof.
  intros argv m p b L c P B D. pose proof (addr_range p). pose proof (addr_range b). pose proof (total_pos argv). unfold isize_max in L.
  cbn [call_wasi params getters option_map perform]. unfold args_get. change Wasi.u32 with addr.
  assert (LP : mlen (args_ptrs (addr b) 0 argv) = 4 * c + 4) by apply args_ptrs_len. pose proof (args_buf_len argv) as LB.
  rewrite two_writes by lia. eexists. split; [reflexivity|]. split; [now rewrite !splice_mlen by (rewrite ?splice_mlen; lia)|]. split.
  - intros i s N. set (a := u32le _ (addr p + 4 * Z.of_nat i)). assert (I : (i < length argv)%nat) by (apply nth_error_Some; congruence).
    assert (A : a = addr b + total (firstn i argv)).
    { unfold a. rewrite (u32le_ext _ (args_ptrs (addr b) 0 argv) _ (4 * Z.of_nat i)).
      - rewrite args_ptr by lia. lia.
      - intros k K. rewrite two_bytes by lia. rewrite LP, LB.
        replace ((addr b <=? addr p + 4 * Z.of_nat i + k) && (addr p + 4 * Z.of_nat i + k <? addr b + total argv)) with false by lia.
        replace ((addr p <=? addr p + 4 * Z.of_nat i + k) && (addr p + 4 * Z.of_nat i + k <? addr p + (4 * c + 4))) with true by lia. f_equal. lia. }
    rewrite A. pose proof (total_firstn_le i argv s N). pose proof (total_pos (firstn i argv)). split; [lia|]. split; [lia|].
    apply string_at_splice; rewrite ?splice_mlen; try lia. now apply args_string.
  - intros k K NP NB. rewrite two_bytes by lia. rewrite LP, LB.
    replace ((addr b <=? k) && (k <? addr b + total argv)) with false by lia.
    replace ((addr p <=? k) && (k <? addr p + (4 * c + 4))) with false by lia. reflexivity.
Qed.
Example C34_example : call_wasi [[97; 98]; [99]] (Some (repeat 9 24)) ArgsGet [VI32 4; VI32 18]
  = WEnd (WRet (VI32 0) [9; 9; 9; 9; 18; 0; 0; 0; 21; 0; 0; 0; 0; 0; 0; 0; 9; 9; 97; 98; 0; 99; 0; 9]).
Proof. vm_compute. reflexivity. Qed.
(** The four bytes after the last pointer are overwritten, whatever the guest keeps there. *)
Theorem C34_overwrite_refuted : forall argv m p b,
  mlen m <= isize_max ->
  let c := Z.of_nat (length argv) in
  addr p + 4 * c + 4 <= mlen m -> addr b + total argv <= mlen m -> (addr p + 4 * c + 4 <= addr b \/ addr b + total argv <= addr p) ->
  exists m', call_wasi argv (Some m) ArgsGet [VI32 p; VI32 b] = WEnd (WRet (VI32 0) m') /\ u32le m' (addr p + 4 * c) = 0.
Proof.
  intros argv m p b L c P B D. pose proof (addr_range p). pose proof (addr_range b). pose proof (total_pos argv). unfold isize_max in L.
  cbn [call_wasi params getters option_map perform]. unfold args_get. change Wasi.u32 with addr.
  assert (LP : mlen (args_ptrs (addr b) 0 argv) = 4 * c + 4) by apply args_ptrs_len. pose proof (args_buf_len argv) as LB.
  rewrite two_writes by lia. eexists. split; [reflexivity|].
  assert (Z0 : forall l off, u32le (args_ptrs (addr b) off l) (4 * Z.of_nat (length l)) = 0).
  { induction l as [|x l IH]; intros off; cbn [args_ptrs length]; [reflexivity|].
    match goal with |- u32le (le_encode 4 ?z ++ _) _ = 0 => replace (4 * Z.of_nat (S (length l))) with (mlen (le_encode 4 z) + 4 * Z.of_nat (length l)) by (rewrite mlen_encode; lia) end.
    rewrite u32le_app2 by lia. apply IH. }
  rewrite (u32le_ext _ (args_ptrs (addr b) 0 argv) _ (4 * c)); [apply Z0|]. intros k K. rewrite two_bytes by lia. rewrite LP, LB.
  replace ((addr b <=? addr p + 4 * c + k) && (addr p + 4 * c + k <? addr b + total argv)) with false by lia.
  replace ((addr p <=? addr p + 4 * c + k) && (addr p + 4 * c + k <? addr p + (4 * c + 4))) with true by lia. f_equal. lia.
Qed.

(** ** C47: the environment *)
Theorem C47_sizes : forall argv m p q, exists k, call_wasi argv (Some m) EnvironSizesGet [VI32 p; VI32 q] = WCall EnvironSizesGet [] k /\
  forall r, r_mem r = m -> 0 <= r_errno r < 2 ^ 16 ->
    (r_errno r <> 0 -> k r = WEnd (WRet (VI32 (r_errno r)) m)) /\
    (r_errno r = 0 -> addr p + 4 <= mlen m -> addr q + 4 <= mlen m ->
       exists m1 m2, k r = WEnd (WRet (VI32 0) m2) /\ stored m m1 (addr p) 4 (out r 0) /\ stored m1 m2 (addr q) 4 (out r 1)).
Proof.
  intros argv m p q. eexists. split; [reflexivity|]. intros r R E. pose proof (addr_range p). pose proof (addr_range q). change Wasi.u32 with addr. split.
  - intros NZ. replace (r_errno r =? 0) with false by lia. cbn [negb]. unfold ret_errno, ret. now rewrite R, cast_small by auto.
  - intros Z0 P Q. rewrite Z0. cbn [Z.eqb negb]. rewrite R. rewrite two_writes by (rewrite ?mlen_encode; lia). eexists _, _. split; [reflexivity|].
    split; [apply (splice_stored m (addr p) 4); lia|apply (splice_stored _ (addr q) 4); rewrite ?splice_mlen; rewrite ?mlen_encode; lia].
Qed.
(** environ_get asks the host for the sizes [r1] and the variables [r2]: pointers as offsets into a
    buffer.  The guest gets the same buffer, pointers to the same strings, and four bytes more. *)
Theorem C47_get_partial : forall argv m p b, exists k1, call_wasi argv (Some m) EnvironGet [VI32 p; VI32 b] = WCall EnvironSizesGet [] k1 /\
  forall r1, r_mem r1 = m -> 0 <= r_errno r1 < 2 ^ 16 ->
    (r_errno r1 <> 0 -> k1 r1 = WEnd (WRet (VI32 (r_errno r1)) m)) /\
    (r_errno r1 = 0 -> exists k2, k1 r1 = WCall EnvironGet [] k2 /\
     forall r2, r_mem r2 = m -> 0 <= r_errno r2 < 2 ^ 16 ->
      (r_errno r2 <> 0 -> k2 r2 = WEnd (WRet (VI32 (r_errno r2)) m)) /\
      (let c := out r1 0 in let size := out r1 1 in
       r_errno r2 = 0 -> 0 <= c -> mlen (r_buf r2) = size -> mlen m <= isize_max ->
       addr p + 4 * c + 4 <= mlen m -> addr b + size <= mlen m -> (addr p + 4 * c <= addr b \/ addr b + size <= addr p) ->
       exists m', k2 r2 = WEnd (WRet (VI32 0) m') /\ mlen m' = mlen m /\
         (forall i o s, 0 <= i < c -> nth (Z.to_nat i) (r_ptrs r2) None = Some o -> 0 <= o -> o + mlen s + 1 <= size -> string_at (r_buf r2) o s ->
            let a := u32le m' (addr p + 4 * i) in addr b <= a /\ a + mlen s + 1 <= addr b + size /\ string_at m' a s) /\
         (forall k, 0 <= k < mlen m -> ~ addr p <= k < addr p + 4 * c + 4 -> ~ addr b <= k < addr b + size -> byte_at m' k = byte_at m k))).
Proof.
  intros argv m p b. eexists. split; [reflexivity|]. intros r1 R1 E1. pose proof (addr_range p). pose proof (addr_range b). change Wasi.u32 with addr. split.
  { intros NZ. replace (r_errno r1 =? 0) with false by lia. cbn [negb]. unfold ret_errno, ret. now rewrite R1, cast_small by auto. }
  intros Z1. rewrite Z1. change (negb (0 =? 0)) with false. cbv iota. eexists. split; [reflexivity|]. intros r2 R2 E2. split.
  { intros NZ. replace (r_errno r2 =? 0) with false by lia. cbn [negb]. unfold ret_errno, ret. now rewrite R2, cast_small by auto. }
  intros c size Z2 C S L P B D. rewrite Z2. cbn [Z.eqb negb]. rewrite R2. fold c size. unfold isize_max in L.
  assert (BF : firstn (Z.to_nat size) (r_buf r2 ++ repeat 0 (Z.to_nat size)) = r_buf r2).
  { assert (EL : Z.to_nat size = length (r_buf r2)) by (unfold mlen in S; lia). rewrite EL at 1. rewrite firstn_app, firstn_all, Nat.sub_diag. cbn [firstn]. apply app_nil_r. }
  rewrite BF. set (ptrs := environ_ptrs (addr b) (Z.to_nat c) (r_ptrs r2)).
  assert (LP : mlen ptrs = 4 * c + 4) by (unfold ptrs; rewrite environ_ptrs_len; lia).
  pose proof (mlen_pos (r_buf r2)).
  rewrite two_writes by lia. eexists. split; [reflexivity|]. split; [now rewrite !splice_mlen by (rewrite ?splice_mlen; lia)|]. split.
  - intros i o s I N O OL SA. cbv zeta. set (a := u32le _ (addr p + 4 * i)). pose proof (mlen_pos s).
    assert (A : a = addr b + o).
    { unfold a. rewrite (u32le_ext _ ptrs _ (4 * i)).
      - replace (4 * i) with (4 * Z.of_nat (Z.to_nat i)) by lia. unfold ptrs. apply environ_ptr; auto; lia.
      - intros k K. rewrite two_bytes by lia. rewrite LP, S.
        replace ((addr b <=? addr p + 4 * i + k) && (addr p + 4 * i + k <? addr b + size)) with false by lia.
        replace ((addr p <=? addr p + 4 * i + k) && (addr p + 4 * i + k <? addr p + (4 * c + 4))) with true by lia. f_equal. lia. }
    rewrite A. split; [lia|]. split; [lia|]. apply string_at_splice; rewrite ?splice_mlen; try lia. auto.
  - intros k K NP NB. rewrite two_bytes by lia. rewrite LP, S.
    replace ((addr b <=? k) && (k <? addr b + size)) with false by lia.
    replace ((addr p <=? k) && (k <? addr p + (4 * c + 4))) with false by lia. reflexivity.
Qed.
(** one variable "A=1": all hypotheses are met, and the pointer and the text arrive *)
Example C47_example : let m := repeat 9 16 in
  match call_wasi [] (Some m) EnvironGet [VI32 0; VI32 9] with
  | WCall _ _ k1 => match k1 {| r_errno := 0; r_out := [1; 4]; r_ptrs := []; r_buf := []; r_mem := m |} with
    | WCall _ _ k2 => k2 {| r_errno := 0; r_out := []; r_ptrs := [Some 0]; r_buf := [65; 61; 49; 0]; r_mem := m |}
    | x => x end
  | x => x end = WEnd (WRet (VI32 0) [9; 0; 0; 0; 0; 0; 0; 0; 9; 65; 61; 49; 0; 9; 9; 9]).
Proof. vm_compute. reflexivity. Qed.
(** the four bytes after the pointers are cleared, here a 9 the guest kept there *)
Theorem C47_overwrite_refuted : exists m r1 r2 k1 k2 m', r_mem r1 = m /\ r_mem r2 = m /\ r_errno r1 = 0 /\ r_errno r2 = 0 /\ r_out r1 = [0; 0] /\
  call_wasi [] (Some m) EnvironGet [VI32 0; VI32 8] = WCall EnvironSizesGet [] k1 /\ k1 r1 = WCall EnvironGet [] k2 /\
  k2 r2 = WEnd (WRet (VI32 0) m') /\ byte_at m 0 = 9 /\ byte_at m' 0 = 0.
Proof.
  exists (repeat 9 16), {| r_errno := 0; r_out := [0; 0]; r_ptrs := []; r_buf := []; r_mem := repeat 9 16 |}, {| r_errno := 0; r_out := []; r_ptrs := []; r_buf := []; r_mem := repeat 9 16 |}.
  eexists _, _, _. repeat split; reflexivity.
Qed.
