(** C68: a failing WASI call gives the program an error number; only proc_exit ends it. *)
From Coq Require Import String ZArith List Bool Lia.
From Verif Require Import Word Value Numeric Float Mem WasmMem Store Regs IR Machine Wasm WasmTyping Decoder Check Restrict Correct Runtime RuntimeProofs Module ModuleSpec Load LoadSpec Wasi WasiSpec WasiProofs Properties_Host WorldSpec World WorldProofs Examples PrimFacts Properties_Main Properties_World.
Import ListNotations.
Open Scope Z_scope.

(** the programs reached after some replies of the host *)
Inductive reach : wprog -> wprog -> Prop :=
| reach_refl p : reach p p
| reach_reply f hs k r p : reach (k r) p -> reach (WCall f hs k) p.
Lemma reach_end o p : reach (WEnd o) p -> p = WEnd o.
Proof. intros H. now inversion H. Qed.
Lemma reach_call f hs k p : reach (WCall f hs k) p -> p = WCall f hs k \/ exists r, reach (k r) p.
Proof. intros H. inversion H; subst; eauto. Qed.
Lemma reach_store m p bs k q : reach (wstore m p bs k) q -> q = WEnd WUB \/ exists m', reach (k m') q.
Proof. unfold wstore. destruct (raw_write m p bs) as [m'|t|]; intros H; eauto; left; now apply reach_end. Qed.
Lemma reach_path m p n k q : reach (with_path m p n k) q -> q = WEnd WUB \/ exists s, reach (k s) q.
Proof. unfold with_path. destruct (raw_read m p n) as [s|t|]; intros H; eauto; left; now apply reach_end. Qed.
Lemma reach_iovs c m p n k q : reach (with_iovs c m p n k) q ->
  (q = WEnd WPanic /\ iovs c m p n = IPanic) \/ (q = WEnd (WErr EFault) /\ iovs c m p n = IFault) \/ exists l, reach (k l) q.
Proof. unfold with_iovs. destruct (iovs c m p n) as [l| |] eqn:E; intros H; eauto; [right; left|left]; split; auto; now apply reach_end. Qed.

Lemma params_len ts : forall vs zs, params ts vs = Some zs -> length zs = length ts.
Proof.
  induction ts as [|[|] ts IH]; intros [|[]] zs H; cbn [params] in H; try discriminate; [now injection H as <-| |];
    (destruct (params ts l) as [zs'|] eqn:P; [|discriminate]; injection H as <-; cbn [length]; f_equal; eauto).
Qed.
Ltac shape zs L := repeat (destruct zs as [|?z zs]; cbn [length] in L; [try discriminate L|try discriminate L]).
(** after a call whose reply is handed on unchanged, nothing but a return *)
Lemma reach_ret f hs q : reach (WCall f hs ret_errno) q -> q = WCall f hs ret_errno \/ exists z m, q = WEnd (WRet (VI32 z) m).
Proof. intros H. apply reach_call in H as [->|(r & H)]; auto. apply reach_end in H. eauto. Qed.
Lemma called argv m f vs q : reach (call_wasi argv (Some m) f vs) q ->
  f = ProcRaise /\ q = WEnd (WErr ENoSys) \/ params (getters f) vs = None /\ q = WEnd (WErr EInval) \/
  f <> ProcRaise /\ exists zs, params (getters f) vs = Some zs /\ length zs = length (getters f) /\ reach (perform argv m f zs) q.
Proof.
  unfold call_wasi. intros H.
  destruct f; try (left; split; [reflexivity|now apply reach_end in H]); right;
    match type of H with reach (match params ?g ?v with _ => _ end) _ => destruct (params g v) as [zs|] eqn:P end;
    try (left; split; [first [exact P|reflexivity]|now apply reach_end in H]); right; (split; [discriminate|]); exists zs; (split; [first [exact P|reflexivity]|]); (split; [exact (params_len _ _ _ P)|exact H]).
Qed.

(** Every error number of the host arrives. *)
Theorem C68_errno : forall argv m f vs g hs k r,
  reach (call_wasi argv m f vs) (WCall g hs k) -> f <> ProcExit -> 0 < r_errno r < 2 ^ 16 ->
  k r = WEnd (WRet (VI32 (r_errno r)) (r_mem r)).
Proof.
  intros argv m f vs g hs k r H NX ER.
  assert (RE : ret_errno r = WEnd (WRet (VI32 (r_errno r)) (r_mem r))) by (unfold ret_errno, ret; now rewrite cast_small by lia).
  assert (NZ : (r_errno r =? 0) = false) by lia.
  destruct m as [m|]; [|apply reach_end in H; discriminate].
  apply called in H as [(_ & H)|[(_ & H)|(NP & zs & _ & L & H)]]; [discriminate H|discriminate H|].
  destruct f; try congruence; cbn [getters length] in L; shape zs L; cbn [perform] in H.
  all: unfold fd_write, fd_read, fd_p, environ_get, environ_sizes_get, args_get, args_sizes_get, clock, random_get in H.
  all: repeat first
    [ match type of H with reach (if ?b then _ else _) _ => destruct b eqn:?B end
    | apply reach_iovs in H as [[H _]|[[H _]|(?l & H)]]; try discriminate H
    | apply reach_path in H as [H|(?s & H)]; try discriminate H
    | apply reach_store in H as [H|(?mm & H)]; try discriminate H
    | apply reach_ret in H as [H|(? & ? & H)]; [injection H as -> -> ->; exact RE|discriminate H]
    | apply reach_call in H as [H|(?r' & H)]; [injection H as -> -> ->; rewrite NZ; exact RE|]
    | unfold ret_errno, ret in H; apply reach_end in H; discriminate H ].
Qed.
Print Assumptions C68_errno.

(** Nothing but proc_exit and proc_raise ends the program, as long as texts, tables and buffers lie in memory. *)
Lemma iovs_readable m p n c : bytes_ok m -> mlen m <= isize_max -> addr n < 2 ^ 28 -> addr p + 8 * addr n <= mlen m -> buffers_in m (table m (addr p) (addr n)) ->
  exists l, iovs c m (addr p) (addr n) = IOk l.
Proof.
  intros B L N T BI. exists (map view (table m (addr p) (addr n))). pose proof (addr_range p). pose proof (addr_range n). destruct c; [|now apply iovs_false; lia].
  unfold iovs. replace (isize_max <? 8 * addr n) with false by (unfold isize_max; lia).
  destruct (Z.eq_dec (addr n) 0) as [E|NE]; [now rewrite E|].
  destruct (iovecs_checked m B L (Z.to_nat (addr n)) (addr p) 0) as [[E _]|[E X]]; try lia.
  - unfold isize_max in L. lia.
  - intros j J J8. destruct (Z.eq_dec (snd (iovec m (addr p) j)) 0) as [Z0|NZ].
    + rewrite Z0. unfold iovec. cbn [fst]. pose proof (u32le_range m (addr p + 8 * j) B). lia.
    + assert (fst (iovec m (addr p) j) + snd (iovec m (addr p) j) <= mlen m); [|unfold isize_max in L; lia]. apply BI; auto. apply in_table. exists j. split; [lia|]. now destruct (iovec m (addr p) j).
  - rewrite E. now rewrite entries_table.
  - exfalso. apply X. rewrite Z2Nat.id by lia. rewrite Z.add_0_l. apply entries_in. split; auto. intros i I. lia.
Qed.
Definition goes_on (f : wfun) (o : wout) : Prop :=
  match o with WRet (VI32 _) _ | WUB => True | WGone => f = ProcExit | _ => False end.
Theorem C68_ends_partial : forall argv m f vs o,
  bytes_ok m -> mlen m <= isize_max -> f <> ProcRaise -> arguments (signature f) vs -> readable m (signature f) vs ->
  reach (call_wasi argv (Some m) f vs) (WEnd o) -> goes_on f o.
Proof.
  intros argv m f vs o B L NP A R H. pose proof (fun p n c N T BI => iovs_readable m p n c B L N T BI) as V.
  destruct f; try congruence; unfold signature, fd in *; Properties_Host.args; cbn [call_wasi getters params option_map perform] in H.
  all: unfold fd_write, fd_read, fd_p, environ_get, environ_sizes_get, args_get, args_sizes_get, clock, random_get in H; change Wasi.u32 with addr in H.
  all: repeat first
    [ match type of H with reach (if ?b then _ else _) _ => destruct b eqn:?B end
    | apply reach_iovs in H as [[_ H]|[[_ H]|(?l & H)]];
        [match type of H with iovs ?c _ (addr ?p) (addr ?n) = _ => destruct (V p n c ltac:(assumption) ltac:(assumption) ltac:(assumption)) as (l' & E'); rewrite E' in H; discriminate H end..|]
    | apply reach_path in H as [H|(?s & H)]; [injection H as ->; exact Logic.I|]
    | apply reach_store in H as [H|(?mm & H)]; [injection H as ->; exact Logic.I|]
    | apply reach_ret in H as [H|(? & ? & H)]; [discriminate H|injection H as ->; exact Logic.I]
    | apply reach_call in H as [H|(?r' & H)]; [discriminate H|]
    | unfold ret_errno, ret in H; apply reach_end in H; injection H as ->; first [exact Logic.I | reflexivity] ].
Qed.
Print Assumptions C68_ends_partial.
(** The same for the host as a whole: whatever the system below answers, a call of the right types with its texts,
    tables and buffers in memory returns a number to the program, unless it is proc_exit, or the system was
    sent outside of the program's memory. *)
Lemma drive_reach sys env p : forall past m l o, drive sys env past m p = (l, o) -> o = WUB \/ reach p (WEnd o).
Proof.
  induction p as [o'|f hs k IH]; intros past m l o H; cbn [drive] in H.
  - injection H as _ <-. right. constructor.
  - assert (G : o = WUB \/ exists r, reach (k r) (WEnd o)).
    { destruct f; try (destruct (forallb _ _); [|injection H as _ <-; now left]); apply IH in H as [->|H]; eauto. }
    destruct G as [->|(r & G)]; auto. right. econstructor. exact G.
Qed.
Theorem C68_host_partial : forall sys argv env w f vs m log,
  bytes_ok m -> mlen m <= isize_max -> fun_of w = Some f -> f <> ProcRaise -> arguments (signature f) vs -> readable m (signature f) vs ->
  match passthrough sys argv env ((w, vs, Some m) :: log) with
  | HoRet (Some (VI32 _)) _ | HoUB => True
  | HoExit _ => f = ProcExit
  | _ => False
  end.
Proof.
  intros sys argv env w f vs m log B L W NP A R. unfold passthrough. set (past := made sys argv env log). unfold answer. rewrite W.
  destruct (drive sys env past m (call_wasi argv (Some m) f vs)) as [l o] eqn:D. cbn [fst snd].
  assert (G : goes_on f o). { apply drive_reach in D as [->|D]; [exact Logic.I|]. eapply C68_ends_partial; eauto. }
  destruct o as [[]|e| | |]; cbn [goes_on] in G; try contradiction; auto.
  subst f. destruct l as [|[[f0 a0] m0] l]; auto. destruct f0; auto. destruct a0 as [|[] [|]]; auto.
Qed.
Print Assumptions C68_host_partial.

(** ** refuted: a bad pointer *)
(** The program writes a buffer that lies outside of its memory and exits with the error number: 21 (fault) on
    the host itself; here the call ends the program, with status 0. *)
Local Open Scope string_scope.
Definition bad_f : sfunc := func [] [] [] [i32c 1; i32c 0; i32c 1; i32c 16; CCall 0; CCall 1].
Definition W3 : wmodule :=
  {| w_code := {| sm_types := [ty_w; ty_x; ty_m]; sm_funcs := [SWasi 1 ty_w; SWasi 0 ty_x; bad_f] |};
     w_tables := []; w_mem := Some (1%Z, None); w_globals := []; w_elems := [];
     w_datas := [{| ds_bytes := [0; 0; 0; 1; 3; 0; 0; 0]%Z; ds_mode := MActive 0 [CVal (VI32 0)] |}];
     w_exports := [("_start", ExFunc 2)]; w_start := None |}.
Definition F3 : list payload :=
  [PVersion 1; PTypes (items [ty_w; ty_x; ty_m]); PImports (items [WiFunc (Some 1%nat) 0; WiFunc (Some 0%nat) 1]); PFuncs (items [2%nat]); PMems (items [(1%Z, None)]);
   PExports (items (w_exports W3)); PCode (body bad_f); PDatas (items (w_datas W3))].
(** a host that takes what it is given if it lies in its caller's memory *)
Definition sys3 : system := fun past =>
  match past with
  | (FdWrite, [_; SVecs l], m) :: _ =>
      {| r_errno := if forallb (insideb m) l then 0 else 21; r_out := [3%Z]; r_ptrs := []; r_buf := []; r_mem := m |}
  | (_, _, m) :: _ => {| r_errno := 8; r_out := []; r_ptrs := []; r_buf := []; r_mem := m |}
  | [] => {| r_errno := 8; r_out := []; r_ptrs := []; r_buf := []; r_mem := [] |}
  end.
Lemma F3_presents : LoadSpec.presents expected_type W3 F3.
Proof.
  exists [SWasi 1 ty_w; SWasi 0 ty_x], [bad_f], [WiFunc (Some 1%nat) 0; WiFunc (Some 0%nat) 1], [2%nat], [PCode (body bad_f)].
  split; [reflexivity|]. split; [repeat (constructor; [cbn [import_entry]; split; [reflexivity|eexists; split; reflexivity]|]); constructor|].
  split; [repeat constructor|]. split; [repeat constructor|]. reflexivity.
Qed.
Definition I3 : minst := match instance expected_type F3 with Some x => x | None => {| mi_modul := {| md_funcs := []; md_types := [] |}; mi_inst := inst0; mi_exports := [] |} end.
Lemma sys3_polite : polite sys3.
Proof. intros f a m past B r. unfold r, sys3. destruct f; cbn; try (split; [lia|auto]). destruct a as [|x [|[| | |l] [|]]]; cbn; try (split; [lia|auto]). destruct (forallb (insideb m) l); split; auto; lia. Qed.
Theorem C68_fault_refuted : exists sys W F inst n k logs logc,
  polite sys /\ LoadSpec.presents expected_type W F /\ WasmTyping.valid (w_code W) /\
  option_map mi_inst (instance expected_type F) = Some inst /\
  (* on the host itself *)
  invoke (wasm_prims hf0) (direct sys [] []) (w_code W) n 2 [] inst = OExit 21 logs /\
  (* run by chiwawa *)
  main hf0 (passthrough sys [] []) expected_type ff0 E0 LoopStyle false k k F "_start" [] = Exit 0 [MExecution TBadOperand] logc.
Proof.
  assert (S : exists logs, invoke (wasm_prims hf0) (direct sys3 [] []) (w_code W3) 9 2 [] (mi_inst I3) = OExit 21 logs).
  { assert (K : match invoke (wasm_prims hf0) (direct sys3 [] []) (w_code W3) 9 2 [] (mi_inst I3) with OExit z _ => Z.eqb z 21 | _ => false end = true) by (vm_compute; reflexivity).
    destruct (invoke (wasm_prims hf0) (direct sys3 [] []) (w_code W3) 9 2 [] (mi_inst I3)) as [| | | |z l| | |]; try discriminate K. apply Z.eqb_eq in K. subst z. eauto. }
  assert (M : exists logc, main hf0 (passthrough sys3 [] []) expected_type ff0 E0 LoopStyle false 9 9 F3 "_start" [] = Exit 0 [MExecution TBadOperand] logc).
  { assert (K : match main hf0 (passthrough sys3 [] []) expected_type ff0 E0 LoopStyle false 9 9 F3 "_start" [] with Exit 0 [MExecution TBadOperand] _ => true | _ => false end = true) by (vm_compute; reflexivity).
    revert K. generalize (main hf0 (passthrough sys3 [] []) expected_type ff0 E0 LoopStyle false 9 9 F3 "_start" []). intros x K.
    destruct x; try discriminate K. destruct status; try discriminate K. destruct out as [|[] [|]]; try discriminate K; try (destruct t; discriminate K). destruct t; try discriminate K. eauto. }
  destruct S as (logs & S). destruct M as (logc & M). exists sys3, W3, F3, (mi_inst I3), 9%nat, 9%nat, logs, logc.
  split; [exact sys3_polite|]. split; [exact F3_presents|]. split.
  { unfold W3, bad_f, ty_w, ty_x, ty_m. cbn [w_code]. split; [repeat constructor; vf|]. exists [SWasi 1 ([TI32; TI32; TI32; TI32], [TI32]); SWasi 0 ([TI32], [])]. eexists. repeat split; auto; repeat constructor. }
  split; [|split; [exact S|exact M]].
  unfold I3. assert (K : match instance expected_type F3 with Some _ => true | None => false end = true) by (vm_compute; reflexivity). destruct (instance expected_type F3); [reflexivity|discriminate K].
Qed.
Print Assumptions C68_fault_refuted.
(** a program of C57 whose calls meet the conditions of the positive theorems *)
Example C68_example : let m := [8; 0; 0; 0; 3; 0; 0; 0; 104; 105; 10; 0; 0; 0; 0; 0; 0; 0; 0; 0]%Z in let vs := [VI32 1; VI32 0; VI32 1; VI32 16]%Z in
  bytes_ok m /\ fun_of 1 = Some FdWrite /\ arguments (signature FdWrite) vs /\ readable m (signature FdWrite) vs /\
  exists o, reach (call_wasi [] (Some m) FdWrite vs) (WEnd o).
Proof.
  cbv zeta. split; [repeat constructor; cbn; lia|]. split; [reflexivity|]. split; [unfold signature, fd; repeat constructor; cbn; lia|]. split.
  - unfold signature, fd. apply r_other; try discriminate. apply r_vecs; [cbn; lia|vm_compute; discriminate| |apply r_other; try discriminate; constructor].
    intros a n [E|[]] NZ. vm_compute in E. injection E as <- <-. vm_compute. discriminate.
  - eexists. cbn [call_wasi params getters option_map perform]. unfold fd_write, with_iovs, iovs. eapply (reach_reply _ _ _ {| r_errno := 8; r_out := []; r_ptrs := []; r_buf := []; r_mem := [] |}). cbn. constructor.
Qed.
