(** C70: a program that stays within its bounds is executed exactly -- the condition is on the run prescribed by the
    standard (it does not trap at a bound, its memory stays below 2 GiB) and on the source; chiwawa does not occur in it. *)
From Coq Require Import String ZArith List Bool Lia.
From Verif Require Import Word Value Numeric Float Mem WasmMem Store Regs IR Machine Wasm WasmTyping Decoder Check Restrict WasmPrims PrimFacts Soundness Correct ExecFacts Examples Properties_Exec
  Runtime Args ArgsSpec Wasi WasiSpec Module ModuleSpec StaticSpec TotalSpec Load LoadSpec
  WorldSpec World WorldProofs Properties_World Codec FileSpec TraceSpec TraceProofs MoveProofs Properties_Trace Properties_Whole Properties_Move Accept Program Properties_Program BoundsSpec Bounds.
Import ListNotations.
Open Scope nat_scope.
Local Open Scope string_scope.
Local Open Scope list_scope.

(** ** the machine *)
(** Every outcome other than a trap at a bound, reached by the standard's run without a 2 GiB memory, is the machine's. *)
Theorem C70_outcome : forall hf host SM M, WasmTyping.valid SM -> Restrict.within SM = true -> compile SM = Some M -> Check.small M = true ->
  forall f d args s, nth_error (sm_funcs SM) f = Some (SWasm d) -> Forall2 has_type (fst (sf_type d)) args ->
    plain_locals SM = true -> calls_own SM (i_tables s) = true ->
    forall n o, as_outcome (invoke (below_2GiB (wasm_prims hf)) host SM n f args s) = Some o -> ~ at_bound o ->
      exists c0 m, initial M s f args = Ok c0 /\ steps hf host M m c0 = inr o.
Proof.
  intros hf host SM M V W C Sm f d args s N A PL CO n o E NB.
  destruct (bounded_outcome hf host SM n f args s o PL CO E NB) as [CL E'].
  destruct (program_correct hf host SM M V W C Sm n f d args s N A CL) as (c0 & I0 & K).
  destruct (ends_outcome _ _ _ _ _ _ K) as [(r & Er & m & Hm)|[Er _]]; [|rewrite Er in E'; discriminate E'].
  exists c0, m. split; auto. congruence.
Qed.
(** A program whose run stays within bounds for ever ends in the machine exactly as in the standard, or runs for ever
    in both. *)
Theorem C70_termination : forall hf host SM M, WasmTyping.valid SM -> Restrict.within SM = true -> compile SM = Some M -> Check.small M = true ->
  forall f d args s, nth_error (sm_funcs SM) f = Some (SWasm d) -> Forall2 has_type (fst (sf_type d)) args ->
    plain_locals SM = true -> calls_own SM (i_tables s) = true ->
    (forall n, invoke (below_2GiB (wasm_prims hf)) host SM n f args s <> OUB) ->
    (forall n l, invoke (wasm_prims hf) host SM n f args s <> OTrap TOutOfBounds l) ->
    exists c0, initial M s f args = Ok c0 /\
      forall r, (exists m, steps hf host M m c0 = inr r) <->
                (exists n, as_outcome (invoke (wasm_prims hf) host SM n f args s) = Some r).
Proof.
  intros hf host SM M V W C Sm f d args s N A PL CO NU NB. apply (C23_termination_partial hf host SM M V W C Sm f d args s N A).
  intros n. apply bounded_clear; auto.
Qed.
(** A module without memory.grow and memory.init: nothing about sizes is left to ask. *)
Theorem C70_fixed_size : forall hf host SM M, WasmTyping.valid SM -> Restrict.within SM = true -> compile SM = Some M -> Check.small M = true ->
  forall f d args s, nth_error (sm_funcs SM) f = Some (SWasm d) -> Forall2 has_type (fst (sf_type d)) args ->
    plain_locals SM = true -> calls_own SM (i_tables s) = true -> uses sizes_no_memory SM = true ->
    forall n o, as_outcome (invoke (wasm_prims hf) host SM n f args s) = Some o -> ~ at_bound o ->
      exists c0 m, initial M s f args = Ok c0 /\ steps hf host M m c0 = inr o.
Proof.
  intros hf host SM M V W C Sm f d args s N A PL CO US n o E NB. apply (C70_outcome hf host SM M V W C Sm f d args s N A PL CO n o); auto.
  now rewrite below_same.
Qed.
(** Whatever happens later -- a trap at a bound included -- the calls made before it are the standard's: a call the
    standard's run arrives at is one the machine arrives at, with the same history, arguments and memory. *)
Theorem C70_calls_before : forall hf host SM M, WasmTyping.valid SM -> Restrict.within SM = true -> compile SM = Some M -> Check.small M = true ->
  forall f d args s, nth_error (sm_funcs SM) f = Some (SWasm d) -> Forall2 has_type (fst (sf_type d)) args ->
    plain_locals SM = true -> calls_own SM (i_tables s) = true ->
    forall n l, l <> [] -> invoke (below_2GiB (wasm_prims hf)) (stopping (length l) host) SM n f args s = OExit 0 l ->
      exists c0 m c, initial M s f args = Ok c0 /\ steps hf host M m c0 = inl c /\ next_call hf M c = Some l.
Proof.
  intros hf host SM M V W C Sm f d args s N A PL CO n l NE E.
  destruct (C70_outcome hf (stopping (length l) host) SM M V W C Sm f d args s N A PL CO n (Exited 0 l)) as (c0 & m & I0 & K).
  - now rewrite E.
  - intros [lg X]. discriminate X.
  - assert (L0 : c_log c0 = []).
    { unfold initial in I0. destruct (nth_error (md_funcs M) f) as [[fd|]|]; try discriminate. destruct (Nat.eqb _ _); [|discriminate]. now injection I0 as <-. }
    assert (LT : length (c_log c0) < length l) by (rewrite L0; destruct l; [congruence|cbn; lia]).
    destruct (stop_made hf M (length l) host m c0 (Exited 0 l) l K ltac:(discriminate) eq_refl eq_refl LT) as (_ & m' & c' & E1 & E2).
    exists c0, m', c'. auto.
Qed.

(** ** the whole command *)
(** the source conditions, on the file *)
Definition steady (F : list payload) (W : wmodule) : bool :=
  match instance expected_type F with
  | Some x => plain_locals (w_code W) && calls_own (w_code W) (i_tables (mi_inst x))
  | None => false
  end.
Theorem C70_command : forall F W gs, admit_moved expected_type F = Some (W, gs) -> steady F W = true ->
  forall hf sys file l env ff z E D name f d args ss how,
  hostfp_ok hf -> polite sys -> byte_replies sys -> lossless z ->
  line_ok l -> Forall bytes_ok (file :: line_texts l) -> Forall bytes_ok env ->
  let words := file :: filter nonempty (line_texts l) in
  (total words < 2 ^ 31)%Z -> (total env < 2 ^ 31)%Z ->
  In (name, ExFunc f) (w_exports W) -> nth_error (sm_funcs (w_code W)) f = Some (SWasm d) ->
  Forall2 has_type (fst (sf_type d)) args -> Forall2 (written ff) args ss ->
  let host := passthrough sys (argv file (Some (line_src l))) env in
  history hf host expected_type ff z F name ss how ->
  exists I fds fs, instance expected_type F = Some I /\ instance_of (with_code W fds) fs gs I /\
    forall n o, as_outcome (invoke (below_2GiB (wasm_prims hf)) (direct sys words env) (w_code W) n f args (mi_inst I)) = Some o -> ~ at_bound o ->
      Forall (WorldSpec.proper words env) (calls_of o) ->
      forall r, r <> Running ->
        ((exists k n, command hf host expected_type ff z how E D false k n F name ss = r) <-> r = reported o).
Proof.
  intros F W gs A ST hf sys file l env ff z E D name f d args ss how HF PS BS Z LO BW BE words TW TE EX N TA WR host HI.
  destruct (C67_checked_partial F W gs A hf sys file l env ff z E D name f d args ss how HF PS BS Z LO BW BE TW TE EX N TA WR HI) as (I & fds & fs & EI & IO & K).
  exists I, fds, fs. split; auto. split; auto. intros n o R NB PR. unfold steady in ST. rewrite EI in ST. apply andb_prop in ST as [PL CO].
  destruct (bounded_outcome _ _ _ _ _ _ _ _ PL CO R NB) as [CL R']. exact (K n o CL R' PR).
Qed.
(** the same for programs that do not end: every prefix of their calls *)
Theorem C70_server : forall F W gs, admit_moved expected_type F = Some (W, gs) -> steady F W = true ->
  forall hf sys file l env ff z E D name f d args ss how,
  hostfp_ok hf -> polite sys -> byte_replies sys -> lossless z ->
  line_ok l -> Forall bytes_ok (file :: line_texts l) -> Forall bytes_ok env ->
  let words := file :: filter nonempty (line_texts l) in
  (total words < 2 ^ 31)%Z -> (total env < 2 ^ 31)%Z ->
  In (name, ExFunc f) (w_exports W) -> nth_error (sm_funcs (w_code W)) f = Some (SWasm d) ->
  Forall2 has_type (fst (sf_type d)) args -> Forall2 (written ff) args ss ->
  let host := passthrough sys (argv file (Some (line_src l))) env in
  history hf host expected_type ff z F name ss how ->
  exists I fds fs, instance expected_type F = Some I /\ instance_of (with_code W fds) fs gs I /\
    ((forall n, invoke (below_2GiB (wasm_prims hf)) (direct sys words env) (w_code W) n f args (mi_inst I) <> OUB) ->
     (forall n l, invoke (wasm_prims hf) (direct sys words env) (w_code W) n f args (mi_inst I) <> OTrap TOutOfBounds l) ->
     forall calls, List.length (calls_before how) < List.length calls -> Forall (WorldSpec.proper words env) calls ->
      ((exists k n, command hf (stopping (List.length calls) host) expected_type ff z how E D false k n F name ss = Exit 0 [] calls) <->
       (exists n, invoke (wasm_prims hf) (stopping (List.length calls) (direct sys words env)) (w_code W) n f args (mi_inst I) = OExit 0 calls)) /\
      made sys words env calls = flat_map (scalls words env) calls).
Proof.
  intros F W gs A ST hf sys file l env ff z E D name f d args ss how HF PS BS Z LO BW BE words TW TE EX N TA WR host HI.
  destruct (C67_server_partial F W gs A hf sys file l env ff z E D name f d args ss how HF PS BS Z LO BW BE TW TE EX N TA WR HI) as (I & fds & fs & EI & IO & K).
  exists I, fds, fs. split; auto. split; auto. unfold steady in ST. rewrite EI in ST. apply andb_prop in ST as [PL CO]. intros NU NB.
  apply K. intros n. apply bounded_clear; auto.
Qed.
(** tests/wasi/sched_yield.wasm meets the conditions on the source *)
Lemma sy_steady : steady sched_yield (fst sy) = true.
Proof. vm_compute. reflexivity. Qed.
Theorem C70_sched_yield : forall hf sys file l env ff z E D how,
  hostfp_ok hf -> polite sys -> byte_replies sys -> lossless z ->
  line_ok l -> Forall bytes_ok (file :: line_texts l) -> Forall bytes_ok env ->
  let words := file :: filter nonempty (line_texts l) in
  (total words < 2 ^ 31)%Z -> (total env < 2 ^ 31)%Z ->
  let host := passthrough sys (argv file (Some (line_src l))) env in
  history hf host expected_type ff z sched_yield "_start" [] how ->
  exists I, instance expected_type sched_yield = Some I /\
    forall n o, as_outcome (invoke (below_2GiB (wasm_prims hf)) (direct sys words env) (w_code (fst sy)) n 6 [] (mi_inst I)) = Some o -> ~ at_bound o ->
      Forall (WorldSpec.proper words env) (calls_of o) ->
      forall r, r <> Running ->
        ((exists k n, command hf host expected_type ff z how E D false k n sched_yield "_start" [] = r) <-> r = reported o).
Proof.
  intros hf sys file l env ff z E D how HF PS BS Z LO BW BE words TW TE host HI. destruct sy_entry as (d & N & T).
  destruct (C70_command sched_yield (fst sy) (snd sy) sy_admitted sy_steady hf sys file l env ff z E D "_start" 6 d [] [] how HF PS BS Z LO BW BE TW TE sy_start N
    (eq_ind_r (fun t => Forall2 has_type t []) (Forall2_nil _) T) (Forall2_nil _) HI) as (I & fds & fs & EI & _ & K).
  exists I. split; [exact EI|]. exact K.
Qed.

(** ** examples *)
(** writes its argument to memory, reads it back through a function called by reference, adds 1 *)
Definition p_cell : smodule :=
  {| sm_types := [([TI32], [TI32])];
     sm_funcs := [func [TI32] [TI32] [] [Examples.get 0; op (SLoad LI32 0)];
                  func [TI32] [TI32] [TI32] [i32c 4; Examples.get 0; op (SStore SI32 4); i32c 8; i32c 0; CCallInd 0 0; i32c 1; iadd]] |}.
Definition s_cell : inst := {| i_mem := Some {| m_data := repeat 0%Z 16; m_max := None; m_gen := 0 |}; i_globals := []; i_tables := [[RFunc 0]]; i_datas := [] |}.
Example C70_example : WasmTyping.valid p_cell /\ Restrict.within p_cell = true /\ (exists M, compile p_cell = Some M /\ Check.small M = true) /\
  plain_locals p_cell = true /\ calls_own p_cell (i_tables s_cell) = true /\ uses sizes_no_memory p_cell = true /\
  exists s', as_outcome (invoke (wasm_prims hf0) host0 p_cell 5 1 [VI32 41] s_cell) = Some (Done [VI32 42] s' []) /\ ~ at_bound (Done [VI32 42] s' []).
Proof.
  split; [vm|]. split; [reflexivity|]. split; [eexists; split; vm_compute; reflexivity|]. split; [reflexivity|]. split; [reflexivity|]. split; [reflexivity|].
  eexists. split; [vm_compute; reflexivity|]. intros [l E]. discriminate E.
Qed.
(** the bound is needed: a load whose address plus offset passes 2^32 traps, but chiwawa reads the byte at the address
    modulo 2^32 (C11) and goes on *)
Definition p_over : smodule := one [] [TI32] [] [i32c (-4); op (SLoad LI32 4)].
Theorem C70_bound_refuted : WasmTyping.valid p_over /\ Restrict.within p_over = true /\ plain_locals p_over = true /\ calls_own p_over (i_tables s_cell) = true /\
  uses sizes_no_memory p_over = true /\
  (exists o, as_outcome (invoke (wasm_prims hf0) host0 p_over 5 0 [] s_cell) = Some o /\ at_bound o) /\
  exists M c0 m s', compile p_over = Some M /\ initial M s_cell 0 [] = Ok c0 /\ steps hf0 host0 M m c0 = inr (Done [VI32 0] s' []).
Proof.
  split; [vm|]. split; [reflexivity|]. split; [reflexivity|]. split; [reflexivity|]. split; [reflexivity|].
  split; [eexists; split; [vm_compute; reflexivity|]; now exists []|].
  eexists. eexists. exists 9. eexists. split; [vm_compute; reflexivity|]. split; [vm_compute; reflexivity|]. vm_compute. reflexivity.
Qed.
