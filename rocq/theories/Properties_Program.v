(** C67: a checkable condition on the file, and a compiled program that meets it. *)
From Coq Require Import String ZArith List Bool Lia.
From Verif Require Import Word Value Float Mem WasmMem Store Regs IR Machine Wasm WasmTyping Decoder Check Restrict WasmPrims PrimFacts Soundness Correct ExecFacts
  Runtime Args ArgsSpec Wasi WasiSpec Module ModuleSpec StaticSpec TotalSpec Load LoadSpec
  WorldSpec World WorldProofs Properties_World Codec FileSpec TraceSpec TraceProofs MoveProofs Properties_Whole Properties_Move Accept Program.
Import ListNotations.
Open Scope nat_scope.
Local Open Scope string_scope.
Local Open Scope list_scope.

(** If the check [admit_moved] passes on a file, nothing else about the file is left to ask: the whole command
    on it behaves as in C64.  Missing: files on which the check fails, and runs that meet a point where the code differs
    from the standard ([clear]). *)
Theorem C67_checked_partial : forall F W gs, admit_moved expected_type F = Some (W, gs) ->
  forall hf sys file l env ff z E D name f d args ss how,
  hostfp_ok hf -> polite sys -> byte_replies sys -> lossless z ->
  line_ok l -> Forall bytes_ok (file :: line_texts l) -> Forall bytes_ok env ->
  let words := file :: filter nonempty (line_texts l) in
  (total words < 2 ^ 31)%Z -> (total env < 2 ^ 31)%Z ->
  In (name, ExFunc f) (w_exports W) -> nth_error (sm_funcs (w_code W)) f = Some (SWasm d) ->
  Forall2 has_type (fst (sf_type d)) args -> Forall2 (written ff) args ss ->
  let host := passthrough sys (argv file (Some (line_src l))) env in
  history hf host expected_type ff z F name ss how ->
  exists I fds fs, instance expected_type F = Some I /\ instance_of (with_code W fds) fs gs I /\
    forall n o, clear hf (direct sys words env) (w_code W) n f args (mi_inst I) ->
      as_outcome (invoke (wasm_prims hf) (direct sys words env) (w_code W) n f args (mi_inst I)) = Some o ->
      Forall (WorldSpec.proper words env) (calls_of o) ->
      forall r, r <> Running ->
        ((exists k n, command hf host expected_type ff z how E D false k n F name ss = r) <-> r = reported o).
Proof.
  intros F W gs A hf sys file l env ff z E D name f d args ss how HF PS BS Z LO BW BE words TW TE EX N TA WR host HI.
  destruct (admit_moved_sound _ _ _ _ A) as ([P S H O WI MD IR] & CM & GR).
  exact (C64_whole_partial hf sys file l env ff z E D W gs F name f d args ss how HF PS BS Z LO BW BE TW TE P S H O WI MD IR CM GR EX N TA WR HI).
Qed.

(** The same for programs that do not end: every prefix of the calls of a file that passes the check, stopped and
    continued any number of times, is what the program would do running directly on the host (C65).  Missing: as above. *)
Theorem C67_server_partial : forall F W gs, admit_moved expected_type F = Some (W, gs) ->
  forall hf sys file l env ff z E D name f d args ss how,
  hostfp_ok hf -> polite sys -> byte_replies sys -> lossless z ->
  line_ok l -> Forall bytes_ok (file :: line_texts l) -> Forall bytes_ok env ->
  let words := file :: filter nonempty (line_texts l) in
  (total words < 2 ^ 31)%Z -> (total env < 2 ^ 31)%Z ->
  In (name, ExFunc f) (w_exports W) -> nth_error (sm_funcs (w_code W)) f = Some (SWasm d) ->
  Forall2 has_type (fst (sf_type d)) args -> Forall2 (written ff) args ss ->
  let host := passthrough sys (argv file (Some (line_src l))) env in
  history hf host expected_type ff z F name ss how ->
  exists I fds fs, instance expected_type F = Some I /\ instance_of (with_code W fds) fs gs I /\
    ((forall n, clear hf (direct sys words env) (w_code W) n f args (mi_inst I)) ->
     (calls_before how <> [] -> Forall (WorldSpec.proper words env) (calls_before how) ->
        exists n, invoke (wasm_prims hf) (stopping (List.length (calls_before how)) (direct sys words env)) (w_code W) n f args (mi_inst I) = OExit 0 (calls_before how)) /\
     forall calls, List.length (calls_before how) < List.length calls -> Forall (WorldSpec.proper words env) calls ->
      ((exists k n, command hf (stopping (List.length calls) host) expected_type ff z how E D false k n F name ss = Exit 0 [] calls) <->
       (exists n, invoke (wasm_prims hf) (stopping (List.length calls) (direct sys words env)) (w_code W) n f args (mi_inst I) = OExit 0 calls)) /\
      made sys words env calls = flat_map (scalls words env) calls).
Proof.
  intros F W gs A hf sys file l env ff z E D name f d args ss how HF PS BS Z LO BW BE words TW TE EX N TA WR host HI.
  destruct (admit_moved_sound _ _ _ _ A) as ([P S H O WI MD IR] & CM & GR).
  exact (C65_server_partial hf sys file l env ff z E D W gs F name f d args ss how HF PS BS Z LO BW BE TW TE P S H O WI MD IR CM GR EX N TA WR HI).
Qed.

(** A compiled program: tests/wasi/sched_yield.wasm, 197 functions of Rust's standard library and one test. *)
Definition nothing : wmodule * list val :=
  ({| w_code := {| sm_types := []; sm_funcs := [] |}; w_tables := []; w_mem := None; w_globals := []; w_elems := []; w_datas := []; w_exports := []; w_start := None |}, []).
Definition or_nothing (o : option (wmodule * list val)) : wmodule * list val := match o with Some p => p | None => nothing end.
Definition sy : wmodule * list val := or_nothing (admit_moved expected_type sched_yield).
Lemma or_nothing_some o : match o with Some _ => true | None => false end = true -> o = Some (fst (or_nothing o), snd (or_nothing o)).
Proof. destruct o as [[W gs]|]; [reflexivity|discriminate]. Qed.
Lemma sy_admitted : admit_moved expected_type sched_yield = Some (fst sy, snd sy).
Proof. apply or_nothing_some. vm_compute. reflexivity. Qed.
Definition is_start (x : string * extern) : bool := String.eqb (fst x) "_start" && match snd x with ExFunc 6 => true | _ => false end.
Lemma start_in W : existsb is_start (w_exports W) = true -> In ("_start", ExFunc 6) (w_exports W).
Proof.
  intros K. apply existsb_exists in K as ([n x] & I & K). unfold is_start in K. cbn [fst snd] in K. apply andb_prop in K as [K1 K2]. apply String.eqb_eq in K1. subst n.
  assert (x = ExFunc 6); [|now subst]. destruct x as [i|i|i|i]; try discriminate K2. do 6 (destruct i as [|i]; [discriminate K2|]). destruct i as [|i]; [reflexivity|discriminate K2].
Qed.
Lemma sy_start : In ("_start", ExFunc 6) (w_exports (fst sy)).
Proof. apply start_in. vm_compute. reflexivity. Qed.
Definition no_params (o : option sfunc) : bool := match o with Some (SWasm d) => match fst (sf_type d) with [] => true | _ => false end | _ => false end.
Lemma no_params_ok o : no_params o = true -> exists d, o = Some (SWasm d) /\ fst (sf_type d) = [].
Proof. destruct o as [[d|w t]|]; try discriminate. cbn. destruct (fst (sf_type d)) eqn:E; [eauto|discriminate]. Qed.
Lemma sy_entry : exists d, nth_error (sm_funcs (w_code (fst sy))) 6 = Some (SWasm d) /\ fst (sf_type d) = [].
Proof. apply no_params_ok. vm_compute. reflexivity. Qed.
Example sy_size : Nat.eqb (List.length (sm_funcs (w_code (fst sy)))) 197 = true.
Proof. vm_compute. reflexivity. Qed.
(** [chiwawa sched_yield.wasm --app-args LINE --invoke _start] on any host, stopped and continued any number of times,
    reports what the standard says.  Missing: [clear], a condition on the run; on a host that accepts every call it
    holds (ConfProgram.v computes the run). *)
Theorem C67_sched_yield_partial : forall hf sys file l env ff z E D how,
  hostfp_ok hf -> polite sys -> byte_replies sys -> lossless z ->
  line_ok l -> Forall bytes_ok (file :: line_texts l) -> Forall bytes_ok env ->
  let words := file :: filter nonempty (line_texts l) in
  (total words < 2 ^ 31)%Z -> (total env < 2 ^ 31)%Z ->
  let host := passthrough sys (argv file (Some (line_src l))) env in
  history hf host expected_type ff z sched_yield "_start" [] how ->
  exists I, instance expected_type sched_yield = Some I /\
    forall n o, clear hf (direct sys words env) (w_code (fst sy)) n 6 [] (mi_inst I) ->
      as_outcome (invoke (wasm_prims hf) (direct sys words env) (w_code (fst sy)) n 6 [] (mi_inst I)) = Some o ->
      Forall (WorldSpec.proper words env) (calls_of o) ->
      forall r, r <> Running ->
        ((exists k n, command hf host expected_type ff z how E D false k n sched_yield "_start" [] = r) <-> r = reported o).
Proof.
  intros hf sys file l env ff z E D how HF PS BS Z LO BW BE words TW TE host HI. destruct sy_entry as (d & N & T).
  destruct (C67_checked_partial sched_yield (fst sy) (snd sy) sy_admitted hf sys file l env ff z E D "_start" 6 d [] [] how HF PS BS Z LO BW BE TW TE sy_start N
    (eq_ind_r (fun t => Forall2 has_type t []) (Forall2_nil _) T) (Forall2_nil _) HI) as (I & fds & fs & EI & _ & K).
  exists I. split; [exact EI|]. exact K.
Qed.
