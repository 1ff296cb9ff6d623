(** C64: the whole command, moved between processes, on a WASI host. *)
From Coq Require Import String ZArith List Bool Lia.
From Verif Require Import Word Value Float Mem WasmMem Store Regs IR Machine Wasm WasmTyping Decoder Check Restrict WasmPrims PrimFacts Soundness Correct ExecFacts Examples
  Runtime RuntimeProofs MigrationProofs Properties_Runtime Args ArgsSpec Properties_Args Wasi WasiSpec Module ModuleSpec StaticSpec TotalSpec Properties_Total Load LoadSpec LoadProofs MainProofs Properties_Main
  WorldSpec World WorldProofs Properties_World Codec CodecProofs FileSpec EmitProofs FileProofs WholeProofs.
Import ListNotations.
Open Scope nat_scope.
Local Open Scope string_scope.
Local Open Scope list_scope.

(** [chiwawa FILE --app-args LINE --invoke NAME --params SS], stopped and restored from its files any number
    of times, on a host that answers as if it were one run: if the program, run by the standard's rules
    directly on that host with the words of LINE as its arguments, ends with outcome [o], its calls all being
    proper, then the last process reports [o] and nothing else.  Missing: programs outside the restrictions of C56 and C57, and
    those that cannot be moved (C29). *)
Theorem C64_whole_partial : forall hf sys file l env ff z E D W gs F name f d args ss how,
  hostfp_ok hf -> polite sys -> byte_replies sys -> lossless z ->
  line_ok l -> Forall bytes_ok (file :: line_texts l) -> Forall bytes_ok env ->
  let words := file :: filter nonempty (line_texts l) in
  (total words < 2 ^ 31)%Z -> (total env < 2 ^ 31)%Z ->
  LoadSpec.presents expected_type W F -> LoadSpec.sound W gs -> handled W -> Forall one_result (sm_funcs (w_code W)) -> Restrict.within (w_code W) = true ->
  forallb (modest (w_code W)) (sm_funcs (w_code W)) = true -> in_range W gs ->
  code_movable (w_code W) -> Forall no_reference gs ->
  In (name, ExFunc f) (w_exports W) -> nth_error (sm_funcs (w_code W)) f = Some (SWasm d) ->
  Forall2 has_type (fst (sf_type d)) args -> Forall2 (written ff) args ss ->
  let host := passthrough sys (argv file (Some (line_src l))) env in
  history hf host expected_type ff z F name ss how ->
  exists I fds fs, instance expected_type F = Some I /\ instance_of (with_code W fds) fs gs I /\
    forall n o, clear hf (direct sys words env) (w_code W) n f args (mi_inst I) ->
      as_outcome (invoke (wasm_prims hf) (direct sys words env) (w_code W) n f args (mi_inst I)) = Some o ->
      Forall (proper words env) (calls_of o) ->
      forall r, r <> Running ->
        ((exists k n, command hf host expected_type ff z how E D false k n F name ss = r) <-> r = reported o).
Proof.
  intros hf sys file l env ff z E D W gs F name f d args ss how HF PS BS Z LO BW BE words TW TE P S H O WI MD IR CM GR EX N TA WR host HI.
  assert (EW : argv file (Some (line_src l)) = words) by (apply C33_argv; auto).
  assert (BA : Forall bytes_ok words).
  { inversion BW as [|? ? B1 B2]; subst. constructor; auto. apply Forall_forall. intros x I. apply filter_In in I as [I _]. rewrite Forall_forall in B2. auto. }
  unfold host in *. clear host. rewrite EW in HI |- *.
  pose proof (passthrough_ok sys words env BS BA BE) as PO.
  assert (HO : host_ok (passthrough sys words env)) by (intros log o ws X; destruct (PO log o ws X) as [V B]; split; auto; intros v Y; apply (V v Y)).
  assert (MV : movable (w_code W) gs (passthrough sys words env)).
  { split; auto. intros log v ws X r ->. destruct (PO log _ ws X) as [V _]. destruct (V _ eq_refl) as [_ K]. discriminate K. }
  destruct (C57_transparent_partial hf sys words env ff E D false W gs F name f d args ss PS TW TE P S H O WI MD (or_introl eq_refl) EX N TA WR) as (I & fds & fs & EI & IO & T).
  exists I, fds, fs. split; auto. split; auto. intros n o CL AO PR r NR. destruct (T n o CL AO PR) as [_ T2]. rewrite <- (T2 r NR). symmetry.
  exact (history_report hf (passthrough sys words env) expected_type ff z W gs F name f d args ss Z P S H O (within_known _ WI) MD EX N TA WR HF HO IR MV how E D E D r HI NR).
Qed.

(** An example: the program of C57_example, which writes three bytes and exits with status 7, stopped between
    the two calls; run as [chiwawa hi --app-args a]. *)
Definition line_a : line := {| l_words := []; l_last := [Bare [97%Z]]; l_open := None |}.
Definition hi : list Z := [104; 105]%Z.
Definition host_hi : hostfn := passthrough sys1 (argv hi (Some (line_src line_a))) [].
Definition zl : lz4 := {| squeeze := fun m => 0%Z :: m; expand := fun l => match l with 0%Z :: m => Some m | _ => None end |}.
Definition st_hi : rstate :=
  match session hf0 host_hi expected_type ff0 zl Fresh (asked 5 true) LoopStyle true 60 60 F1 "_start" [] with
  | inr (RCheckpoint st) => st
  | _ => {| r_rf := RF (Six [] [] [] [] [] []) [] (Six 0 0 0 0 0 0); r_frames := []; r_inst := inst0; r_log := []; r_t := 0 |}
  end.
Definition b_hi : list Z := match checkpoint_bytes zl st_hi with Some b => b | None => [] end.
Definition words_hi : list (list Z) := [hi; [97%Z]].
Lemma sys1_bytes : byte_replies sys1.
Proof.
  intros f a m past i y. assert (E : r_mem (sys1 ((f, a, m) :: past)) = m); [|rewrite E; auto].
  unfold sys1. destruct f; try reflexivity. destruct a as [|[z| | |] a]; try reflexivity. destruct z as [|[ | | ]|]; reflexivity.
Qed.
Lemma zl_lossless : lossless zl.
Proof. split; cbn; auto. intros m H. constructor; auto. unfold is_byte. lia. Qed.
Lemma W1_range : in_range W1 [].
Proof.
  split; [vm_compute; reflexivity|constructor| |reflexivity|].
  - repeat constructor; unfold is_byte; lia.
  - intros d [H|[H|[H|[]]]]; try discriminate H. injection H as <-. split; reflexivity.
Qed.
Lemma hi_stopped : history hf0 host_hi expected_type ff0 zl F1 "_start" [] (From b_hi (r_log st_hi) (r_t st_hi)).
Proof.
  refine (HNext hf0 host_hi expected_type ff0 zl F1 "_start" [] Fresh (asked 5 true) LoopStyle 60 60 st_hi b_hi (HFresh _ _ _ _ _ _ _ _) _ _ _).
  - unfold st_hi. assert (K : match session hf0 host_hi expected_type ff0 zl Fresh (asked 5 true) LoopStyle true 60 60 F1 "_start" [] with inr (RCheckpoint _) => true | _ => false end = true) by (vm_compute; reflexivity).
    destruct (session hf0 host_hi expected_type ff0 zl Fresh (asked 5 true) LoopStyle true 60 60 F1 "_start" []) as [?|[]]; try discriminate K. reflexivity.
  - unfold b_hi. assert (K : match checkpoint_bytes zl st_hi with Some _ => true | None => false end = true) by (vm_compute; reflexivity).
    destruct (checkpoint_bytes zl st_hi); [reflexivity|discriminate K].
  - unfold short, FileSpec.u32. apply Z.ltb_lt. vm_compute. reflexivity.
Qed.
Lemma hi_direct : direct_ok (invoke (guarded (w_code W1) (wasm_prims hf0)) (direct sys1 words_hi []) (w_code W1) 9 2 [] (mi_inst I1)) = true.
Proof. vm_compute. reflexivity. Qed.
Example C64_example : byte_replies sys1 /\ line_ok line_a /\ words_hi = hi :: filter nonempty (line_texts line_a) /\ in_range W1 [] /\ code_movable (w_code W1) /\
  length (r_log st_hi) = 1 /\ history hf0 host_hi expected_type ff0 zl F1 "_start" [] (From b_hi (r_log st_hi) (r_t st_hi)) /\
  exists log, length log = 2 /\ Forall (proper words_hi []) log /\ clear hf0 (direct sys1 words_hi []) (w_code W1) 9 2 [] (mi_inst I1) /\
  invoke (wasm_prims hf0) (direct sys1 words_hi []) (w_code W1) 9 2 [] (mi_inst I1) = OExit 7 log /\
  exists k n, command hf0 host_hi expected_type ff0 zl (From b_hi (r_log st_hi) (r_t st_hi)) E0 TailCall false k n F1 "_start" [] = Exit 7 [] log.
Proof.
  split; [exact sys1_bytes|]. assert (LO : line_ok line_a) by (repeat constructor; cbn; intuition lia). split; [exact LO|]. split; [reflexivity|].
  split; [exact W1_range|]. assert (CM : code_movable (w_code W1)) by (vm_compute; reflexivity). split; [exact CM|].
  split; [vm_compute; reflexivity|]. split; [exact hi_stopped|].
  pose proof hi_direct as R. assert (CL : clear hf0 (direct sys1 words_hi []) (w_code W1) 9 2 [] (mi_inst I1)). { unfold clear. intros K. rewrite K in R. discriminate R. }
  rewrite (guarded_wasm _ _ _ _ _ _ _ CL) in R.
  assert (G : exists log, invoke (wasm_prims hf0) (direct sys1 words_hi []) (w_code W1) 9 2 [] (mi_inst I1) = OExit 7 log /\ length log = 2 /\ Forall (proper words_hi []) log).
  { destruct (invoke _ _ _ _ _ _ _) as [| | | |z l| | |]; try discriminate R. cbn [direct_ok] in R. apply andb_prop in R as [R P]. apply andb_prop in R as [Z0 L].
    apply Z.eqb_eq in Z0 as ->. apply Nat.eqb_eq in L. exists l. split; [reflexivity|]. split; [exact L|]. apply Forall_forall. intros e I. rewrite forallb_forall in P. apply proper_example_ok, P, I. }
  destruct G as (log & G & LL & PR). exists log. split; [exact LL|]. split; [exact PR|]. split; [exact CL|]. split; [exact G|].
  destruct (C64_whole_partial hf0 sys1 hi line_a [] ff0 zl E0 TailCall W1 [] F1 "_start" 2 {| sf_type := ([], []); sf_locals := []; sf_body := seqc [i32c 1; i32c 0; i32c 1; i32c 16; CCall 0; drop; i32c 7; CCall 1] |} [] []
      (From b_hi (r_log st_hi) (r_t st_hi)) hf0_ok sys1_polite sys1_bytes zl_lossless LO (ltac:(repeat constructor; unfold is_byte; lia)) (Forall_nil _) eq_refl eq_refl F1_presents W1_sound W1_handled (ltac:(repeat constructor)) eq_refl eq_refl
      W1_range CM (Forall_nil _) (or_introl eq_refl) eq_refl (Forall2_nil _) (Forall2_nil _) hi_stopped) as (I' & fds & fs & EI' & _ & K).
  assert (EI : instance expected_type F1 = Some I1). { unfold I1. assert (X : match instance expected_type F1 with Some _ => true | None => false end = true) by (vm_compute; reflexivity). destruct (instance expected_type F1); [reflexivity|discriminate X]. }
  rewrite EI in EI'. pose proof (f_equal (fun o => match o with Some x => x | None => I1 end) EI') as E1. cbv beta iota in E1. rewrite <- E1 in K. clear EI EI' R.
  exact (proj2 (K 9 (Exited 7 log) CL (eq_trans (f_equal as_outcome G) eq_refl) PR (Exit 7 [] log) ltac:(discriminate)) eq_refl).
Qed.
