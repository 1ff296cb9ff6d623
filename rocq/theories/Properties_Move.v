(** C65: programs that never end, moved between processes. *)
From Coq Require Import String ZArith List Bool Lia.
From Verif Require Import Word Value Float Mem WasmMem Store Regs IR Machine Wasm WasmTyping Decoder Check Restrict WasmPrims PrimFacts Soundness Correct ExecFacts Examples
  Properties_Exec Properties_Layout Runtime SimState RuntimeProofs MigrationProofs Properties_Runtime Args ArgsSpec Properties_Args Wasi WasiSpec Module ModuleSpec StaticSpec TotalSpec Properties_Total Load LoadSpec LoadProofs MainProofs Properties_Main
  WorldSpec World WorldProofs Properties_World TraceSpec TraceProofs Properties_Trace Codec CodecProofs FileSpec EmitProofs FileProofs WholeProofs Properties_Whole MoveProofs.
Import ListNotations.
Open Scope nat_scope.
Local Open Scope string_scope.
Local Open Scope list_scope.

Lemma stopping_ok k host : host_ok host -> host_ok (stopping k host).
Proof. intros H log o ws. unfold stopping. destruct (Nat.leb k (length log)); [discriminate|apply H]. Qed.
Lemma stopping_movable SM gs k host : movable SM gs host -> movable SM gs (stopping k host).
Proof. intros [A B C]. split; auto. intros log v ws. unfold stopping. destruct (Nat.leb k (length log)); [discriminate|apply C]. Qed.

(** where a program is when it is continued: at a point of its uninterrupted run *)
Lemma history_reached hf host sg ff z W gs F name f d args ss how :
  lossless z -> LoadSpec.presents sg W F -> LoadSpec.sound W gs -> handled W -> Forall one_result (sm_funcs (w_code W)) -> known_module (w_code W) = true ->
  forallb (modest (w_code W)) (sm_funcs (w_code W)) = true ->
  In (name, ExFunc f) (w_exports W) -> nth_error (sm_funcs (w_code W)) f = Some (SWasm d) ->
  Forall2 has_type (fst (sf_type d)) args -> Forall2 (written ff) args ss -> in_range W gs -> hostfp_ok hf -> host_ok host -> movable (w_code W) gs host ->
  history hf host sg ff z F name ss how ->
  exists I M c0 j c, instance sg F = Some I /\ compile (w_code W) = Some M /\ Check.small M = true /\ initial M (mi_inst I) f args = Ok c0 /\ c_log c0 = [] /\
    steps hf host M j c0 = inl c /\ c_log c = calls_before how.
Proof.
  intros Z P S H O KN MD EX N TA WR IR HF HO MV HI.
  destruct (history_state hf host sg ff z W gs F name f d args ss Z P S H O KN MD EX N TA WR HF HO IR MV how HI) as (I & M & st0 & st & EI & EM & C & ST & MG & _ & _ & SE).
  destruct (C42_modest _ (so_code _ _ S) O KN MD) as (M' & C' & Sm). assert (M' = M) by congruence. subst M'.
  destruct (start_initial _ _ _ _ _ ST) as (c0 & I0 & RL0).
  destruct (migrated_rel _ _ _ _ _ _ _ _ _ (compile_ok _ _ C) ST I0 MG) as (j & c & SJ & RL & _).
  assert (L0 : c_log c0 = []).
  { unfold initial in I0. destruct (nth_error (md_funcs M) f) as [[fd|]|]; try discriminate. destruct (Nat.eqb _ _); [|discriminate]. now injection I0 as <-. }
  assert (LC : c_log c = r_log st). { destruct RL as (c1 & CO & CS). rewrite <- (cs_log _ _ CS). unfold config_of in CO. destruct (r_frames st) as [|[? ?] ?]; [discriminate|]. now injection CO as <-. }
  assert (LS : r_log st = calls_before how).
  { specialize (SE (Build_penv true false (fun _ => false)) LoopStyle false 0 0). unfold session in SE. rewrite EI, EM in SE. destruct how as [|b log t].
    - destruct (get_export_func I name) as [f'|]; [|discriminate SE]. destruct (parse_params ff ss) as [args'|]; [|discriminate SE].
      destruct (start M (mi_inst I) f' args') as [s0|t|] eqn:ST'; try discriminate SE. injection SE as _ _ _ E1 _. cbn. rewrite <- E1.
      unfold start in ST'. destruct (nth_error (md_funcs M) f') as [[fd|]|]; try discriminate ST'. destruct (Nat.eqb _ _); [|discriminate ST']. now injection ST' as <-.
    - destruct (restore_bytes z M (mi_inst I) b log t) as [st'| | |] eqn:RB; try discriminate SE.
      assert (RS : exists g, restore M (mi_inst I) g log t = Some st').
      { unfold restore_bytes in RB. destruct (get c_file b) as [[fl r]|]; [|discriminate RB]. destruct (restore M (mi_inst I) (image_of z fl) log t) as [s0|] eqn:RS; [|match type of RB with context[restore ?a ?b ?c ?d ?e] => destruct (restore a b c d e) end; discriminate RB].
        destruct (Nat.ltb _ _); [discriminate RB|]. injection RB as <-. eauto. }
      destruct RS as (g & RS). apply restore_log in RS. injection SE as _ _ _ E1 _. cbn. now rewrite <- E1. }
  exists I, M, c0, j, c. repeat (split; [solve [auto]|]). congruence.
Qed.

(** A program, ending or not, that has been stopped and continued any number of times ([how]): the host calls
    made so far are calls the standard's execution makes, and the next process goes on to make exactly the
    calls the standard's execution makes ([stopping]: observed by ending the program at its [length l]-th call,
    as in C58). *)
Theorem C65_moved_partial : forall hf host sg ff z W gs F name f d args ss how E D,
  lossless z -> LoadSpec.presents sg W F -> LoadSpec.sound W gs -> handled W -> Forall one_result (sm_funcs (w_code W)) -> Restrict.within (w_code W) = true ->
  forallb (modest (w_code W)) (sm_funcs (w_code W)) = true ->
  In (name, ExFunc f) (w_exports W) -> nth_error (sm_funcs (w_code W)) f = Some (SWasm d) ->
  Forall2 has_type (fst (sf_type d)) args -> Forall2 (written ff) args ss -> in_range W gs -> hostfp_ok hf -> host_ok host -> movable (w_code W) gs host ->
  history hf host sg ff z F name ss how ->
  exists I fds fs, instance sg F = Some I /\ instance_of (with_code W fds) fs gs I /\
    ((forall n, clear hf host (w_code W) n f args (mi_inst I)) ->
     (calls_before how <> [] -> exists n, invoke (wasm_prims hf) (stopping (length (calls_before how)) host) (w_code W) n f args (mi_inst I) = OExit 0 (calls_before how)) /\
     forall l, length (calls_before how) < length l ->
      ((exists k n, command hf (stopping (length l) host) sg ff z how E D false k n F name ss = Exit 0 [] l) <->
       (exists n, invoke (wasm_prims hf) (stopping (length l) host) (w_code W) n f args (mi_inst I) = OExit 0 l))).
Proof.
  intros hf host sg ff z W gs F name f d args ss how E D Z P S H O WI MD EX N TA WR IR HF HO MV HI.
  destruct (C58_main_partial hf host sg ff E D false W gs F name f d args ss P S H O WI MD (or_introl eq_refl) EX N TA WR) as (I & fds & fs & EI & IO & T).
  exists I, fds, fs. split; auto. split; auto. intros CL. split.
  - intros NE. destruct (history_reached hf host sg ff z W gs F name f d args ss how Z P S H O (within_known _ WI) MD EX N TA WR IR HF HO MV HI) as (I' & M & c0 & j & c & EI' & C & Sm & I0 & L0 & SJ & LC).
    assert (I' = I) by congruence. subst I'.
    destruct (C58_host_calls_partial hf host _ M (so_code _ _ S) WI C Sm f d args (mi_inst I) N TA CL) as (c1 & I1 & K).
    assert (c1 = c0) by congruence. subst c1. apply (K _ NE).
    destruct (made_before hf host M j c0 c SJ) as (m & c1 & S1 & N1); [rewrite LC, L0; exact NE|]. exists m, c1. rewrite <- LC. auto.
  - intros l LT. rewrite <- (T CL l); [|intros ->; cbn in LT; lia].
    symmetry. refine (history_report hf (stopping (length l) host) sg ff z W gs F name f d args ss Z P S H O (within_known _ WI) MD EX N TA WR HF (stopping_ok _ _ HO) IR (stopping_movable _ _ _ _ MV) how E D E D (Exit 0 [] l) _ _); [|discriminate].
    now apply history_stopping.
Qed.

(** The same on a WASI host: a program whose calls are proper, given the words of its command line, stopped
    and continued any number of times, makes the calls it would make running directly on the host; every one
    of them reaches the host once. *)
Theorem C65_server_partial : forall hf sys file l env ff z E D W gs F name f d args ss how,
  hostfp_ok hf -> polite sys -> byte_replies sys -> lossless z ->
  line_ok l -> Forall bytes_ok (file :: line_texts l) -> Forall bytes_ok env ->
  let words := file :: filter nonempty (line_texts l) in
  (total words < 2 ^ 31)%Z -> (total env < 2 ^ 31)%Z ->
  LoadSpec.presents expected_type W F -> LoadSpec.sound W gs -> handled W -> Forall one_result (sm_funcs (w_code W)) -> Restrict.within (w_code W) = true ->
  forallb (modest (w_code W)) (sm_funcs (w_code W)) = true -> in_range W gs ->
  code_movable (w_code W) -> Forall no_reference gs ->
  In (name, ExFunc f) (w_exports W) -> nth_error (sm_funcs (w_code W)) f = Some (SWasm d) ->
  Forall2 has_type (fst (sf_type d)) args -> Forall2 (written ff) args ss ->
  let host := passthrough sys (argv file (Some (line_src l))) env in
  history hf host expected_type ff z F name ss how ->
  exists I fds fs, instance expected_type F = Some I /\ instance_of (with_code W fds) fs gs I /\
    ((forall n, clear hf (direct sys words env) (w_code W) n f args (mi_inst I)) ->
     (calls_before how <> [] -> Forall (proper words env) (calls_before how) ->
        exists n, invoke (wasm_prims hf) (stopping (length (calls_before how)) (direct sys words env)) (w_code W) n f args (mi_inst I) = OExit 0 (calls_before how)) /\
     forall calls, length (calls_before how) < length calls -> Forall (proper words env) calls ->
      ((exists k n, command hf (stopping (length calls) host) expected_type ff z how E D false k n F name ss = Exit 0 [] calls) <->
       (exists n, invoke (wasm_prims hf) (stopping (length calls) (direct sys words env)) (w_code W) n f args (mi_inst I) = OExit 0 calls)) /\
      made sys words env calls = flat_map (scalls words env) calls).
Proof.
  intros hf sys file l env ff z E D W gs F name f d args ss how HF PS BS Z LO BW BE words TW TE P S H O WI MD IR CM GR EX N TA WR host HI.
  assert (EW : argv file (Some (line_src l)) = words) by (apply C33_argv; auto).
  assert (BA : Forall bytes_ok words).
  { inversion BW as [|? ? B1 B2]; subst. constructor; auto. apply Forall_forall. intros x I. apply filter_In in I as [I _]. rewrite Forall_forall in B2. auto. }
  unfold host in *. clear host. rewrite EW in HI |- *.
  pose proof (passthrough_ok sys words env BS BA BE) as PO.
  assert (HO : host_ok (passthrough sys words env)) by (intros log o ws X; destruct (PO log o ws X) as [V B]; split; auto; intros v Y; apply (V v Y)).
  assert (MV : movable (w_code W) gs (passthrough sys words env)).
  { split; auto. intros log v ws X r ->. destruct (PO log _ ws X) as [V _]. destruct (V _ eq_refl) as [_ K]. discriminate K. }
  destruct (C58_transparent_partial hf sys words env ff E D false W gs F name f d args ss PS TW TE P S H O WI MD (or_introl eq_refl) EX N TA WR) as (I & fds & fs & EI & IO & T).
  exists I, fds, fs. split; auto. split; auto. intros CL. split.
  - intros NE PR. destruct (history_reached hf (passthrough sys words env) expected_type ff z W gs F name f d args ss how Z P S H O (within_known _ WI) MD EX N TA WR IR HF HO MV HI) as (I' & M & c0 & j & c & EI' & C & Sm & I0 & L0 & SJ & LC).
    assert (I' = I) by congruence. subst I'.
    destruct (C58_host_calls_partial hf (direct sys words env) _ M (so_code _ _ S) WI C Sm f d args (mi_inst I) N TA CL) as (c1 & I1 & K).
    assert (c1 = c0) by congruence. subst c1. apply (K _ NE).
    assert (SJ' : steps hf (direct sys words env) M j c0 = inl c).
    { rewrite <- SJ. apply (steps_hosts hf (passthrough sys words env) (direct sys words env) M (Forall (proper words env)) (A_closed words env) (fun l X => eq_sym (proj2 (same_answers sys words env PS TW TE l X))) j c0 (c_log c)); [now rewrite SJ|now rewrite LC]. }
    destruct (made_before hf (direct sys words env) M j c0 c SJ') as (m & c1 & S1 & N1); [rewrite LC, L0; exact NE|]. exists m, c1. rewrite <- LC. auto.
  - intros calls LT PR. destruct (T CL calls) as [T1 T2]; [intros ->; cbn in LT; lia|exact PR|]. split; [|exact T2]. rewrite <- T1.
    symmetry. refine (history_report hf (stopping (length calls) (passthrough sys words env)) expected_type ff z W gs F name f d args ss Z P S H O (within_known _ WI) MD EX N TA WR HF (stopping_ok _ _ HO) IR (stopping_movable _ _ _ _ MV) how E D E D (Exit 0 [] calls) _ _); [|discriminate].
    now apply history_stopping.
Qed.

(** An example: the program of C58_example, which calls sched_yield for ever, run as [chiwawa hi --app-args a],
    stopped after its first call. *)
Definition host_y : hostfn := passthrough sys2 (argv hi (Some (line_src line_a))) [].
Definition st_y : rstate :=
  match session hf0 host_y expected_type ff0 zl Fresh (asked 5 true) LoopStyle true 60 60 F2 "_start" [] with
  | inr (RCheckpoint st) => st
  | _ => {| r_rf := RF (Six [] [] [] [] [] []) [] (Six 0 0 0 0 0 0); r_frames := []; r_inst := inst0; r_log := []; r_t := 0 |}
  end.
Definition b_y : list Z := match checkpoint_bytes zl st_y with Some b => b | None => [] end.
Definition how_y : begin := From b_y (r_log st_y) (r_t st_y).
Lemma sys2_bytes : byte_replies sys2. Proof. intros f a m past i y. cbn. auto. Qed.
Lemma W2_range : in_range W2 [].
Proof.
  split; [vm_compute; reflexivity|constructor| |reflexivity|].
  - repeat constructor; unfold is_byte; lia.
  - intros d [H|[H|[]]]; try discriminate H. injection H as <-. split; reflexivity.
Qed.
Lemma y_stopped : history hf0 host_y expected_type ff0 zl F2 "_start" [] how_y.
Proof.
  refine (HNext hf0 host_y expected_type ff0 zl F2 "_start" [] Fresh (asked 5 true) LoopStyle 60 60 st_y b_y (HFresh _ _ _ _ _ _ _ _) _ _ _).
  - unfold st_y. assert (K : match session hf0 host_y expected_type ff0 zl Fresh (asked 5 true) LoopStyle true 60 60 F2 "_start" [] with inr (RCheckpoint _) => true | _ => false end = true) by (vm_compute; reflexivity).
    destruct (session hf0 host_y expected_type ff0 zl Fresh (asked 5 true) LoopStyle true 60 60 F2 "_start" []) as [?|[]]; try discriminate K. reflexivity.
  - unfold b_y. assert (K : match checkpoint_bytes zl st_y with Some _ => true | None => false end = true) by (vm_compute; reflexivity).
    destruct (checkpoint_bytes zl st_y); [reflexivity|discriminate K].
  - unfold short, FileSpec.u32. apply Z.ltb_lt. vm_compute. reflexivity.
Qed.
Definition four_yields (o : Wasm.out) : bool := match o with OExit z l => Z.eqb z 0 && Nat.eqb (length l) 4 && forallb yields l | _ => false end.
Lemma run_y : four_yields (invoke (wasm_prims hf0) (stopping 4 (direct sys2 words_hi [])) (w_code W2) 19 1 [] (mi_inst I2)) = true.
Proof. vm_compute. reflexivity. Qed.
Lemma y_before : forallb yields (r_log st_y) && Nat.eqb (length (r_log st_y)) 2 = true. Proof. vm_compute. reflexivity. Qed.
(** two calls made before the checkpoint; the process continuing from the file makes the third and the fourth *)
Example C65_example : byte_replies sys2 /\ in_range W2 [] /\ code_movable (w_code W2) /\ history hf0 host_y expected_type ff0 zl F2 "_start" [] how_y /\
  length (calls_before how_y) = 2 /\ Forall (proper words_hi []) (calls_before how_y) /\
  (forall n, clear hf0 (direct sys2 words_hi []) (w_code W2) n 1 [] (mi_inst I2)) /\
  exists calls, length calls = 4 /\ Forall (proper words_hi []) calls /\
    invoke (wasm_prims hf0) (stopping (length calls) (direct sys2 words_hi [])) (w_code W2) 19 1 [] (mi_inst I2) = OExit 0 calls /\
    exists k n, command hf0 (stopping (length calls) host_y) expected_type ff0 zl how_y E0 TailCall false k n F2 "_start" [] = Exit 0 [] calls.
Proof.
  split; [exact sys2_bytes|]. split; [exact W2_range|]. assert (CM : code_movable (w_code W2)) by (vm_compute; reflexivity). split; [exact CM|]. split; [exact y_stopped|].
  pose proof y_before as YB. apply andb_prop in YB as [YB YL]. apply Nat.eqb_eq in YL. unfold how_y at 1 2. cbn [calls_before]. split; [exact YL|].
  split; [apply Forall_forall; intros e I; rewrite forallb_forall in YB; apply yields_proper, YB, I|]. split; [intros n; apply spins_clear|].
  assert (LO : line_ok line_a) by (repeat constructor; cbn; intuition lia).
  pose proof run_y as R.
  assert (G : exists l, invoke (wasm_prims hf0) (stopping 4 (direct sys2 words_hi [])) (w_code W2) 19 1 [] (mi_inst I2) = OExit 0 l /\ length l = 4 /\ Forall (proper words_hi []) l).
  { destruct (invoke _ _ _ _ _ _ _) as [| | | |z l| | |]; try discriminate R. cbn [four_yields] in R. apply andb_prop in R as [R P]. apply andb_prop in R as [Z0 L].
    apply Z.eqb_eq in Z0 as ->. apply Nat.eqb_eq in L. exists l. split; [reflexivity|]. split; [exact L|]. apply Forall_forall. intros e I. rewrite forallb_forall in P. apply yields_proper, P, I. }
  destruct G as (l & G & L & PR). exists l. split; [exact L|]. split; [exact PR|]. rewrite L. split; [exact G|].
  assert (EI : instance expected_type F2 = Some I2). { unfold I2. assert (K : match instance expected_type F2 with Some _ => true | None => false end = true) by (vm_compute; reflexivity). destruct (instance expected_type F2); [reflexivity|discriminate K]. }
  destruct (C65_server_partial hf0 sys2 hi line_a [] ff0 zl E0 TailCall W2 [] F2 "_start" 1 {| sf_type := ([], []); sf_locals := []; sf_body := seqc [loop [] [] [CCall 0; drop; CBr 0]] |} [] []
      how_y hf0_ok sys2_polite sys2_bytes zl_lossless LO (ltac:(repeat constructor; unfold is_byte; lia)) (Forall_nil _) eq_refl eq_refl F2_presents W2_sound W2_handled (ltac:(repeat constructor)) eq_refl eq_refl
      W2_range CM (Forall_nil _) (or_introl eq_refl) eq_refl (Forall2_nil _) (Forall2_nil _) y_stopped) as (I' & fds & fs & EI' & _ & K).
  rewrite EI in EI'. pose proof (f_equal (fun o => match o with Some x => x | None => I2 end) EI') as E1. cbv beta iota in E1. rewrite <- E1 in K. clear EI EI' R E1.
  destruct (K (spins_clear words_hi [] hf0 (mi_inst I2))) as [_ K2].
  assert (LT : length (calls_before how_y) < length l). { unfold how_y. cbn [calls_before]. rewrite YL, L. apply Nat.leb_le. reflexivity. }
  destruct (K2 l LT PR) as [K3 _]. rewrite L in K3. apply K3. exists 19. exact G.
Qed.
