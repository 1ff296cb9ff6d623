(** Dispatch, polling, checkpoint and restore: C27 C28 C29 C30 C31 C39 C41 C46. *)
From Coq Require Import ZArith List Bool Lia.
From Verif Require Import Word Value Float Mem Store Regs IR Machine Wasm Decoder Check RegsProofs Layout Properties_Layout Examples ExecFacts
  SimState Runtime RuntimeProofs MigrationProofs.
Import ListNotations.
Open Scope nat_scope.

(** ** what runs can start from *)
(** Every state a process can begin to run: a function called with arguments in some instance, or
    a state restored - into any instance whatever - from a checkpoint of such a run. *)
Inductive runnable (hf : hostfp) (M : modul) : rstate -> Prop :=
| RunStart s f args st : start M s f args = Ok st -> runnable hf M st
| RunRestored host E D en k n st st1 g s log t st2 : runnable hf M st -> run hf host M E D en k n st = RCheckpoint st1 ->
    checkpoint st1 = Some g -> restore M s g log t = Some st2 -> runnable hf M st2.

Lemma restored_levels M s st g log t st' c : checkpoint st = Some g -> restore M s g log t = Some st' -> rel st c -> levels M c ->
  exists c', rel st' c' /\ levels M c'.
Proof.
  intros CK RS (c1 & CO & CS) LV. pose proof (levels_sim M _ _ (csim_sym _ _ CS) LV) as ((fd & NF & LVC) & FA).
  unfold checkpoint in CK. destruct (ser_state st); [|discriminate]. injection CK as <-. unfold restore in RS. cbn [g_mem g_globals g_funcs g_rf g_frames] in RS.
  destruct (match i_mem s with Some _ => _ | None => _ end) as [s1|]; [|discriminate].
  destruct (if Nat.eqb _ _ then _ else _) as [s2|]; [|discriminate]. destruct (forallb _ _); [|discriminate]. injection RS as <-.
  unfold config_of in CO. destruct (r_frames st) as [|[b f] rest]; [discriminate|]. injection CO as <-. cbn [c_fn c_v c_callers snd] in *.
  eexists. split.
  - eexists. split; [reflexivity|]. apply csim_refl. reflexivity.
  - split; [exists fd; split; [exact NF|exact LVC]|]. cbn [c_callers]. clear -FA. induction rest as [|[b' f'] rest IH]; cbn; constructor; inversion FA; subst; auto.
Qed.
Lemma runnable_levels hf M st : mod_ok M -> runnable hf M st -> exists c, rel st c /\ levels M c.
Proof.
  intros MO R. induction R as [s f args st ST|host E D en k n st st1 g s log t st2 R (c & RL & LV) RUN CK RS].
  - destruct (start_initial _ _ _ _ _ ST) as (c & I & RL). exists c. split; auto. eapply levels_initial; eauto.
  - unfold run in RUN. pose proof (run_sound hf host M E D en MO k n (armed en st) c) as S. change (run_loop hf host M E D en k n (armed en st) = RCheckpoint st1) in RUN. rewrite RUN in S.
    destruct S as (j & c' & S1 & S2); [now apply rel_armed|auto|]. eapply restored_levels; eauto. eapply levels_steps; eauto.
Qed.
Lemma run_agree hf host M E D D' en k n : mod_ok M -> forall st c, rel st c -> levels M c ->
  run_loop hf host M E D en k n st = run_loop hf host M E D' en k n st.
Proof.
  intros MO. induction n as [|n IH]; intros st c RL LV; cbn [run_loop]; auto.
  destruct RL as (c1 & CO & CS). pose proof (levels_sim M _ _ (csim_sym _ _ CS) LV) as LV1. pose proof (csim_ptr _ _ CS) as [P1 _].
  assert (EQ : run_round hf host M E D en k st = run_round hf host M E D' en k st).
  { unfold run_round. unfold config_of in CO. destruct (r_frames st) as [|[b f] rest]; [discriminate|]. injection CO as <-. destruct LV1 as ((fd & NF & LVC) & _). cbn [c_fn c_v] in *. rewrite NF.
    rewrite !dispatch_advance by eauto. reflexivity. }
  rewrite <- EQ. pose proof (round_sound hf host M E D en MO k st c1 _ CO LV1 P1 eq_refl) as RS.
  destruct (run_round hf host M E D en k st) as [[st'|? ? ?|? ?|? ?|?|]|]; auto. destruct RS as (j & c' & S1 & S2). eapply IH; eauto. eapply levels_steps; eauto.
Qed.

(** ** C27 *)
(** Every translated module, every state a run can start from, every host, environment and
    checkpoint setting, every length of run: the two dispatchers give the same result - outcome,
    final instance, host calls, and the state at which a checkpoint request is noticed. *)
Theorem C27_dispatchers_agree : forall hf host SM M E en k n st, compile SM = Some M -> runnable hf M st ->
  run hf host M E LoopStyle en k n st = run hf host M E TailCall en k n st.
Proof.
  intros hf host SM M E en k n st CM R. apply compile_ok in CM. destruct (runnable_levels hf M st CM R) as (c & RL & LV).
  unfold run. eapply run_agree; eauto. now apply (rel_armed en st c).
Qed.

(** ** C41, second half: the run loop with either dispatcher is the machine of C41_budget *)
Theorem C41_dispatcher : forall hf host SM M s f args c0 st0 E D en, compile SM = Some M ->
  initial M s f args = Ok c0 -> start M s f args = Ok st0 -> (en = false \/ forall t, request E t = false) ->
  forall o, (exists m o', steps hf host M m c0 = inr o' /\ erase_out o' = o) <-> (exists k n, observe (run hf host M E D en k n st0) = Some o).
Proof.
  intros hf host SM M s f args c0 st0 E D en CM I0 S0 Q o. apply compile_ok in CM. destruct (start_initial _ _ _ _ _ S0) as (c & I & RL). rewrite I0 in I. injection I as <-.
  apply (run_complete hf host M E D en CM (armed en st0) c0).
  - now apply rel_armed.
  - eapply levels_initial; eauto.
  - intros k n st'. apply run_quiet; [|exact Q]. apply armed_flags; [|exact Q].
    unfold start in S0. destruct (nth_error _ _) as [[fd|]|]; try discriminate. destruct (Nat.eqb _ _); [|discriminate]. injection S0 as <-. repeat constructor.
Qed.

(** starting a run fails alike in both *)
Theorem C41_start : forall M s f args, match start M s f args, initial M s f args with
  | Ok st, Ok c => rel st c | Trap t, Trap t' => t = t' | _, _ => False end.
Proof.
  intros M s f args. destruct (start M s f args) as [st|t|] eqn:S0.
  - destruct (start_initial _ _ _ _ _ S0) as (c & -> & R). exact R.
  - unfold start, initial in *. destruct (nth_error _ _) as [[fd|]|]; try congruence. destruct (Nat.eqb _ _); congruence.
  - unfold start in S0. destruct (nth_error _ _) as [[fd|]|]; try discriminate. destruct (Nat.eqb _ _); discriminate.
Qed.

(** ** C39 *)
Lemma runnable_flags hf M st : runnable hf M st -> flags st (fun b => b = false).
Proof.
  intros R. destruct R as [s f args st ST|host E D en k n st st1 g s log t st2 R RUN CK RS].
  - unfold start in ST. destruct (nth_error _ _) as [[fd|]|]; try discriminate. destruct (Nat.eqb _ _); [|discriminate]. injection ST as <-. repeat constructor.
  - unfold checkpoint in CK. destruct (ser_state st1); [|discriminate]. injection CK as <-. unfold restore in RS. destruct (match i_mem s with Some _ => _ | None => _ end) as [s1|]; [|discriminate].
    destruct (if Nat.eqb _ _ then _ else _) as [s2|]; [|discriminate]. destruct (forallb _ _); [|discriminate]. injection RS as <-.
    unfold flags. cbn [r_frames]. apply Forall_forall. intros x IN. apply in_map_iff in IN as (p & <- & _). reflexivity.
Qed.
(** For arbitrary code, fresh or restored: without the checkpoint option the environment (either
    way of polling, any trigger file at any time) makes no difference and never stops the run. *)
Theorem C39_disabled : forall hf host M E E' D k n st, runnable hf M st ->
  run hf host M E D false k n st = run hf host M E' D false k n st /\
  (forall st', run hf host M E D false k n st <> RCheckpoint st').
Proof.
  intros hf host M E E' D k n st R. pose proof (armed_flags false st (fun b => b = false) (runnable_flags hf M st R) eq_refl) as F. split.
  - apply run_off. exact F.
  - apply run_quiet; [|now left]. unfold flags in *. eapply Forall_impl; [|exact F]. intros x ->. now left.
Qed.
(** with the option and a request the same run does stop *)
Definition p_count := func [TI32] [TI32] [] [loop [] [] [get 0; i32c 1; isub; tee 0; CBrIf 0]; get 0].
Definition m_count : smodule := {| sm_funcs := [p_count]; sm_types := [] |}.
Definition asked (at_poll : nat) (threads : bool) : penv := {| atomics := threads; has_wasi := true; request := fun t => Nat.leb at_poll t |}.
Definition never : penv := {| atomics := false; has_wasi := true; request := fun _ => false |}.
Example C39_example : exists M st, compile m_count = Some M /\ start M inst0 0 [VI32 9] = Ok st /\ runnable hf0 M st /\
  (exists st', run hf0 host0 M (asked 4 true) LoopStyle true 100 100 st = RCheckpoint st') /\
  run hf0 host0 M (asked 4 true) LoopStyle false 100 100 st = RDone [VI32 0] inst0 [].
Proof.
  do 2 eexists. split; [vm_compute; reflexivity|]. split; [vm_compute; reflexivity|]. split; [eapply (RunStart _ _ inst0 0 [VI32 9]); vm_compute; reflexivity|].
  split; [eexists; vm_compute; reflexivity|vm_compute; reflexivity].
Qed.

(** ** C28 *)
(** A history of a program: started, then any number of times stopped by a checkpoint - wherever,
    with either dispatcher and any environment - and restored into a fresh instance [s].  The
    tables and data segments must be as in a fresh instance at each checkpoint. *)
Inductive migrated (hf : hostfp) (host : hostfn) (M : modul) (s : inst) (st0 : rstate) : rstate -> Prop :=
| MigNone : migrated hf host M s st0 st0
| MigMore E D en k n st st1 g st2 : migrated hf host M s st0 st -> run hf host M E D en k n st = RCheckpoint st1 ->
    checkpoint st1 = Some g -> i_tables (r_inst st1) = i_tables s -> i_datas (r_inst st1) = i_datas s ->
    restore M s g (r_log st1) (r_t st1) = Some st2 -> migrated hf host M s st0 st2.

Lemma rel_inst st c : rel st c -> inst_sim (r_inst st) (d_inst (s_d (c_v c))).
Proof. intros (c1 & CO & [[[_ _ I _ _] _ _ _] _ _ _ _]). unfold config_of in CO. destruct (r_frames st) as [|[b f] r]; [discriminate|]. injection CO as <-. exact I. Qed.
Lemma inst_sim_shape s s' : inst_sim s s' -> shape s s'.
Proof.
  unfold inst_sim, erase, shape. intros H. injection H as H G _ _. split; [|congruence]. assert (K : option_map m_max (option_map erase_mem (i_mem s)) = option_map m_max (option_map erase_mem (i_mem s'))) by now rewrite H.
  destruct (i_mem s), (i_mem s'); cbn in *; congruence.
Qed.
Lemma shape_sym a b : shape a b -> shape b a. Proof. intros []. split; congruence. Qed.
Lemma migrated_rel hf host M s f args st0 st c0 : mod_ok M -> start M s f args = Ok st0 -> initial M s f args = Ok c0 -> migrated hf host M s st0 st ->
  exists j c, steps hf host M j c0 = inl c /\ rel st c /\ flags st (fun b => b = false).
Proof.
  intros MO S0 I0 MG. destruct (start_initial _ _ _ _ _ S0) as (c0' & I & RL0). rewrite I0 in I. injection I as <-.
  induction MG as [|E D en k n st st1 g st2 MG (j & c & ST & RL & FL) RUN CK TB DT RS].
  - exists 0, c0. split; [reflexivity|]. split; auto. eapply (runnable_flags hf M). econstructor; eauto.
  - pose proof (levels_initial _ _ _ _ _ MO I0) as L0. pose proof (levels_steps hf host M MO _ _ _ L0 ST) as LV.
    pose proof (run_sound hf host M E D en MO k n (armed en st) c) as S. change (run_loop hf host M E D en k n (armed en st) = RCheckpoint st1) in RUN. rewrite RUN in S.
    destruct S as (i & c1 & S1 & S2); [now apply rel_armed|auto|]. exists (j + i), c1. split; [rewrite (steps_app hf host M _ _ _ _ ST); exact S1|].
    assert (SH : shape s (r_inst st1)).
    { eapply shape_trans; [|apply shape_sym, inst_sim_shape, (rel_inst _ _ S2)]. eapply shape_trans; [|eapply steps_shape; exact S1]. eapply shape_trans; [|eapply steps_shape; exact ST].
      unfold initial in I0. destruct (nth_error _ _) as [[fd|]|]; try discriminate. destruct (Nat.eqb _ _); [|discriminate]. injection I0 as <-. apply shape_refl. }
    destruct (restore_checkpoint M s st1 g c1 (r_log st1) (r_t st1) CK S2 (levels_steps hf host M MO _ _ _ LV S1) SH (eq_sym TB) (eq_sym DT) eq_refl) as (st2' & RS' & RL' & FL' & _).
    rewrite RS in RS'. injection RS' as <-. auto.
Qed.
(** The program, however often moved, ends as the program never stopped does: same results, same
    final memory, globals, tables and segments, same host calls with the same arguments and memory;
    and it ends iff that one does.  The two may use different dispatchers.
    Missing: runs that change tables or drop segments (false there: C29_*_refuted). *)
Theorem C28_resume_partial : forall hf host SM M s f args st0 st, compile SM = Some M -> start M s f args = Ok st0 -> migrated hf host M s st0 st ->
  forall E D E' D' o, (exists k n, observe (run hf host M E D false k n st0) = Some o) <-> (exists k n, observe (run hf host M E' D' false k n st) = Some o).
Proof.
  intros hf host SM M s f args st0 st CM S0 MG E D E' D' o. pose proof (compile_ok _ _ CM) as MO. destruct (start_initial _ _ _ _ _ S0) as (c0 & I0 & RL0).
  destruct (migrated_rel _ _ _ _ _ _ _ _ _ MO S0 I0 MG) as (j & c & ST & RL & FL). pose proof (levels_initial _ _ _ _ _ MO I0) as L0. pose proof (levels_steps hf host M MO _ _ _ L0 ST) as LV.
  rewrite <- (C41_dispatcher hf host SM M s f args c0 st0 E D false CM I0 S0 (or_introl eq_refl) o).
  change (run hf host M E' D' false) with (fun k n st => run_loop hf host M E' D' false k n (armed false st)). cbv beta.
  rewrite <- (run_complete hf host M E' D' false MO (armed false st) c).
  - split; intros (m & o' & H & E0).
    + exists m, o'. split; auto. destruct (Nat.lt_ge_cases m j) as [L|L].
      * exfalso. destruct (steps_le hf host M j m c0 c ltac:(lia) ST) as (c2 & X). congruence.
      * pose proof (steps_stable hf host M m c0 o' j H) as X. rewrite Nat.add_comm, (steps_app hf host M _ _ _ _ ST) in X. exact X.
    + exists (j + m), o'. split; auto. rewrite (steps_app hf host M _ _ _ _ ST). exact H.
  - now apply rel_armed.
  - exact LV.
  - intros k n st'. apply run_quiet; [|now left]. eapply Forall_impl; [|apply (armed_flags false st (fun b => b = false)); auto]. intros x ->. now left.
Qed.
(** restoring never fails after a checkpoint was written *)
Theorem C28_restore_succeeds : forall hf host SM M s f args st0 st E D en k n st1 g, compile SM = Some M -> start M s f args = Ok st0 -> migrated hf host M s st0 st ->
  run hf host M E D en k n st = RCheckpoint st1 -> checkpoint st1 = Some g ->
  i_tables (r_inst st1) = i_tables s -> i_datas (r_inst st1) = i_datas s ->
  exists st2, restore M s g (r_log st1) (r_t st1) = Some st2.
Proof.
  intros hf host SM M s f args st0 st E D en k n st1 g CM S0 MG RUN CK TB DT. pose proof (compile_ok _ _ CM) as MO. destruct (start_initial _ _ _ _ _ S0) as (c0 & I0 & RL0).
  destruct (migrated_rel _ _ _ _ _ _ _ _ _ MO S0 I0 MG) as (j & c & ST & RL & FL). pose proof (levels_initial _ _ _ _ _ MO I0) as L0. pose proof (levels_steps hf host M MO _ _ _ L0 ST) as LV.
  pose proof (run_sound hf host M E D en MO k n (armed en st) c) as S. change (run_loop hf host M E D en k n (armed en st) = RCheckpoint st1) in RUN. rewrite RUN in S.
  destruct S as (i & c1 & S1 & S2); [now apply rel_armed|auto|].
  assert (SH : shape s (r_inst st1)).
  { eapply shape_trans; [|apply shape_sym, inst_sim_shape, (rel_inst _ _ S2)]. eapply shape_trans; [|eapply steps_shape; exact S1]. eapply shape_trans; [|eapply steps_shape; exact ST].
    unfold initial in I0. destruct (nth_error _ _) as [[fd|]|]; try discriminate. destruct (Nat.eqb _ _); [|discriminate]. injection I0 as <-. apply shape_refl. }
  destruct (restore_checkpoint M s st1 g c1 (r_log st1) (r_t st1) CK S2 (levels_steps hf host M MO _ _ _ LV S1) SH (eq_sym TB) (eq_sym DT) eq_refl) as (st2' & RS' & _). eauto.
Qed.
(** For modules whose code contains no table.get, table.set, table.fill and data.drop (and no
    reference is passed in) nothing is left to assume: every checkpoint of every migrated run is
    written, is restored, and continues the history. *)
Theorem C28_plain_modules : forall hf host SM M s f args st0 st E D en k n st1, compile SM = Some M -> plain M -> plain_host host ->
  Forall ser args -> Forall ser (i_globals s) -> start M s f args = Ok st0 -> migrated hf host M s st0 st ->
  run hf host M E D en k n st = RCheckpoint st1 ->
  exists g st2, checkpoint st1 = Some g /\ restore M s g (r_log st1) (r_t st1) = Some st2 /\ migrated hf host M s st0 st2.
Proof.
  intros hf host SM M s f args st0 st E D en k n st1 CM PM PH PA PG S0 MG RUN. pose proof (compile_ok _ _ CM) as MO. destruct (start_initial _ _ _ _ _ S0) as (c0 & I0 & RL0).
  destruct (migrated_rel _ _ _ _ _ _ _ _ _ MO S0 I0 MG) as (j & c & ST & RL & FL). pose proof (levels_initial _ _ _ _ _ MO I0) as L0. pose proof (levels_steps hf host M MO _ _ _ L0 ST) as LV.
  pose proof (run_sound hf host M E D en MO k n (armed en st) c) as S. pose proof RUN as RUN'. change (run_loop hf host M E D en k n (armed en st) = RCheckpoint st1) in RUN'. rewrite RUN' in S.
  destruct S as (i & c1 & S1 & S2); [now apply rel_armed|auto|].
  assert (SC : steps hf host M (j + i) c0 = inl c1) by (rewrite (steps_app hf host M _ _ _ _ ST); exact S1).
  assert (SR : cser c1) by exact (steps_ser hf host M (j + i) PM PH c0 c1 (initial_ser _ _ _ _ _ PA PG I0) SC).
  destruct (ser_checkpoint st1 c1 S2 SR) as (g & CK).
  destruct (steps_plain hf host M _ _ _ PM SC) as [T1 T2]. pose proof (rel_inst _ _ S2) as IS. unfold inst_sim, erase in IS. injection IS as _ _ IT ID.
  assert (IN0 : d_inst (s_d (c_v c0)) = s). { unfold initial in I0. destruct (nth_error _ _) as [[fd|]|]; try discriminate. destruct (Nat.eqb _ _); [|discriminate]. injection I0 as <-. reflexivity. }
  rewrite IN0 in T1, T2. assert (TB : i_tables (r_inst st1) = i_tables s) by congruence. assert (DT : i_datas (r_inst st1) = i_datas s) by congruence.
  destruct (C28_restore_succeeds hf host SM M s f args st0 st E D en k n st1 g CM S0 MG RUN CK TB DT) as (st2 & RS). exists g, st2. split; auto. split; auto.
  eapply MigMore; eauto.
Qed.
(** two checkpoints, both inside nested calls, in a program with memory and a global *)
Definition p_fact := func [TI32] [TI32] [] [get 0; ifelse [] [TI32] [get 0; get 0; i32c 1; isub; CCall 0; imul] [op (SGlobalGet TI32 0); i32c 1; iadd; op (SGlobalSet TI32 0); i32c 0; i32c 7; op (SStore SI32 0); i32c 1]].
Definition m_fact : smodule := {| sm_funcs := [p_fact]; sm_types := [] |}.
Definition s_fact : inst := {| i_mem := Some {| m_data := repeat 0%Z 16; m_max := None; m_gen := 0 |}; i_globals := [VI32 5]; i_tables := [[RFunc 0]]; i_datas := [] |}.
Example C28_example : exists M st0 st, compile m_fact = Some M /\ start M s_fact 0 [VI32 5] = Ok st0 /\ plain M /\ migrated hf0 host0 M s_fact st0 st /\
  length (r_frames st) = 6 /\
  observe (run hf0 host0 M never LoopStyle false 100 100 st) =
    Some (Done [VI32 120] {| i_mem := Some {| m_data := [7; 0; 0; 0; 0; 0; 0; 0; 0; 0; 0; 0; 0; 0; 0; 0]%Z; m_max := None; m_gen := 0 |};
                             i_globals := [VI32 6]; i_tables := [[RFunc 0]]; i_datas := [] |} []).
Proof.
  do 3 eexists. split; [vm_compute; reflexivity|]. split; [vm_compute; reflexivity|]. split.
  - intros [|f] fd i N I; cbn in N; [|now destruct f]. injection N as <-. revert i I. apply (proj1 (forallb_forall ser_instr _)). vm_compute. reflexivity.
  - split; [|split]. eapply (MigMore _ _ _ _ _ (asked 30 true) TailCall true 100 100).
    + eapply (MigMore _ _ _ _ _ (asked 20 true) LoopStyle true 100 100); [apply MigNone| | | | |]; vm_compute; reflexivity.
    + vm_compute. reflexivity.
    + vm_compute. reflexivity.
    + vm_compute. reflexivity.
    + vm_compute. reflexivity.
    + vm_compute. reflexivity.
    + vm_compute. reflexivity.
    + vm_compute. reflexivity.
Qed.


(** ** C29 *)
(** What does survive, for arbitrary modules, runs and restores into the instance the program
    started in: memory contents and limit, globals, registers, and every frame's function, locals,
    labels, return registers and pending result registers. *)
Theorem C29_memory_globals_frames_partial : forall hf host SM M s f args st0 st E D en k n st1 g st2, compile SM = Some M -> start M s f args = Ok st0 ->
  migrated hf host M s st0 st -> run hf host M E D en k n st = RCheckpoint st1 -> checkpoint st1 = Some g -> restore M s g (r_log st1) (r_t st1) = Some st2 ->
  option_map m_data (i_mem (r_inst st2)) = option_map m_data (i_mem (r_inst st1)) /\
  option_map m_max (i_mem (r_inst st2)) = option_map m_max (i_mem (r_inst st1)) /\
  i_globals (r_inst st2) = i_globals (r_inst st1) /\ r_rf st2 = r_rf st1 /\
  Forall2 (fun f' f => f_fn (snd f') = f_fn (snd f) /\ f_loc (snd f') = f_loc (snd f) /\ f_labels (snd f') = f_labels (snd f) /\
                       f_ret (snd f') = f_ret (snd f) /\ f_res (snd f') = f_res (snd f) /\ f_n (snd f') = f_n (snd f)) (r_frames st2) (r_frames st1).
Proof.
  intros hf host SM M s f args st0 st E D en k n st1 g st2 CM S0 MG RUN CK RS. pose proof (compile_ok _ _ CM) as MO. destruct (start_initial _ _ _ _ _ S0) as (c0 & I0 & RL0).
  destruct (migrated_rel _ _ _ _ _ _ _ _ _ MO S0 I0 MG) as (j & c & ST & RL & FL). pose proof (levels_initial _ _ _ _ _ MO I0) as L0. pose proof (levels_steps hf host M MO _ _ _ L0 ST) as LV.
  pose proof (run_sound hf host M E D en MO k n (armed en st) c) as S. change (run_loop hf host M E D en k n (armed en st) = RCheckpoint st1) in RUN. rewrite RUN in S.
  destruct S as (i & c1 & S1 & S2); [now apply rel_armed|auto|].
  assert (SH : shape s (r_inst st1)).
  { eapply shape_trans; [|apply shape_sym, inst_sim_shape, (rel_inst _ _ S2)]. eapply shape_trans; [|eapply steps_shape; exact S1]. eapply shape_trans; [|eapply steps_shape; exact ST].
    unfold initial in I0. destruct (nth_error _ _) as [[fd|]|]; try discriminate. destruct (Nat.eqb _ _); [|discriminate]. injection I0 as <-. apply shape_refl. }
  destruct (restore_fields M s st1 g _ _ st2 CK RS SH) as (A & B & C & F & G & _). repeat (split; [assumption|]). exact B.
Qed.
(** Tables do not survive: entry 0 (a function) is overwritten by null, the program is moved, and
    finds the function there again. *)
Definition p_tab := func [] [TI32] [] [i32c 0; op (SRefNull TFuncRef); op (STableSet 0 TFuncRef); i32c 0; op (STableGet 0 TFuncRef); op SRefIsNull].
Definition s_tab : inst := {| i_mem := None; i_globals := []; i_tables := [[RFunc 0]]; i_datas := [] |}.
Theorem C29_tables_refuted : exists SM M s st0 st1 g st2 s1 s2, compile SM = Some M /\ start M s 0 [] = Ok st0 /\
  run hf0 host0 M (asked 4 true) LoopStyle true 50 50 st0 = RCheckpoint st1 /\ checkpoint st1 = Some g /\ restore M s g (r_log st1) (r_t st1) = Some st2 /\
  run hf0 host0 M never LoopStyle false 50 50 st0 = RDone [VI32 1] s1 [] /\
  run hf0 host0 M never LoopStyle false 50 50 st2 = RDone [VI32 0] s2 [].
Proof.
  exists {| sm_funcs := [p_tab]; sm_types := [] |}. eexists. exists s_tab. do 6 eexists.
  split; [vm_compute; reflexivity|]. split; [vm_compute; reflexivity|]. split; [vm_compute; reflexivity|].
  split; [vm_compute; reflexivity|]. split; [vm_compute; reflexivity|]. split; vm_compute; reflexivity.
Qed.
(** Dropped data segments do not survive: after data.drop, memory.init of two bytes must trap; in
    the program moved in between, it succeeds. *)
Definition p_drop := func [] [TI32] [] [op (SDataDrop 0); i32c 0; i32c 0; i32c 2; op (SMemInit 0); i32c 5].
Definition s_drop : inst := {| i_mem := Some {| m_data := repeat 0%Z 16; m_max := None; m_gen := 0 |}; i_globals := []; i_tables := []; i_datas := [[1; 2]%Z] |}.
Theorem C29_dropped_segments_refuted : exists SM M s st0 st1 g st2 s2, compile SM = Some M /\ start M s 0 [] = Ok st0 /\
  run hf0 host0 M (asked 2 true) LoopStyle true 50 50 st0 = RCheckpoint st1 /\ checkpoint st1 = Some g /\ restore M s g (r_log st1) (r_t st1) = Some st2 /\
  (forall v s1 l, run hf0 host0 M never LoopStyle false 50 50 st0 <> RDone v s1 l) /\
  run hf0 host0 M never LoopStyle false 50 50 st2 = RDone [VI32 5] s2 [].
Proof.
  exists {| sm_funcs := [p_drop]; sm_types := [] |}. eexists. exists s_drop. do 5 eexists.
  split; [vm_compute; reflexivity|]. split; [vm_compute; reflexivity|]. split; [vm_compute; reflexivity|].
  split; [vm_compute; reflexivity|]. split; [vm_compute; reflexivity|]. split; [intros v s1 l; vm_compute; discriminate|vm_compute; reflexivity].
Qed.
(** A program that merely reads a function reference out of a table and discards it can no longer
    be checkpointed: the dead register still holds the reference, and writing the file fails. *)
Definition p_stale := func [] [TI32] [] [i32c 0; op (STableGet 0 TFuncRef); op SRefIsNull].
Theorem C29_references_refuted : exists SM M s st0 st1, compile SM = Some M /\ start M s 0 [] = Ok st0 /\
  run hf0 host0 M (asked 3 true) LoopStyle true 50 50 st0 = RCheckpoint st1 /\ checkpoint st1 = None.
Proof.
  exists {| sm_funcs := [p_stale]; sm_types := [] |}. eexists. exists s_tab. do 2 eexists.
  split; [vm_compute; reflexivity|]. split; [vm_compute; reflexivity|]. split; vm_compute; reflexivity.
Qed.

(** ** C30, C31 *)
(** polling is live: the frame polls, and the way of polling sees each request *)
Lemma poll_t E p : p_t (snd (poll E p)) = S (p_t p) /\ p_en (snd (poll E p)) = p_en p.
Proof. unfold poll. destruct (p_en p); cbn; auto. destruct (atomics E); cbn; auto. Qed.
Lemma poll_live E p t0 : p_en p = true -> atomics E = true -> (forall t, t0 <= t -> request E t = true) -> fst (poll E p) = false -> p_t p < t0.
Proof. unfold poll. intros -> -> R. cbn. intros H. destruct (Nat.lt_ge_cases (p_t p) t0) as [L|L]; auto. rewrite (R _ L) in H. discriminate. Qed.
Definition stops (t0 t : nat) (r : option (dout * nat)) : Prop :=
  exists o t', r = Some (o, t') /\ t < t' /\ ((forall v', o <> DCheckpoint v') -> t' <= t0).
Lemma handled_live hf M C v go p' t0 : p_t p' <= t0 -> (forall v, stops t0 (p_t p') (go v)) -> stops t0 (Nat.pred (p_t p')) (handled (hstep hf M C v) go (p_t p')) \/ p_t p' = 0.
Proof.
  intros L G. destruct (p_t p') as [|t] eqn:T; [now right|]. left. cbn [Nat.pred]. destruct (hstep hf M C v) as [v1|v1|y v1|x|]; cbn [handled].
  - destruct (G v1) as (o & t' & H & LT & K). exists o, t'. split; auto. split; [lia|auto].
  - do 2 eexists. split; [reflexivity|]. split; [lia|auto].
  - do 2 eexists. split; [reflexivity|]. split; [lia|auto].
  - do 2 eexists. split; [reflexivity|]. split; [lia|auto].
  - do 2 eexists. split; [reflexivity|]. split; [lia|auto].
Qed.
Lemma dispatch_live D hf M E C t0 : atomics E = true -> (forall t, t0 <= t -> request E t = true) -> forall n p v, p_en p = true -> t0 <= p_t p + n ->
  stops t0 (p_t p) (dispatch D hf M E C (S n) p v).
Proof.
  intros A R.
  assert (HIT : forall p v, fst (poll E p) = true -> stops t0 (p_t p) (Some (DCheckpoint v, p_t (snd (poll E p))))).
  { intros p v _. destruct (poll_t E p) as [T _]. rewrite T. do 2 eexists. split; [reflexivity|]. split; [lia|]. intros H. exfalso. now apply (H v). }
  assert (ADV : forall n p v, p_en p = true -> t0 <= p_t p + n -> stops t0 (p_t p) (tco_advance hf M E C (S n) p v)).
  { induction n as [|n IH]; intros p v EN L; cbn [tco_advance]; pose proof (poll_t E p) as [T EQ]; pose proof (poll_live E p t0 EN A R) as PL; pose proof (HIT p v) as HP;
      destruct (poll E p) as [b p']; cbn [fst snd] in *; (destruct b; [now apply HP|]); specialize (PL eq_refl); [lia|].
    destruct (handled_live hf M C v (tco_advance hf M E C (S n) p') p' t0) as [H|H]; [lia| |rewrite T in H; rewrite T; exact H|lia]. intros v1. apply IH; [congruence|lia]. }
  destruct D; cbn [dispatch].
  - induction n as [|n IH]; intros p v EN L; cbn [loop_dispatch]; pose proof (poll_t E p) as [T EQ]; pose proof (poll_live E p t0 EN A R) as PL; pose proof (HIT p v) as HP;
      destruct (poll E p) as [b p']; cbn [fst snd] in *; (destruct b; [now apply HP|]); specialize (PL eq_refl); [lia|].
    assert (G : forall v1, stops t0 (p_t p') (loop_dispatch hf M E C (S n) p' v1)) by (intros v1; apply IH; [congruence|lia]).
    assert (HALT : stops t0 (p_t p) (Some (DHalt v, p_t p'))) by (do 2 eexists; split; [reflexivity|]; split; [lia|intros _; lia]).
    assert (GO : forall v1, stops t0 (p_t p) (loop_dispatch hf M E C (S n) p' v1)).
    { intros v1. destruct (G v1) as (o & t' & H & LT & K). exists o, t'. split; auto. split; [lia|auto]. }
    destruct (Nat.leb _ _).
    + destruct (s_labels v) as [|l [|l1 ls]]; auto. destruct (_ && _); [exact HALT|apply GO].
    + destruct (handled_live hf M C v (loop_dispatch hf M E C (S n) p') p' t0) as [H|H]; [lia|exact G|rewrite T in H; rewrite T; exact H|lia].
  - intros n p v EN L. cbn [tco_dispatch]. pose proof (poll_t E p) as [T EQ]; pose proof (poll_live E p t0 EN A R) as PL; pose proof (HIT p v) as HP;
      destruct (poll E p) as [b p']; cbn [fst snd] in *; (destruct b; [now apply HP|]); specialize (PL eq_refl).
    destruct (Nat.leb _ _); [do 2 eexists; split; [reflexivity|]; split; [lia|intros _; lia]|].
    destruct n as [|n]; [lia|].
    destruct (handled_live hf M C v (tco_advance hf M E C (S n) p') p' t0) as [H|H]; [lia| |rewrite T in H; rewrite T; exact H|lia]. intros v1. apply ADV; [congruence|lia].
Qed.
Lemma run_live hf host M E D t0 : atomics E = true -> (forall t, t0 <= t -> request E t = true) -> forall n k st, flags st (fun b => b = true) -> t0 <= r_t st + n -> t0 <= r_t st + k ->
  forall st', run_loop hf host M E D true (S k) (S n) st <> RRun st'.
Proof.
  intros A R. induction n as [|n IH]; intros k st F LN LK st' H; cbn [run_loop] in H.
  all: destruct (run_round hf host M E D true (S k) st) as [o|] eqn:RR.
  2,4: unfold run_round in RR; unfold flags in F; destruct (r_frames st) as [|[en f] rest]; [discriminate|]; inversion F as [|? ? F1 F2]; subst; cbn in F1; subst en;
       destruct (nth_error _ _) as [[fd|]|]; try discriminate;
       destruct (dispatch_live D hf M E (fd_code fd) t0 A R k {| p_en := true; p_cnt := 0; p_t := r_t st |} (resume f (r_rf st) (r_inst st) (f_ptr f)) eq_refl ltac:(cbn; lia)) as (o & t' & Q & _);
       rewrite Q in RR; discriminate.
  all: destruct o as [st1|? ? ?|? ?|? ?|st1|]; try discriminate.
  all: assert (LT : r_t st < r_t st1 /\ r_t st1 <= t0).
  1,3: unfold run_round in RR; unfold flags in F; destruct (r_frames st) as [|[en f] rest]; [discriminate|]; inversion F as [|? ? F1 F2]; subst; cbn in F1; subst en;
       destruct (nth_error _ _) as [[fd|]|]; try discriminate;
       destruct (dispatch_live D hf M E (fd_code fd) t0 A R k {| p_en := true; p_cnt := 0; p_t := r_t st |} (resume f (r_rf st) (r_inst st) (f_ptr f)) eq_refl ltac:(cbn; lia)) as (o & t' & Q & LT & K);
       cbn [p_t] in LT; rewrite Q in RR; injection RR as RR;
       assert (FIN : r_t st1 = t' /\ forall v', o <> DCheckpoint v');
       [destruct o as [v|[|w a r|g a rs] v|x|v|]; try discriminate RR; (split; [|discriminate]); unfold rres in RR;
         repeat match type of RR with context [match ?x with _ => _ end] => destruct x; try discriminate RR end; injection RR as <-; reflexivity
       |destruct FIN as [-> NC]; split; [exact LT|exact (K NC)]].
  - lia.
  - revert H. apply IH; try lia. exact (round_flags hf host M E D true (S k) st st1 _ F eq_refl RR).
Qed.

(** The variant with a monitor thread: the flag is looked at before every instruction, so a program
    with checkpointing enabled - fresh, or restored when only one frame was active - whose request
    is there from poll [t0] on is not running any more after [t0 + 1] instructions (each round of
    the loop also polls at least once).  Missing: the file-polling variant, false: C30_refuted;
    several restored frames, false: C31_refuted. *)
Theorem C30_threads_partial : forall hf host M E D t0 st k n, runnable hf M st -> length (r_frames st) = 1 ->
  atomics E = true -> (forall t, t0 <= t -> request E t = true) -> t0 < r_t st + k -> t0 < r_t st + n ->
  0 < k -> 0 < n -> forall st', run hf host M E D true k n st <> RRun st'.
Proof.
  intros hf host M E D t0 st k n RN ONE A R LK LN K N st'. destruct k as [|k]; [lia|]. destruct n as [|n]; [lia|]. unfold run. apply (run_live hf host M E D t0 A R); cbn [r_t]; try lia.
  unfold flags. cbn [r_frames]. destruct (r_frames st) as [|[b f] [|]]; try discriminate ONE. repeat constructor.
Qed.
(** When the request is already there, nothing at all is executed. *)
Theorem C30_threads_at_once : forall hf host M E D st k n b f, r_frames st = [(b, f)] -> (exists fd, nth_error (md_funcs M) (f_fn f) = Some (FWasm fd)) ->
  atomics E = true -> request E (r_t st) = true -> exists st', run hf host M E D true (S k) (S n) st = RCheckpoint st' /\ r_inst st' = r_inst st /\ r_rf st' = r_rf st /\ r_log st' = r_log st.
Proof.
  intros hf host M E D st k n b f FR (fd & NF) A R. unfold run. rewrite FR. cbn [set_outermost rev app run_loop]. unfold run_round. cbn [r_frames]. rewrite NF.
  destruct D; cbn [dispatch loop_dispatch tco_dispatch]; unfold poll; cbn [p_en negb]; rewrite A; cbn [p_t r_t]; rewrite R; eexists; (split; [reflexivity|repeat split]).
Qed.
(** The file-polling variant looks at every 1024th instruction of one activation: a frame that runs
    for that long without calling, returning or asking the host is stopped. *)
Lemma advance_file hf M E C : atomics E = false -> has_wasi E = true -> (forall t, request E t = true) -> forall n p v, p_en p = true ->
  (0 <= p_cnt p)%Z -> (p_cnt p + Z.of_nat n = 1024)%Z -> (0 < n) -> tco_advance hf M E C n p v <> None.
Proof.
  intros A W R. induction n as [|n IH]; intros p v EN CN0 CN N; [lia|]. cbn [tco_advance]. unfold poll. rewrite EN, A, W, R. cbn [negb andb]. rewrite andb_true_r.
  assert (MD : ((p_cnt p + 1) mod 2 ^ 32 = p_cnt p + 1)%Z) by (apply Z.mod_small; lia). rewrite MD. change 1023%Z with (Z.ones 10). rewrite Z.land_ones by lia.
  destruct (_ =? 0)%Z eqn:Q; [discriminate|]. apply Z.eqb_neq in Q.
  destruct n as [|n]. { exfalso. apply Q. replace (p_cnt p + 1)%Z with 1024%Z by lia. reflexivity. }
  destruct (hstep hf M C v); cbn [handled]; try discriminate. apply IH; cbn; auto; lia.
Qed.
Lemma loop_file hf M E C : atomics E = false -> has_wasi E = true -> (forall t, request E t = true) -> forall n p v, p_en p = true ->
  (0 <= p_cnt p)%Z -> (p_cnt p + Z.of_nat n = 1024)%Z -> (0 < n) -> loop_dispatch hf M E C n p v <> None.
Proof.
  intros A W R. induction n as [|n IH]; intros p v EN CN0 CN N; [lia|]. cbn [loop_dispatch]. unfold poll. rewrite EN, A, W, R. cbn [negb andb]. rewrite andb_true_r.
  assert (MD : ((p_cnt p + 1) mod 2 ^ 32 = p_cnt p + 1)%Z) by (apply Z.mod_small; lia). rewrite MD. change 1023%Z with (Z.ones 10). rewrite Z.land_ones by lia.
  destruct (_ =? 0)%Z eqn:Q; [discriminate|]. apply Z.eqb_neq in Q.
  destruct n as [|n]. { exfalso. apply Q. replace (p_cnt p + 1)%Z with 1024%Z by lia. reflexivity. }
  destruct (Nat.leb _ _).
  - destruct (s_labels v) as [|l [|l1 ls]]; try discriminate. destruct (_ && _); [discriminate|]. apply IH; cbn; auto; lia.
  - destruct (hstep hf M C v); cbn [handled]; try discriminate. apply IH; cbn; auto; lia.
Qed.
(** Missing: a bound on instructions overall, false for programs that keep calling: C30_refuted. *)
Theorem C30_file_partial : forall hf host M E D en st f rest, r_frames st = (true, f) :: rest ->
  atomics E = false -> has_wasi E = true -> (forall t, request E t = true) ->
  run_round hf host M E D en (Z.to_nat 1024) st <> None.
Proof.
  intros hf host M E D en st f rest FR A W R. unfold run_round. rewrite FR. destruct (nth_error _ _) as [[fd|]|]; try discriminate.
  set (p := {| p_en := true; p_cnt := 0; p_t := r_t st |}). set (v := resume f (r_rf st) (r_inst st) (f_ptr f)).
  assert (NN : dispatch D hf M E (fd_code fd) (Z.to_nat 1024) p v <> None).
  { destruct D; cbn [dispatch].
    - apply loop_file; auto; cbn [p p_en p_cnt]; lia.
    - pose proof (advance_file hf M E (fd_code fd) A W R (Z.to_nat 1024) p v eq_refl ltac:(cbn; lia) ltac:(cbn [p p_cnt]; lia) ltac:(lia)) as AF.
      destruct (Z.to_nat 1024) as [|n]; [intros _; now apply AF|]. cbn [tco_dispatch]. cbn [tco_advance] in AF. destruct (poll E p) as [x p']. destruct x; [discriminate|].
      destruct (Nat.leb _ _); [discriminate|exact AF]. }
  destruct (dispatch D hf M E (fd_code fd) (Z.to_nat 1024) p v) as [[o t]|]; [discriminate|now elim NN].
Qed.

(** a run in which every round ends by going on never ends *)
Lemma cycle hf host M E D en k (P : rstate -> Prop) : (forall st, P st -> run_round hf host M E D en k st = None \/ exists st', run_round hf host M E D en k st = Some (RRun st') /\ P st') ->
  forall n st, P st -> exists st', run_loop hf host M E D en k n st = RRun st'.
Proof.
  intros C. induction n as [|n IH]; intros st H; cbn [run_loop]; [eauto|]. destruct (C _ H) as [->|(st' & -> & H')]; eauto.
Qed.
(** The counter of the file-polling variant starts at 0 in every activation: a program that keeps
    calling a short function runs for ever with the request pending. *)
Definition p_calls := func [] [] [] [loop [] [] [CCall 1; CBr 0]].
Definition p_empty := func [] [] [] [].
Definition m_calls : smodule := {| sm_funcs := [p_calls; p_empty]; sm_types := [] |}.
Definition always : penv := {| atomics := false; has_wasi := true; request := fun _ => true |}.
Definition at_poll (st : rstate) (t : nat) : rstate := {| r_rf := r_rf st; r_frames := r_frames st; r_inst := r_inst st; r_log := r_log st; r_t := t |}.
Definition going (o : rout) (d : rstate) : rstate := match o with RRun st => st | _ => d end.
Theorem C30_refuted : exists SM M st0, compile SM = Some M /\ start M inst0 0 [] = Ok st0 /\
  forall D k n, exists st', run hf0 host0 M always D true k n st0 = RRun st'.
Proof.
  exists m_calls. do 2 eexists. split; [vm_compute; reflexivity|]. split; [vm_compute; reflexivity|].
  match goal with |- forall D k n, exists st', run _ _ ?m _ _ _ _ _ ?s = _ => set (M := m); set (st0 := s) end.
  pose (A := armed true st0). pose (B := going (run_loop hf0 host0 M always LoopStyle true 9 1 A) A). pose (C := going (run_loop hf0 host0 M always LoopStyle true 9 2 A) A).
  intros D k n. change (exists st', run_loop hf0 host0 M always D true k n A = RRun st').
  apply (cycle _ _ _ _ _ _ k (fun st => exists t, st = at_poll A t \/ st = at_poll B t \/ st = at_poll C t)); [|exists 0; left; reflexivity].
  Local Ltac go_on := first [left; vm_compute; reflexivity | right; eexists; split; [vm_compute; reflexivity|]; eexists; first [right; left; vm_compute; reflexivity|right; right; vm_compute; reflexivity]].
  intros st (t & Q). destruct D, Q as [Q|[Q|Q]]; subst st; do 4 (destruct k as [|k]; [go_on|]); go_on.
Qed.

(** ** C31 *)
(** A program moved while only its outermost function was active can be moved again: the request
    is noticed at the first instruction (threads) - a special case of C30_threads_partial.
    Missing: programs moved while a called function was active, false: C31_refuted. *)
Theorem C31_one_frame_partial : forall hf host M E0 D0 k0 n0 st0 st1 g s log t st2, runnable hf M st0 -> length (r_frames st1) = 1 ->
  run hf host M E0 D0 true k0 n0 st0 = RCheckpoint st1 -> checkpoint st1 = Some g -> restore M s g log t = Some st2 ->
  forall E D t0 k n st', atomics E = true -> (forall u, t0 <= u -> request E u = true) -> t0 < r_t st2 + k -> t0 < r_t st2 + n -> 0 < k -> 0 < n ->
  run hf host M E D true k n st2 <> RRun st'.
Proof.
  intros hf host M E0 D0 k0 n0 st0 st1 g s log t st2 R0 ONE RUN CK RS E D t0 k n st' A R LK LN K N. apply (C30_threads_partial hf host M E D t0); auto.
  - eapply RunRestored; eauto.
  - unfold checkpoint in CK. destruct (ser_state st1); [|discriminate]. injection CK as <-. unfold restore in RS. destruct (match i_mem s with Some _ => _ | None => _ end) as [s1|]; [|discriminate].
    destruct (if Nat.eqb _ _ then _ else _) as [s2|]; [|discriminate]. destruct (forallb _ _); [|discriminate]. injection RS as <-.
    cbn [r_frames g_funcs g_frames]. destruct (r_frames st1) as [|? [|]]; try discriminate ONE. reflexivity.
Qed.
(** Moved inside a called function, the program runs on for ever whatever is requested, with
    either dispatcher and either way of polling. *)
Definition p_main := func [] [] [] [CCall 1].
Definition p_spin := func [] [] [] [loop [] [] [CBr 0]].
Definition m_spin : smodule := {| sm_funcs := [p_main; p_spin]; sm_types := [] |}.
Theorem C31_refuted : exists SM M st0 st1 g st2, compile SM = Some M /\ start M inst0 0 [] = Ok st0 /\
  run hf0 host0 M (asked 4 true) LoopStyle true 50 50 st0 = RCheckpoint st1 /\ checkpoint st1 = Some g /\ restore M inst0 g (r_log st1) (r_t st1) = Some st2 /\
  forall E D k n, exists st', run hf0 host0 M E D true k n st2 = RRun st'.
Proof.
  exists m_spin. do 5 eexists. split; [vm_compute; reflexivity|]. split; [vm_compute; reflexivity|]. split; [vm_compute; reflexivity|]. split; [vm_compute; reflexivity|]. split; [vm_compute; reflexivity|].
  match goal with |- forall E D k n, exists st', run _ _ ?m _ _ _ _ _ ?s = _ => set (M := m); set (st2 := s) end.
  intros E D k n. change (exists st', run_loop hf0 host0 M E D true k n (armed true st2) = RRun st').
  apply (cycle _ _ _ _ _ _ k (fun st => st = armed true st2)); [|reflexivity].
  intros st ->. left. unfold run_round. cbn [armed r_frames st2 set_outermost rev app]. cbn [f_fn M nth_error md_funcs].
  match goal with |- match dispatch D hf0 M E ?c k ?p ?v with _ => _ end = _ => set (C := c); set (v0 := v); set (p0 := p); assert (X : dispatch D hf0 M E C k p0 v0 = None) end; [|now rewrite X].
  pose (v1 := match hstep hf0 M C v0 with HNext v => v | _ => v0 end).
  assert (ST : forall v, v = v0 \/ v = v1 -> exists v', hstep hf0 M C v = HNext v' /\ (v' = v0 \/ v' = v1) /\ Nat.leb (length C) (s_pc v) = false).
  { intros v [Q|Q]; subst v; eexists; (split; [vm_compute; reflexivity|split; [|vm_compute; reflexivity]]); [right|left]; vm_compute; reflexivity. }
  assert (EN : p_en p0 = false) by reflexivity. assert (V0 : v0 = v0 \/ v0 = v1) by now left.
  assert (PO : forall p, p_en p = false -> exists p', poll E p = (false, p') /\ p_en p' = false) by (intros p Q; unfold poll; rewrite Q; cbn [negb]; eexists; split; reflexivity).
  generalize dependent v0. intros v0 v1 ST V0. clearbody p0 v1. assert (ADV : forall k p v, p_en p = false -> v = v0 \/ v = v1 -> tco_advance hf0 M E C k p v = None).
  { clear k. induction k as [|k IH]; intros p v Q V; auto. cbn [tco_advance]. destruct (PO p Q) as (p' & -> & Q'). destruct (ST v V) as (v' & -> & V' & _). cbn [handled]. auto. }
  assert (LOOP : forall k p v, p_en p = false -> v = v0 \/ v = v1 -> loop_dispatch hf0 M E C k p v = None).
  { clear k. induction k as [|k IH]; intros p v Q V; auto. cbn [loop_dispatch]. destruct (PO p Q) as (p' & -> & Q'). destruct (ST v V) as (v' & -> & V' & ->). cbn [handled]. auto. }
  destruct D; cbn [dispatch]; auto. destruct k as [|k]; auto. cbn [tco_dispatch]. destruct (PO p0 EN) as (p' & -> & Q'). destruct (ST v0 V0) as (v' & -> & V' & ->). cbn [handled]. auto.
Qed.

(** ** C46 *)
(** In every state any program reaches - arbitrary code, host, arguments - the memory pointer the
    running frame has cached is that of the instance's current allocation ([None]: no memory), so
    no access goes through a buffer that memory.grow has replaced. *)
Theorem C46_pointer_current : forall hf host M s f args c0 n c, initial M s f args = Ok c0 -> steps hf host M n c0 = inl c ->
  d_ptr (s_d (c_v c)) = cur_ptr (d_inst (s_d (c_v c))).
Proof. intros. eapply (cptr_steps hf host M n c0 c); eauto. eapply cptr_initial; eauto. Qed.
(** Restore puts a new buffer in place and gives its pointer to every frame. *)
Theorem C46_restored : forall M s st g log t st', checkpoint st = Some g -> restore M s g log t = Some st' ->
  Forall (fun f => f_ptr (snd f) = cur_ptr (r_inst st')) (r_frames st').
Proof.
  intros M s st g log t st' CK RS. unfold checkpoint in CK. destruct (ser_state st); [|discriminate]. injection CK as <-. unfold restore in RS. destruct (match i_mem s with Some _ => _ | None => _ end) as [s1|]; [|discriminate].
  destruct (if Nat.eqb _ _ then _ else _) as [s2|]; [|discriminate]. destruct (forallb _ _); [|discriminate]. injection RS as <-. cbn [r_frames r_inst].
  apply Forall_forall. intros x IN. apply in_map_iff in IN as (p & <- & _). reflexivity.
Qed.
