(** C66: what the interpreter needs besides the program's own memory is bounded by the depth of calls. *)
From Coq Require Import ZArith List Bool Lia.
From Verif Require Import Word Value Float Mem WasmMem Store Regs IR Machine Wasm WasmTyping Decoder Check Examples FrameFacts Properties_Frames Layout Properties_Layout
  Runtime SimState RuntimeProofs MigrationProofs Properties_Runtime Codec CodecProofs FileProofs SizeSpec SizeProofs.
Import ListNotations.
Open Scope nat_scope.

(** At every moment of every execution, of any module, the registers are those of the functions that have been
    called and have not returned: nothing is kept for a call that has returned. *)
Theorem C66_registers : forall hf host M s f args c0 n c, initial M s f args = Ok c0 -> steps hf host M n c0 = inl c ->
  (forall k, length (regs c k) = list_sum (map (slots M k) (active c))) /\ length (rf_stack (d_rf (s_d (c_v c)))) = length (active c).
Proof.
  intros hf host M s f args c0 n c I ST. pose proof (steps_rsized _ _ _ _ _ _ ST (initial_rsized _ _ _ _ _ I)) as [A B].
  split; [exact A|now apply stacked_len in B].
Qed.
(** For every translated module there is a number, whatever the inputs, the host and the length of the run,
    such that all the interpreter holds (registers, saved offsets, locals, open blocks, registers named for
    results) is at most that many entries per function that has been called and has not returned. *)
Theorem C66_bounded : forall SM M, compile SM = Some M -> exists B, forall hf host s f args c0 n c,
  initial M s f args = Ok c0 -> steps hf host M n c0 = inl c -> config_size c <= B * length (active c).
Proof.
  intros SM M C. exists (top_cost M). intros hf host s f args c0 n c I ST. pose proof (compile_ok _ _ C) as MO.
  eapply Nat.le_trans; [|apply cost_sum]. apply size_cost.
  - eapply steps_rsized; eauto. eapply initial_rsized; eauto.
  - eapply steps_lsized; eauto. eapply initial_lsized; eauto.
  - eapply levels_steps; eauto. eapply levels_initial; eauto.
Qed.

(** ** checkpoints *)
Lemma migrated_clean hf host M s f args st0 st : start M s f args = Ok st0 -> migrated hf host M s st0 st -> top_clean st.
Proof.
  intros ST. induction 1 as [|E D en k n st st1 g st2 MG IH RUN CK TB DT RS].
  - unfold start in ST. destruct (nth_error _ _) as [[fd|]|]; try discriminate. destruct (Nat.eqb _ _); [|discriminate]. injection ST as <-. reflexivity.
  - pose proof (run_clean hf host M E D en k n st IH) as K. rewrite RUN in K. eapply restore_clean; eauto.
Qed.
(** the same for the state at which a program is stopped for a checkpoint, however often it has been moved *)
Theorem C66_checkpoints : forall SM M, compile SM = Some M -> exists B, forall hf host s f args st0 st E D en k n st1,
  start M s f args = Ok st0 -> migrated hf host M s st0 st -> run hf host M E D en k n st = RCheckpoint st1 -> state_size st1 <= B * length (r_frames st1).
Proof.
  intros SM M C. destruct (C66_bounded SM M C) as (B & K). exists B. intros hf host s f args st0 st E D en k n st1 ST MG RUN. pose proof (compile_ok _ _ C) as MO.
  destruct (start_initial _ _ _ _ _ ST) as (c0 & I0 & RL0).
  destruct (migrated_rel _ _ _ _ _ _ _ _ _ MO ST I0 MG) as (j & c & SJ & RL & _).
  pose proof (levels_steps hf host M MO _ _ _ (levels_initial _ _ _ _ _ MO I0) SJ) as LV.
  pose proof (run_sound hf host M E D en MO k n (armed en st) c) as S. pose proof RUN as RUN'. change (run_loop hf host M E D en k n (armed en st) = RCheckpoint st1) in RUN'. rewrite RUN' in S.
  destruct S as (i & c1 & S1 & S2); [now apply rel_armed|auto|].
  pose proof (run_clean hf host M E D en k n st (migrated_clean _ _ _ _ _ _ _ _ ST MG)) as CL. rewrite RUN in CL.
  destruct (rel_size _ _ S2 CL) as [-> ->]. apply (K hf host s f args c0 (j + i)); auto. rewrite (steps_app hf host M _ _ _ _ SJ). exact S1.
Qed.
(** and for the file: besides the compressed memory and the globals it is as large as the calls in progress *)
Lemma le_len n : forall z, length (le_encode n z) = n.
Proof. induction n as [|n IH]; intros z; cbn; auto. Qed.
Lemma flat_len {A} (g : A -> list Z) b l : (forall x, length (g x) <= b) -> length (flat_map g l) <= b * length l.
Proof. intros H. induction l as [|x l IH]; cbn; [lia|]. rewrite app_length. specialize (H x). lia. Qed.
Lemma vec_len {A} (c : codec A) b l : (forall x, length (put c x) <= b) -> length (put (c_vec c) l) <= 8 + b * length l.
Proof. intros H. cbn [put c_vec]. rewrite app_length, le_len. pose proof (flat_len (put c) b l H). lia. Qed.
Lemma vecs_len {A} (c : codec A) g b l : (forall x, length (put c x) <= g x + b) -> length (put (c_vec c) l) <= 8 + list_sum (map g l) + b * length l.
Proof.
  intros H. cbn [put c_vec]. rewrite app_length, le_len. unfold list_sum. induction l as [|x l IH]; cbn [flat_map map fold_right length]; [cbn; lia|]. rewrite app_length. specialize (H x). lia.
Qed.
Lemma class_len c v : length (put (of_class c) v) <= 16.
Proof.
  destruct c; cbn [of_class]; unfold c_i32, c_i64, c_f32, c_f64, c_v128, c_via, c_int, c_uint; cbn [put]; rewrite ?le_len; try lia.
  unfold c_ref, c_enum. cbn [put]. rewrite app_length, le_len. destruct v as [| | | |[| |]|]; cbn; lia.
Qed.
Lemma num_len v : length (put c_num v) <= 12.
Proof. unfold c_num, c_enum. cbn [put]. rewrite app_length, le_len. destruct v; cbn [Z.eqb Pos.eqb]; unfold c_i32, c_i64, c_f32, c_f64, c_via, c_int, c_uint; cbn [put]; rewrite ?le_len; lia. Qed.
Lemma val_len v : length (put c_val v) <= 24.
Proof.
  pose proof (num_len v). pose proof (class_len CRef v) as R. cbn [of_class] in R. pose proof (class_len CV128 v) as V. cbn [of_class] in V.
  unfold c_val, c_enum. cbn [put]. rewrite app_length, le_len. destruct v; cbn [Z.eqb Pos.eqb]; try lia. unfold c_vec128, c_enum. cbn [put Z.eqb]. rewrite app_length, le_len. lia.
Qed.
Lemma u32_len n : length (put c_u32 n) = 4. Proof. cbn [c_u32 c_nat c_via put c_uint]. apply le_len. Qed.
Lemma usize_len n : length (put c_usize n) = 8. Proof. cbn [c_usize c_nat c_via put c_uint]. apply le_len. Qed.
Lemma reg_len r : length (put c_reg r) = 6.
Proof. unfold c_reg. rewrite via_put, pair_put. cbn [fst snd]. unfold c_u16, c_nat. rewrite via_put. cbn [put c_uint]. rewrite !le_len. reflexivity. Qed.
Lemma regs_len l : length (put c_regs l) <= 8 + 6 * length l.
Proof. unfold c_regs. rewrite via_put. apply vec_len. intros x. now rewrite reg_len. Qed.
Lemma label_len l : length (put c_label l) = 17.
Proof. unfold c_label. rewrite via_put, !pair_put. cbn [fst snd]. rewrite !usize_len. unfold c_bool. rewrite via_put. cbn [put c_uint]. rewrite le_len. reflexivity. Qed.
Lemma six_len {A} (c : cls -> codec A) s g : (forall k, length (put (c k) (sget s k)) <= g k) -> length (put (c_six c) s) <= list_sum (map g classes).
Proof.
  intros H. unfold c_six. rewrite via_put, !pair_put. cbn [fst snd]. unfold classes, list_sum. cbn [map fold_right].
  pose proof (H CI32). pose proof (H CI64). pose proof (H CF32). pose proof (H CF64). pose proof (H CRef). pose proof (H CV128). cbn [sget] in *. lia.
Qed.
Definition iframe_size (f : iframe) : nat := length (g_loc f) + length (g_labels f) + length (g_ret f) + length (g_res f).
Lemma frame_len f : length (put c_frame f) <= 24 * iframe_size f + 40.
Proof.
  unfold c_frame. rewrite via_put, !pair_put. cbn [fst snd]. rewrite usize_len. unfold c_rev. rewrite via_put.
  pose proof (vec_len c_val 24 (g_loc f) val_len). pose proof (vec_len c_label 17 (rev (g_labels f)) (fun x => Nat.eq_le_incl _ _ (label_len x))) as L. rewrite rev_length in L.
  pose proof (regs_len (g_res f)). pose proof (regs_len (g_ret f)). unfold iframe_size. lia.
Qed.
Lemma sum_six (g : cls -> nat) b : list_sum (map (fun k => 8 + b * g k) classes) = 48 + b * list_sum (map g classes).
Proof. unfold classes, list_sum. cbn [map fold_right]. lia. Qed.
Lemma regfile_len rf : length (put c_regfile rf) <= 80 + 16 * regs_size rf.
Proof.
  unfold c_regfile. rewrite via_put, !pair_put. cbn [fst snd]. unfold c_rev. rewrite via_put.
  assert (U : forall s, length (put (c_six (fun _ => c_u32)) s) <= 24).
  { intros s. eapply Nat.le_trans; [apply (six_len (fun _ => c_u32) s (fun _ => 4)); intros k; now rewrite u32_len|]. cbn. lia. }
  pose proof (vec_len (c_six (fun _ => c_u32)) 24 (rev (rf_stack rf)) U) as S. rewrite rev_length in S. specialize (U (rf_cur rf)).
  pose proof (six_len (fun c => c_vec (of_class c)) (rf_vecs rf) (fun k => 8 + 16 * length (sget (rf_vecs rf) k)) (fun k => vec_len (of_class k) 16 _ (class_len k))) as V.
  rewrite (sum_six (fun k => length (sget (rf_vecs rf) k)) 16) in V. unfold regs_size. lia.
Qed.
Theorem C66_file : forall z st b, checkpoint_bytes z st = Some b ->
  length b <= 112 + match i_mem (r_inst st) with Some m => length (squeeze z (m_data m)) | None => 0 end + 24 * length (i_globals (r_inst st)) + 44 * length (r_frames st) + 24 * state_size st.
Proof.
  intros z st b H. apply bytes_file in H as (g & CK & <-). unfold checkpoint in CK. destruct (ser_state st); [|discriminate]. injection CK as <-.
  unfold c_file. rewrite via_put, !pair_put. cbn [fst snd file_of fi_rf fi_frames fi_mem fi_globals fi_funcs g_rf g_frames g_mem g_globals g_funcs]. unfold c_rev. rewrite !via_put.
  pose proof (regfile_len (r_rf st)) as R.
  match goal with |- context[put (c_vec c_frame) (rev ?l)] => pose proof (vecs_len c_frame (fun f => 24 * iframe_size f) 40 (rev l) frame_len) as FR; set (fl := l) in * end.
  assert (FS : list_sum (map (fun f => 24 * iframe_size f) (rev fl)) = 24 * list_sum (map (fun p : bool * frame => frame_size (snd p)) (r_frames st))).
  { rewrite map_rev. assert (RV : forall l, list_sum (rev l) = list_sum l). { induction l as [|x l IH]; [reflexivity|]. cbn [rev]. rewrite list_sum_app, IH, !list_sum_cons. change (list_sum []) with 0. lia. }
    rewrite RV. unfold fl. clear. induction (r_frames st) as [|[b f] fs IH]; [reflexivity|]. cbn [map]. rewrite !list_sum_cons, IH. unfold iframe_size, frame_size. cbn [snd g_loc g_labels g_ret g_res]. lia. }
  rewrite FS, rev_length in FR. assert (FL : length fl = length (r_frames st)) by (unfold fl; apply map_length). rewrite FL in FR.
  pose proof (vec_len c_val 24 (i_globals (r_inst st)) val_len) as G.
  match goal with |- context[put (c_vec c_u32) (rev ?l)] => pose proof (vec_len c_u32 4 (rev l) (fun x => Nat.eq_le_incl _ _ (u32_len x))) as U; rewrite rev_length, map_length in U end.
  match goal with |- context[put (c_vec c_byte) ?l] => pose proof (vec_len c_byte 1 l (fun x => Nat.eq_le_incl _ _ (le_len 1 x))) as Y end.
  unfold state_size. destruct (i_mem (r_inst st)) as [m|]; cbn [option_map] in *; cbn [length] in *; lia.
Qed.

(** factorial by calling itself: four calls in progress, then all returned but the first *)
Definition rfact : smodule :=
  {| sm_types := []; sm_funcs := [func [TI32] [TI32] [] [Examples.get 0; eqz; ifelse [] [TI32] [i32c 1] [Examples.get 0; Examples.get 0; i32c 1; isub; CCall 0; imul]]] |}.
Definition stored : lz4 := {| squeeze := fun l => l; expand := fun l => Some l |}.
Definition keeps (M : modul) (n : nat) : option (list nat * nat) :=
  match initial M inst0 0 [VI32 3] with Ok c0 => match steps hf0 host0 M n c0 with inl c => Some (active c, config_size c) | inr _ => None end | _ => None end.
Example C66_example : exists M, compile rfact = Some M /\
  keeps M 0 = Some ([0], 11) /\ keeps M 15 = Some ([0; 0; 0; 0], 50) /\ keeps M 32 = Some ([0], 12) /\ keeps M 33 = None /\
  exists st0 st1 b, start M inst0 0 [VI32 3] = Ok st0 /\ run hf0 host0 M (asked 12 true) LoopStyle true 100 100 st0 = RCheckpoint st1 /\
    migrated hf0 host0 M inst0 st0 st0 /\ length (r_frames st1) = 3 /\ state_size st1 = 38 /\ checkpoint_bytes stored st1 = Some b /\ length b = 502.
Proof.
  eexists. split; [vm_compute; reflexivity|]. do 4 (split; [vm_compute; reflexivity|]). do 3 eexists. split; [vm_compute; reflexivity|].
  split; [vm_compute; reflexivity|]. split; [apply MigNone|]. do 2 (split; [vm_compute; reflexivity|]). split; vm_compute; reflexivity.
Qed.
