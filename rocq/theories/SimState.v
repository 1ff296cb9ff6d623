(** States equal up to what no instruction can observe: the identity of the memory allocation, the
    instruction positions saved in labels, pointers cached by suspended frames.  Proofs only. *)
From Coq Require Import ZArith List Bool Lia.
From Verif Require Import Word Value Float Mem Store Regs IR Machine.
Import ListNotations.
Open Scope nat_scope.

Definition erase_mem (m : meminst) : meminst := {| m_data := m_data m; m_max := m_max m; m_gen := 0 |}.
Definition erase (s : inst) : inst :=
  {| i_mem := option_map erase_mem (i_mem s); i_globals := i_globals s; i_tables := i_tables s; i_datas := i_datas s |}.
(** the same instance up to the identity of the memory allocation *)
Definition inst_sim (s s' : inst) : Prop := erase s = erase s'.
Definition lab (l : label) : bool * nat := (l_loop l, l_ret l).
Definition labs (ls : list label) := map lab ls.
(** the cached pointer is the current one *)
Definition ptr_ok (d : data) : Prop := d_ptr d = cur_ptr (d_inst d).
Record dsim (d d' : data) : Prop := {
  ds_rf : d_rf d = d_rf d'; ds_loc : d_loc d = d_loc d'; ds_inst : inst_sim (d_inst d) (d_inst d');
  ds_p : ptr_ok d; ds_p' : ptr_ok d' }.
Record vsim (v v' : vs) : Prop := {
  vs_d : dsim (s_d v) (s_d v'); vs_l : labs (s_labels v) = labs (s_labels v'); vs_r : s_ret v = s_ret v'; vs_pc : s_pc v = s_pc v' }.

Definition eres (r : res (inst * option val)) : res (inst * option val) :=
  match r with Ok (s, v) => Ok (erase s, v) | Trap t => Trap t | UB => UB end.
Lemma sop_eval_erase hf o s s' a : inst_sim s s' -> eres (sop_eval hf o s a) = eres (sop_eval hf o s' a).
Proof.
  unfold inst_sim. intros H. destruct s as [m g t d], s' as [m' g' t' d']. unfold erase in H. cbn in H.
  injection H as HM -> -> ->.
  assert (Y : forall x y, erase_mem x = erase_mem y -> m_data x = m_data y /\ m_max x = m_max y).
  { unfold erase_mem. intros x y E. injection E. auto. }
  destruct o; cbn [sop_eval]; destruct a as [|a1 [|a2 [|a3 [|]]]]; try reflexivity;
    try (match goal with |- context [op2_eval hf ?o ?x ?y] => destruct (op2_eval hf o x y); cbn; unfold erase; cbn; rewrite ?HM; reflexivity end);
    try (match goal with |- context [cvt_eval hf ?o ?x] => destruct (cvt_eval hf o x); cbn; unfold erase; cbn; rewrite ?HM; reflexivity end);
    try (cbn; unfold erase; cbn; rewrite ?HM; reflexivity).
  all: try (cbn [i_globals]; match goal with |- context [global_get ?o ?x ?y] => destruct (global_get o x y) end; cbn; unfold erase; cbn; rewrite ?HM; reflexivity).
  all: try (cbn [i_globals]; match goal with |- context [global_set ?o ?x ?y] => destruct (global_set o x y) end; cbn; unfold erase; cbn; rewrite ?HM; reflexivity).
  all: try (cbn [i_tables]; match goal with |- context [table_get ?o ?x ?y] => destruct (table_get o x y) end; cbn; unfold erase; cbn; rewrite ?HM; reflexivity).
  all: try (cbn [i_tables]; match goal with |- context [table_set ?o ?x ?y ?z] => destruct (table_set o x y z) end; cbn; unfold erase; cbn; rewrite ?HM; reflexivity).
  all: try (cbn [i_tables]; match goal with |- context [table_fill ?o ?x ?y ?z ?u] => destruct (table_fill o x y z u) end; cbn; unfold erase; cbn; rewrite ?HM; reflexivity).
  all: unfold raw_mem, need_mem; cbn [i_mem i_datas]; destruct m as [m|], m' as [m'|]; try discriminate HM; cbn [of_opt bind]; try reflexivity.
  all: assert (HM' : erase_mem m = erase_mem m') by (cbn [option_map] in HM; congruence); destruct (Y _ _ HM') as [YD YX].
  - rewrite YD. destruct (mem_load _ _ _ _); cbn; try reflexivity. unfold erase. cbn. now rewrite HM'.
  - rewrite YD. destruct (mem_store _ _ _ _ _); cbn; try reflexivity. unfold erase, erase_mem. cbn. now rewrite YX.
  - unfold mem_size. rewrite YD. cbn. unfold erase. cbn. now rewrite HM'.
  - unfold mem_grow, mem_grow_raw, mem_size. rewrite YD, YX. destruct (_ <? 0)%Z; [reflexivity|].
    destruct (match m_max m' with Some _ => _ | None => _ end). { cbn. unfold erase. cbn. now rewrite HM'. }
    destruct (65536 <? _)%Z. { cbn. unfold erase. cbn. now rewrite HM'. }
    cbv zeta. destruct (isize_max <? _)%Z; cbn [bind]; reflexivity.
  - rewrite YD. destruct (mem_copy _ _ _ _); cbn; try reflexivity. unfold erase, erase_mem. cbn. now rewrite YX.
  - rewrite YD. destruct (mem_init _ _ _ _ _ _); cbn; try reflexivity. unfold erase, erase_mem. cbn. now rewrite YX.
  - rewrite YD. destruct (mem_fill _ _ _ _); cbn; try reflexivity. unfold erase, erase_mem. cbn. now rewrite YX.
Qed.
(** only memory.grow changes the allocation, and it re-reads the pointer *)
Lemma sop_eval_gen hf o s a s' v : sop_eval hf o s a = Ok (s', v) -> sets_ptr o = false -> cur_ptr s' = cur_ptr s.
Proof.
  intros H G.
  assert (B : forall A (r : res A) k, (let* x := r in k x) = Ok (s', v) -> exists a, r = Ok a /\ k a = Ok (s', v)) by (intros A [] k; cbn; try discriminate; eauto).
  destruct o; try discriminate G; destruct a as [|a1 [|a2 [|a3 [|]]]]; cbn [sop_eval] in H; try discriminate H;
    repeat match type of H with (let* x := _ in _) = _ => apply B in H as (? & ? & H) end; injection H as <- _; try reflexivity.
  all: unfold raw_mem, need_mem in *; unfold cur_ptr; destruct (i_mem s); cbn in *; try discriminate; congruence.
Qed.
Definition dresim (r r' : res data) : Prop :=
  match r, r' with Ok d, Ok d' => dsim d d' | Trap t, Trap t' => t = t' | UB, UB => True | _, _ => False end.
Lemma read_sim d d' c o : dsim d d' -> read d c o = read d' c o.
Proof. intros [A B _ _ _]. destruct o; cbn; rewrite ?A, ?B; reflexivity. Qed.
Lemma read_all_sim d d' : dsim d d' -> forall cs os, read_all d cs os = read_all d' cs os.
Proof.
  intros S. induction cs as [|c cs IH]; intros [|o os]; cbn; auto. rewrite (read_sim _ _ c o S). destruct (read d' c o); cbn; auto. rewrite IH. reflexivity.
Qed.
Lemma write_sim d d' c t v : dsim d d' -> dresim (write d c t v) (write d' c t v).
Proof.
  intros [A B C P P']. destruct t; cbn [write].
  - rewrite A. destruct (rf_set _ _ _ _); cbn; auto. constructor; auto.
  - rewrite B. destruct (Nat.ltb _ _); cbn; auto. constructor; auto.
Qed.
Lemma fresh_ok d : ptr_ok d -> fresh_ptr d = match i_mem (d_inst d) with Some _ => true | None => false end.
Proof. unfold ptr_ok, fresh_ptr, cur_ptr. intros ->. destruct (i_mem (d_inst d)); cbn; auto. apply Nat.eqb_refl. Qed.
Lemma dstep_sim hf i d d' : dsim d d' ->
  match dstep hf i d, dstep hf i d' with Some r, Some r' => dresim r r' | None, None => True | _, _ => False end.
Proof.
  intros S. pose proof S as [A B C P P']. destruct i; cbn [dstep]; auto.
  - rewrite (read_sim _ _ _ _ S). destruct (read d' c s); cbn; auto. apply write_sim; auto.
  - assert (FR : fresh_ptr d = fresh_ptr d').
    { rewrite !fresh_ok by auto. unfold inst_sim, erase in C. injection C as C _ _ _. destruct (i_mem (d_inst d)), (i_mem (d_inst d')); cbn in C; congruence. }
    rewrite FR. destruct (uses_ptr o && negb (fresh_ptr d')); [exact Logic.I|].
    rewrite (read_all_sim _ _ S). destruct (read_all d' _ srcs) as [args| |]; cbn [bind dresim]; auto.
    pose proof (sop_eval_erase hf o _ _ args C) as E. destruct (sop_eval hf o (d_inst d) args) as [[s v]| |] eqn:E1, (sop_eval hf o (d_inst d') args) as [[s' v']| |] eqn:E2;
      cbn [eres] in E; try discriminate; cbn [bind dresim fst snd]; auto; [|congruence].
    assert (E' : erase s = erase s') by congruence. assert (v = v') by congruence. subst v'. clear E.
    assert (S2 : dsim (if sets_ptr o then set_ptr (set_inst d s) (cur_ptr s) else set_inst d s) (if sets_ptr o then set_ptr (set_inst d' s') (cur_ptr s') else set_inst d' s')).
    { destruct (sets_ptr o) eqn:G; [constructor; auto; reflexivity|]. constructor; auto; unfold ptr_ok; cbn.
      - etransitivity; [exact P|]. symmetry. exact (sop_eval_gen _ _ _ _ _ _ E1 G).
      - etransitivity; [exact P'|]. symmetry. exact (sop_eval_gen _ _ _ _ _ _ E2 G). }
    unfold write_opt. destruct (sop_res o); [|exact S2]. destruct d0; [|exact S2]. destruct v; [|exact S2]. apply write_sim. exact S2.
  - unfold do_select. rewrite A. destruct (rf_get _ CI32 cond); cbn; auto. destruct (rf_get _ c _); cbn; auto. destruct (rf_set _ _ _ _); cbn; auto. constructor; auto.
  - rewrite B. destruct (nth_error _ l) as [[]|]; cbn; auto. rewrite A. destruct (rf_set _ _ _ _); cbn; auto. constructor; auto.
  - rewrite A. destruct (rf_get _ _ _); cbn [bind dresim write]; auto. rewrite B. destruct (Nat.ltb _ _); cbn; auto. constructor; auto.
Qed.

Definition hsim (o o' : hout) : Prop :=
  match o, o' with
  | HNext v, HNext v' => vsim v v'
  | HHalt v, HHalt v' => vsim v v'
  | HYield y v, HYield y' v' => y = y' /\ vsim v v'
  | HTrap t, HTrap t' => t = t'
  | HUB, HUB => True
  | _, _ => False
  end.
Lemma labs_len ls ls' : labs ls = labs ls' -> length ls = length ls'.
Proof. intros H. apply (f_equal (@length _)) in H. unfold labs in H. now rewrite !map_length in H. Qed.
Lemma labs_tl ls ls' : labs ls = labs ls' -> labs (tl ls) = labs (tl ls').
Proof. destruct ls, ls'; cbn; congruence. Qed.
Lemma labs_skipn n : forall ls ls', labs ls = labs ls' -> labs (skipn n ls) = labs (skipn n ls').
Proof. induction n; intros [|l ls] [|l' ls'] H; cbn in *; auto; try discriminate. injection H as _ _ H. auto. Qed.
Lemma labs_pop ls ls' d : labs ls = labs ls' -> labs (pop_to ls d) = labs (pop_to ls' d).
Proof. intros H. unfold pop_to, truncate. rewrite (labs_len _ _ H). now apply labs_skipn. Qed.
Lemma set_rf_sim d d' rf : dsim d d' -> dsim (set_rf d rf) (set_rf d' rf).
Proof. intros []. constructor; auto. Qed.
Lemma branch_sim v v' d t src tgt : vsim v v' -> hsim (branch v d t src tgt) (branch v' d t src tgt).
Proof.
  intros [S L R P]. pose proof S as [A _ _ _ _]. unfold branch. rewrite A.
  destruct (match src with [] => _ | _ => _ end); cbn; auto. constructor; cbn; auto using set_rf_sim, labs_pop.
Qed.
Lemma end_halt_sim n v v' src : vsim v v' -> hsim (end_halt n v src) (end_halt n v' src).
Proof. intros [S L R P]. unfold end_halt. destruct (arrayvec8 src); cbn; auto. constructor; auto. Qed.
Lemma goto_sim v v' n : vsim v v' -> vsim (goto v n) (goto v' n).
Proof. intros []. constructor; auto. Qed.
Lemma push_sim v v' l n : vsim v v' -> vsim (push_label v l n) (push_label v' l n).
Proof. intros []. constructor; auto. cbn. unfold labs in *. cbn. congruence. Qed.
Lemma hstep_sim hf M C v v' : vsim v v' -> hsim (hstep hf M C v) (hstep hf M C v').
Proof.
  intros S. pose proof S as [D L R P]. pose proof D as [A B I _ _]. unfold hstep. rewrite <- P.
  destruct (nth_error C (s_pc v)) as [i|]; [|destruct (Nat.eqb _ _); cbn; auto].
  destruct i;
    try (match goal with |- context[dstep hf ?i (s_d v)] => pose proof (dstep_sim hf i _ _ D) as X; destruct (dstep hf i (s_d v)) as [[]|], (dstep hf i (s_d v')) as [[]|]; cbn in X |- *; try contradiction; auto end; constructor; auto; fail).
  - rewrite A. destruct (rf_get_vals _ _); cbn; auto using goto_sim.
  - rewrite A. destruct (rf_get _ _ _); cbn; auto. replace (i_tables (d_inst (s_d v'))) with (i_tables (d_inst (s_d v))) by (unfold inst_sim, erase in I; now injection I).
    destruct (table_func _ _ _); cbn; auto. destruct (nth_error (md_funcs M) _); cbn; auto. destruct (nth_error (md_types M) _); cbn; auto.
    destruct (ftype_eqb _ _); cbn; auto. destruct (rf_get_vals _ _); cbn; auto. destruct (arrayvec8 _); cbn; auto using goto_sim.
  - rewrite A. destruct (nth_error (md_funcs M) _); cbn; auto. destruct (rf_get_vals _ _); cbn; auto. destruct (arrayvec8 _); cbn; auto using goto_sim.
  - destruct (arrayvec8 _); cbn; auto. split; auto. constructor; auto.
  - cbn [hsim]. rewrite (labs_len _ _ L). constructor; cbn [s_d s_labels s_ret s_pc]; auto. destruct (Nat.ltb _ _); auto using labs_tl.
  - cbn. now apply push_sim.
  - rewrite A. destruct (rf_get _ _ _); cbn; auto. destruct (negb _); cbn; auto using push_sim. destruct has_else; cbn; auto using push_sim, goto_sim.
  - rewrite A, (labs_len _ _ L). destruct (Nat.leb _ _). { apply end_halt_sim; auto. }
    destruct (rf_copies _ _ _); cbn [hres hsim]; auto. cbn [s_pc s_labels]. replace (length (tl (s_labels v))) with (length (tl (s_labels v'))) by (apply labs_len, labs_tl; auto).
    destruct (_ && _); [apply end_halt_sim|apply goto_sim]; constructor; cbn; auto using set_rf_sim, labs_tl.
  - now apply branch_sim.
  - rewrite A. destruct (rf_get _ _ _); cbn; auto. destruct (Z.eqb _ _); [now apply goto_sim|now apply branch_sim].
  - rewrite A. destruct (rf_get _ _ _); cbn; auto. match goal with |- context [match ?x with (_, _) => _ end] => destruct x as [[dd tt] rr] end. now apply branch_sim.
  - reflexivity.
Qed.

(** suspended frames: what they hold, where they go on *)
Record fsim (f f' : frame) : Prop := {
  fs_fn : f_fn f = f_fn f'; fs_loc : f_loc f = f_loc f'; fs_l : labs (f_labels f) = labs (f_labels f');
  fs_ip : top_ip (f_labels f) = top_ip (f_labels f'); fs_ret : f_ret f = f_ret f'; fs_res : f_res f = f_res f'; fs_n : f_n f = f_n f' }.
Record csim (c c' : config) : Prop := {
  cs_v : vsim (c_v c) (c_v c'); cs_fn : c_fn c = c_fn c'; cs_n : c_n c = c_n c';
  cs_cs : Forall2 fsim (c_callers c) (c_callers c'); cs_log : c_log c = c_log c' }.
Definition ssim (o o' : sout) : Prop :=
  match o, o' with
  | SNext c, SNext c' => csim c c'
  | SDone vals s l, SDone vals' s' l' => vals = vals' /\ inst_sim s s' /\ l = l'
  | SExit z l, SExit z' l' => z = z' /\ l = l'
  | STrap t l, STrap t' l' => t = t' /\ l = l'
  | SUB, SUB => True
  | _, _ => False
  end.
Lemma fsim_refl f : fsim f f. Proof. constructor; auto. Qed.
Lemma set_ip_labs ls pc : labs (set_ip ls pc) = labs ls. Proof. destruct ls; reflexivity. Qed.
Lemma set_ip_top ls pc : ls <> [] -> top_ip (set_ip ls pc) = pc. Proof. destruct ls; cbn; congruence. Qed.
Lemma resume_sim f f' rf s s' : fsim f f' -> inst_sim s s' -> vsim (resume f rf s (cur_ptr s)) (resume f' rf s' (cur_ptr s')).
Proof. intros [] I. constructor; cbn; auto. constructor; cbn; auto; reflexivity. Qed.
Lemma suspend_sim c c' v v' rs : csim c c' -> vsim v v' -> fsim (suspend c v rs) (suspend c' v' rs).
Proof.
  intros [] [[] ? ? ?]. constructor; cbn; auto; try congruence. { now rewrite !set_ip_labs. }
  destruct (s_labels v), (s_labels v'); cbn in *; congruence.
Qed.
Lemma leave_sim c c' v v' : csim c c' -> vsim v v' -> ssim (leave c v) (leave c' v').
Proof.
  intros [CV CF CN CC CL] [[A B I _ _] L R P]. unfold leave. destruct CC as [|f f' fs fs' F FS].
  - rewrite A, CN, R, CL. destruct (rf_get_vals _ _); cbn; auto.
  - rewrite A, R, CL. destruct (rf_get_vals _ _); cbn; auto. pose proof F as []. rewrite fs_res0. destruct (rf_set_vals _ _ _); cbn; auto.
    constructor; cbn; auto. now apply resume_sim.
Qed.
Lemma writes_erase s s' ws : inst_sim s s' -> inst_sim (apply_writes s ws) (apply_writes s' ws).
Proof.
  unfold inst_sim, erase, apply_writes. intros H. injection H as H G T D. destruct (i_mem s) as [m|] eqn:E, (i_mem s') as [m'|] eqn:E'; cbn in H; try discriminate; cbn.
  - unfold erase_mem in *. cbn. injection H as H1 H2. congruence.
  - now rewrite E, E', G, T, D.
Qed.
Lemma writes_ptr s ws : cur_ptr (apply_writes s ws) = cur_ptr s.
Proof. unfold apply_writes, cur_ptr. destruct (i_mem s) eqn:E; cbn; auto. now rewrite E. Qed.
Lemma view_erase s s' : inst_sim s s' -> mem_view s = mem_view s'.
Proof. unfold inst_sim, erase, mem_view, erase_mem. intros H. injection H as H _ _ _. destruct (i_mem s), (i_mem s'); cbn in *; congruence. Qed.
Lemma host_sim host c c' v v' w args r : csim c c' -> vsim v v' -> ssim (call_host host c v w args r) (call_host host c' v' w args r).
Proof.
  intros [CV CF CN CC CL] [[A B I P1 P2] L R P]. unfold call_host. rewrite (view_erase _ _ I), CL.
  destruct (host _) as [| | | |o ws]; cbn; auto. cbn [set_inst d_rf]. rewrite A.
  match goal with |- ssim (sres _ ?r _) _ => destruct r end; cbn; auto.
  constructor; cbn; auto. constructor; cbn; auto. constructor; cbn; auto using writes_erase; unfold ptr_ok; cbn; rewrite writes_ptr; auto.
Qed.
Lemma enter_sim c c' v v' f fd args rs : csim c c' -> vsim v v' -> ssim (enter c v f fd args rs) (enter c' v' f fd args rs).
Proof.
  intros C V. pose proof C as [CV CF CN CC CL]. pose proof V as [[A B I P1 P2] L R P]. unfold enter. rewrite CL, A. destruct (default_locals _); cbn; auto.
  constructor; cbn; auto.
  - constructor; cbn; auto. constructor; cbn; auto; reflexivity.
  - constructor; auto. now apply suspend_sim.
Qed.
Lemma step_sim hf host M c c' : csim c c' -> ssim (step hf host M c) (step hf host M c').
Proof.
  intros C. pose proof C as [CV CF CN CC CL]. unfold step. rewrite <- CF. destruct (nth_error (md_funcs M) (c_fn c)) as [[fd|]|]; try exact Logic.I.
  pose proof (hstep_sim hf M (fd_code fd) _ _ CV) as H. destruct (hstep hf M (fd_code fd) (c_v c)) as [v|v|y v| |], (hstep hf M (fd_code fd) (c_v c')) as [v'|v'|y' v'| |]; cbn in H; try contradiction.
  - constructor; auto.
  - now apply leave_sim.
  - destruct H as [<- H]. destruct y.
    + now apply leave_sim.
    + now apply host_sim.
    + destruct (nth_error (md_funcs M) f) as [[g|]|]; cbn; auto. now apply enter_sim.
  - subst. cbn. auto.
  - exact Logic.I.
Qed.
(** outcomes equal up to the identity of the memory allocation *)
Definition osim (o o' : outcome) : Prop :=
  match o, o' with
  | Done vals s l, Done vals' s' l' => vals = vals' /\ inst_sim s s' /\ l = l'
  | Exited z l, Exited z' l' => z = z' /\ l = l'
  | Trapped t l, Trapped t' l' => t = t' /\ l = l'
  | Undefined, Undefined => True
  | _, _ => False
  end.
Lemma steps_sim hf host M n : forall c c', csim c c' ->
  match steps hf host M n c, steps hf host M n c' with inl d, inl d' => csim d d' | inr o, inr o' => osim o o' | _, _ => False end.
Proof.
  induction n as [|n IH]; intros c c' C; cbn [steps]; auto. pose proof (step_sim hf host M c c' C) as H.
  destruct (step hf host M c), (step hf host M c'); cbn in H; try contradiction; auto; apply IH; auto.
Qed.

(** ** the cached pointer is current in every reachable state, whatever the code *)
Definition cptr (c : config) : Prop := ptr_ok (s_d (c_v c)).
Lemma vsim_refl v : ptr_ok (s_d v) -> vsim v v.
Proof. intros P. constructor; auto. constructor; auto. reflexivity. Qed.
Lemma csim_refl c : cptr c -> csim c c.
Proof. intros P. constructor; auto using vsim_refl. induction (c_callers c); constructor; auto using fsim_refl. Qed.
Lemma csim_ptr c c' : csim c c' -> cptr c /\ cptr c'.
Proof. intros [[[]] _ _ _ _]. split; auto. Qed.
Lemma cptr_step hf host M c c' : cptr c -> step hf host M c = SNext c' -> cptr c'.
Proof. intros P H. pose proof (step_sim hf host M c c (csim_refl c P)) as S. rewrite H in S. cbn in S. now apply csim_ptr in S as [S _]. Qed.
Lemma cptr_steps hf host M n : forall c c', cptr c -> steps hf host M n c = inl c' -> cptr c'.
Proof.
  induction n as [|n IH]; intros c c' P H; cbn [steps] in H; [congruence|]. destruct (step hf host M c) eqn:E; try discriminate. eauto using cptr_step.
Qed.
Lemma cptr_initial M s f args c : initial M s f args = Ok c -> cptr c.
Proof. unfold initial. destruct (nth_error _ _) as [[]|]; try discriminate. destruct (Nat.eqb _ _); try discriminate. intros H. injection H as <-. reflexivity. Qed.
