(** Checkpoint and restore: invariants of runs that make them succeed.  Proofs only. *)
From Coq Require Import ZArith List Bool Lia.
From Verif Require Import Word Value Numeric Float Mem MemProofs Store StoreProofs Regs IR Machine Decoder Layout Properties_Layout RegsProofs FrameFacts ExecFacts SimState Runtime RuntimeProofs.
Import ListNotations.
Open Scope nat_scope.

(** ** how a step changes the instance *)
Lemma write_inst d c t v d' : write d c t v = Ok d' -> d_inst d' = d_inst d.
Proof.
  destruct t; cbn [write]; intros H; [apply bind_inv in H as (rf & _ & H); injection H as <-; auto|]. destruct (Nat.ltb _ _); [injection H as <-; auto|discriminate].
Qed.
Lemma write_opt_inst d t o v d' : write_opt d t o v = Ok d' -> d_inst d' = d_inst d.
Proof. unfold write_opt. destruct t, o, v; intros H; try (injection H as <-; auto; fail). eapply write_inst; eauto. Qed.
Lemma dstep_inst hf i d d' : dstep hf i d = Some (Ok d') ->
  d_inst d' = d_inst d \/ exists o t srcs args x, i = IOp o t srcs /\ sop_eval hf o (d_inst d) args = Ok (d_inst d', x).
Proof.
  destruct i; cbn [dstep]; intros H; try discriminate H; injection H as H.
  - left. apply bind_inv in H as (v & _ & H). eapply write_inst; eauto.
  - right. destruct (_ && _); [discriminate|]. apply bind_inv in H as (args & _ & H). apply bind_inv in H as ([s x] & H1 & H). cbn [fst snd] in H.
    apply write_opt_inst in H. exists o, d0, srcs, args, x. split; auto. rewrite H1, H. destruct (sets_ptr o); reflexivity.
  - left. unfold do_select in H. apply bind_inv in H as (? & _ & H). apply bind_inv in H as (? & _ & H). apply bind_inv in H as (? & _ & H). injection H as <-. auto.
  - left. destruct (nth_error _ _) as [[]|]; try discriminate; try (injection H as <-; auto; fail). exact (write_inst _ CRef (DReg d0) _ _ H).
  - left. apply bind_inv in H as (v & _ & H). exact (write_inst _ CRef (DLoc l) _ _ H).
  - left. congruence.
Qed.
Lemma branch_inst v n t src tgt v' : hv (branch v n t src tgt) = Some v' -> d_inst (s_d v') = d_inst (s_d v).
Proof. unfold branch. intros H. apply hres_inv in H as (rf & _ & H). injection H as <-. reflexivity. Qed.
Ltac hinv H := repeat first
  [ apply hres_inv in H as (? & ? & H)
  | match type of H with
    | hv (if ?b then _ else _) = _ => destruct b
    | hv (match ?x with _ => _ end) = _ => destruct x eqn:?
    | hv (HTrap _) = _ => discriminate H
    | hv HUB = _ => discriminate H
    end ].
Lemma hstep_inst hf M code v v' : hv (hstep hf M code v) = Some v' ->
  d_inst (s_d v') = d_inst (s_d v) \/ exists o t srcs args x, In (IOp o t srcs) code /\ sop_eval hf o (d_inst (s_d v)) args = Ok (d_inst (s_d v'), x).
Proof.
  unfold hstep. destruct (nth_error code (s_pc v)) as [i|] eqn:N; [|destruct (Nat.eqb _ _); intros H; [injection H as <-; auto|discriminate]].
  intros H. destruct i;
    try (match type of H with context[dstep hf ?i ?d] => destruct (dstep hf i d) as [[d'| |]|] eqn:E; try discriminate H; injection H as <-;
      apply dstep_inst in E as [E|(o' & t' & srcs' & args & x & E1 & E2)]; [left; exact E|right; exists o', t', srcs', args, x; split; [|exact E2]; rewrite <- E1; eapply nth_error_In; eauto] end; fail).
  all: left; hinv H; try (eapply branch_inst; eauto; fail); try (injection H as <-; reflexivity); try (unfold end_halt in H; hinv H; injection H as <-; reflexivity).
Qed.
Lemma step_inst hf host M c c' (Q : inst -> Prop) :
  (forall f fd o t srcs s a s' x, nth_error (md_funcs M) f = Some (FWasm fd) -> In (IOp o t srcs) (fd_code fd) -> Q s -> sop_eval hf o s a = Ok (s', x) -> Q s') ->
  (forall s ws, Q s -> Q (apply_writes s ws)) ->
  Q (d_inst (s_d (c_v c))) -> step hf host M c = SNext c' -> Q (d_inst (s_d (c_v c'))).
Proof.
  intros Q1 Q2 Q0 H. unfold step in H. destruct (nth_error (md_funcs M) (c_fn c)) as [[fd|]|] eqn:NF; try discriminate.
  assert (HQ : forall v', hv (hstep hf M (fd_code fd) (c_v c)) = Some v' -> Q (d_inst (s_d v'))).
  { intros v' X. apply hstep_inst in X as [->|(o & t & srcs & args & x & I & X)]; eauto. }
  destruct (hstep hf M (fd_code fd) (c_v c)) as [v|v|[|w a r|f a rs] v| |] eqn:HS; try discriminate; cbn [hv] in HQ; specialize (HQ _ eq_refl).
  - injection H as <-. exact HQ.
  - unfold leave in H. destruct (c_callers c); [apply sres_inv in H as (? & _ & H); discriminate|]. apply sres_inv in H as (? & _ & H). apply sres_inv in H as (? & _ & H). injection H as <-. exact HQ.
  - unfold leave in H. destruct (c_callers c); [apply sres_inv in H as (? & _ & H); discriminate|]. apply sres_inv in H as (? & _ & H). apply sres_inv in H as (? & _ & H). injection H as <-. exact HQ.
  - unfold call_host in H. destruct (host _); try discriminate. apply sres_inv in H as (? & _ & H). injection H as <-. cbn. auto.
  - destruct (nth_error (md_funcs M) f) as [[g|]|]; try discriminate. unfold enter in H. apply sres_inv in H as (? & _ & H). injection H as <-. exact HQ.
Qed.
Lemma steps_inst hf host M n (Q : inst -> Prop) :
  (forall f fd o t srcs s a s' x, nth_error (md_funcs M) f = Some (FWasm fd) -> In (IOp o t srcs) (fd_code fd) -> Q s -> sop_eval hf o s a = Ok (s', x) -> Q s') ->
  (forall s ws, Q s -> Q (apply_writes s ws)) ->
  forall c c', Q (d_inst (s_d (c_v c))) -> steps hf host M n c = inl c' -> Q (d_inst (s_d (c_v c'))).
Proof.
  intros Q1 Q2. induction n as [|n IH]; intros c c' H0 H; cbn [steps] in H; [congruence|]. destruct (step hf host M c) eqn:S; try discriminate. eapply IH; [|exact H]. eapply step_inst; eauto.
Qed.
(** ** the shape of an instance never changes *)
Definition shape (s s' : inst) : Prop :=
  option_map m_max (i_mem s) = option_map m_max (i_mem s') /\ map val_cls (i_globals s) = map val_cls (i_globals s').
Lemma upd_map_same {A B} (f : A -> B) x : forall l i y, nth_error l i = Some y -> f y = f x -> map f (upd l i x) = map f l.
Proof. induction l as [|z l IH]; intros [|i] y H E; cbn in *; try discriminate; [congruence|]. f_equal. eauto. Qed.
Lemma sop_eval_shape hf o s a s' v : sop_eval hf o s a = Ok (s', v) -> shape s s'.
Proof.
  intros H. destruct o; destruct a as [|a1 [|a2 [|a3 [|]]]]; cbn [sop_eval] in H; try discriminate H;
    repeat match type of H with (let* x := _ in _) = _ => apply bind_inv in H as (? & ? & H) end; injection H as <- _; try (split; reflexivity).
  all: unfold raw_mem, need_mem in *; split; try reflexivity; cbn [with_mem with_globals i_mem i_globals option_map].
  all: try (match goal with H : of_opt (i_mem ?s0) = _ |- _ => destruct (i_mem s0); cbn in H; try discriminate H; injection H as <-; reflexivity end).
  all: try (match goal with H : match i_mem ?s0 with _ => _ end = _ |- _ => destruct (i_mem s0) as [m|]; cbn in H; try discriminate H; injection H as <- end; try reflexivity).
  - unfold mem_grow, mem_grow_raw in *. destruct (_ <? 0)%Z; [discriminate|]. destruct (match m_max m with Some _ => _ | None => _ end); [match goal with H : Ok _ = Ok _ |- _ => injection H as <- end; reflexivity|].
    destruct (65536 <? _)%Z; [match goal with H : Ok _ = Ok _ |- _ => injection H as <- end; reflexivity|]. cbv zeta in *. destruct (isize_max <? _)%Z; [discriminate|].
    match goal with H : Ok _ = Ok _ |- _ => injection H as <- end. reflexivity.
  - match goal with H : global_set _ _ _ = _ |- _ => unfold global_set in H; destruct (nth_error _ _) eqn:N; [|discriminate]; destruct (cls_eqb _ _) eqn:E; [|discriminate]; injection H as <- end.
    symmetry. eapply upd_map_same; eauto. now apply cls_eqb_eq.
Qed.
Lemma shape_refl s : shape s s. Proof. split; auto. Qed.
Lemma shape_trans a b c : shape a b -> shape b c -> shape a c. Proof. intros [] []. split; congruence. Qed.
Lemma writes_shape s ws : shape s (apply_writes s ws).
Proof. unfold apply_writes. destruct (i_mem s) eqn:E; split; cbn; rewrite ?E; auto. Qed.
Lemma steps_shape hf host M n c c' : steps hf host M n c = inl c' -> shape (d_inst (s_d (c_v c))) (d_inst (s_d (c_v c'))).
Proof.
  intros H. eapply (steps_inst hf host M n (fun s => shape (d_inst (s_d (c_v c))) s)); eauto using shape_refl.
  - intros. eapply shape_trans; eauto. eapply sop_eval_shape; eauto.
  - intros. eapply shape_trans; eauto using writes_shape.
Qed.

(** ** restore undoes checkpoint *)
Lemma restore_globals_ok : forall gs vals, map val_cls gs = map val_cls vals -> restore_globals gs vals = Some vals.
Proof.
  induction gs as [|g gs IH]; intros [|v vals] H; cbn in *; try discriminate; auto. injection H as H1 H2. rewrite H1, cls_eqb_refl, IH by auto. reflexivity.
Qed.
Lemma map_combine_frames (fs : list (bool * frame)) (P : nat -> iframe -> bool * frame) :
  map (fun p => P (fst p) (snd p)) (combine (map (fun f => f_fn (snd f)) fs)
    (map (fun f => {| g_loc := f_loc (snd f); g_labels := f_labels (snd f); g_ret := f_ret (snd f); g_res := f_res (snd f); g_n := f_n (snd f) |}) fs))
  = map (fun f => P (f_fn (snd f)) {| g_loc := f_loc (snd f); g_labels := f_labels (snd f); g_ret := f_ret (snd f); g_res := f_res (snd f); g_n := f_n (snd f) |}) fs.
Proof. induction fs as [|f fs IH]; cbn; auto. now rewrite IH. Qed.
(** the state [restore] builds from the file made by [checkpoint] *)
Lemma restore_checkpoint M s st g c log t : checkpoint st = Some g -> rel st c -> levels M c -> shape s (r_inst st) ->
  i_tables s = i_tables (r_inst st) -> i_datas s = i_datas (r_inst st) -> log = r_log st ->
  exists st', restore M s g log t = Some st' /\ rel st' c /\ flags st' (fun b => b = false) /\ inst_sim (r_inst st') (r_inst st) /\
    r_rf st' = r_rf st /\ length (r_frames st') = length (r_frames st) /\ r_log st' = log /\ r_t st' = t.
Proof.
  intros CK (c1 & CO & CS) LV [SM SG] ST SD ->. pose proof (levels_sim M _ _ (csim_sym _ _ CS) LV) as ((fd & NF & _) & FA).
  unfold checkpoint in CK. destruct (ser_state st); [|discriminate]. injection CK as <-. unfold restore. cbn [g_mem g_globals g_funcs g_rf g_frames].
  set (s1 := {| i_mem := match i_mem s, i_mem (r_inst st) with Some m, Some m' => Some (set_data m (m_data m')) | _, _ => None end;
                i_globals := i_globals s; i_tables := i_tables s; i_datas := i_datas s |}).
  replace (match i_mem s, option_map m_data (i_mem (r_inst st)) with
           | Some m, Some d => Some (with_mem s (set_data m d)) | Some _, None => None | None, _ => Some s end) with (Some s1).
  2: { unfold s1. destruct s as [[m|] gs ts ds], (i_mem (r_inst st)) as [m'|]; cbn in SM |- *; try discriminate SM; reflexivity. }
  cbn [s1 i_globals]. assert (LG : length (i_globals s) = length (i_globals (r_inst st))) by (apply (f_equal (@length _)) in SG; now rewrite !map_length in SG).
  rewrite LG, Nat.eqb_refl. rewrite (restore_globals_ok _ _ SG). cbn [option_map].
  set (s2 := with_globals s1 (i_globals (r_inst st))).
  assert (IS : inst_sim s2 (r_inst st)).
  { unfold inst_sim, erase, s2, s1, with_globals. cbn. f_equal; auto. destruct (i_mem s) as [m|], (i_mem (r_inst st)) as [m'|]; cbn in SM |- *; try discriminate; auto. unfold erase_mem. cbn. congruence. }
  assert (FN : forallb (fun f => Nat.ltb f (length (md_funcs M))) (map (fun f : bool * frame => f_fn (snd f)) (r_frames st)) = true).
  { unfold config_of in CO. destruct (r_frames st) as [|[b f] rest]; [discriminate|]. injection CO as <-. cbn [map forallb snd c_fn c_callers] in *. apply andb_true_intro. split.
    - apply Nat.ltb_lt, nth_error_Some. congruence.
    - apply forallb_forall. intros x IN. apply in_map_iff in IN as ([b' f'] & <- & IN). rewrite Forall_forall in FA. destruct (FA f') as (fd' & N' & _). { apply in_map_iff. exists (b', f'). auto. }
      apply Nat.ltb_lt, nth_error_Some. cbn [snd]. congruence. }
  rewrite FN. eexists. split; [reflexivity|]. split; [|split; [|split; [|split; [|split; [|split]]]]]; cbn [r_inst r_rf r_log r_t r_frames]; auto.
  - rewrite (map_combine_frames (r_frames st) (fun n g => (false, {| f_fn := n; f_loc := g_loc g; f_ptr := cur_ptr s2; f_labels := g_labels g; f_ret := g_ret g; f_res := g_res g; f_n := g_n g |}))).
    unfold config_of in CO. destruct (r_frames st) as [|[b f] rest] eqn:FS; [discriminate|]. injection CO as <-.
    eexists. split; [reflexivity|]. eapply csim_trans; [|exact CS]. apply csim_ptr in CS as [CP _].
    constructor; cbn [c_v c_fn c_n c_callers c_log]; auto.
    + constructor; cbn; auto. constructor; cbn; auto. reflexivity.
    + clear. induction rest as [|[b' f'] rest IH]; cbn; constructor; auto. constructor; reflexivity.
  - unfold flags. cbn [r_frames]. apply Forall_forall. intros x IN. apply in_map_iff in IN as (p & <- & _). reflexivity.
  - rewrite map_length, combine_length, !map_length. lia.
Qed.

(** ** runs whose checkpoints cannot fail: no reference ever enters a register, a local or a global *)
Definition ser (v : val) : Prop := ser_val v = true.
Definition ser_op (o : sop) : bool := match o with STableGet _ _ | STableSet _ _ | STableFill _ _ | SDataDrop _ => false | _ => true end.
Definition ser_opnd (o : opnd) : bool := match o with OConst v => ser_val v | _ => true end.
Definition ser_instr (i : instr) : bool :=
  match i with IMov _ _ s => ser_opnd s | IOp o _ srcs => ser_op o && forallb ser_opnd srcs | _ => true end.
(** no table.get, table.set, table.fill or data.drop, no reference constant *)
Definition plain (M : modul) : Prop := forall f fd i, nth_error (md_funcs M) f = Some (FWasm fd) -> In i (fd_code fd) -> ser_instr i = true.
Definition plain_host (host : hostfn) : Prop := forall log v ws, host log = HoRet (Some v) ws -> ser v.
Definition rser (rf : regfile) : Prop := forall c, Forall ser (sget (rf_vecs rf) c).
Record dser (d : data) : Prop := { sr_rf : rser (d_rf d); sr_loc : Forall ser (d_loc d); sr_g : Forall ser (i_globals (d_inst d)) }.
Lemma ser_default c : ser (default_of c). Proof. destruct c; reflexivity. Qed.
Lemma rser_get rf c i v : rser rf -> rf_get rf c i = Ok v -> ser v.
Proof. intros H G. unfold rf_get in G. destruct (nth_error _ _) eqn:N; [|discriminate]. injection G as <-. specialize (H c). rewrite Forall_forall in H. eapply H, nth_error_In; eauto. Qed.
Lemma Forall_upd (P : val -> Prop) v : forall l i, Forall P l -> P v -> Forall P (upd l i v).
Proof. induction l as [|x l IH]; intros [|i] H V; cbn; auto; inversion H; subst; constructor; auto. Qed.
Lemma rser_set rf c i v rf' : rser rf -> ser v -> rf_set rf c i v = Ok rf' -> rser rf'.
Proof.
  intros H V G. apply rf_set_inv in G as [L ->]. intros k. cbn [rf_vecs]. rewrite sget_sset. destruct (cls_eqb c k) eqn:E; [apply cls_eqb_eq in E; subst|apply H]. apply Forall_upd; [apply H|exact V].
Qed.
Lemma rser_copies src : forall rf dst rf', rser rf -> rf_copies rf src dst = Ok rf' -> rser rf'.
Proof.
  induction src as [|s src IH]; intros rf [|d dst] rf' H G; cbn in G; try (injection G as <-; auto; fail).
  apply bind_inv in G as (rf1 & G1 & G2). eapply (IH rf1); [|exact G2]. unfold rf_copy in G1. destruct (cls_eqb _ _); [|injection G1 as <-; auto].
  apply bind_inv in G1 as (v & G3 & G1). eapply rser_set; eauto using rser_get.
Qed.
Lemma rser_set_val rf r v rf' : rser rf -> ser v -> rf_set_val rf r v = Ok rf' -> rser rf'.
Proof.
  intros H V G. unfold rf_set_val in G. destruct (r_cls r); try (eapply rser_set; [exact H| |exact G]; destruct (cls_eqb _ _); auto using ser_default; fail).
  2: injection G as <-; auto.
  destruct (cls_eqb _ _); [eapply rser_set; eauto|injection G as <-; auto].
Qed.
Lemma rser_set_vals rs : forall rf vs rf', rser rf -> Forall ser vs -> rf_set_vals rf rs vs = Ok rf' -> rser rf'.
Proof.
  induction rs as [|r rs IH]; intros rf [|v vs] rf' H V G; cbn in G; try (injection G as <-; auto; fail).
  inversion V; subst. apply bind_inv in G as (rf1 & G1 & G2). eapply (IH rf1); eauto using rser_set_val.
Qed.
Lemma rser_get_vals rf : forall rs vs, rser rf -> rf_get_vals rf rs = Ok vs -> Forall ser vs.
Proof.
  induction rs as [|r rs IH]; intros vs H G; cbn in G; [injection G as <-; constructor|]. apply bind_inv in G as (v & G1 & G). apply bind_inv in G as (vs' & G2 & G). injection G as <-.
  constructor; eauto using rser_get.
Qed.
Lemma sget_build {A} (f : cls -> A) c : sget (sbuild f) c = f c. Proof. destruct c; reflexivity. Qed.
Lemma rser_save rf al : rser rf -> rser (rf_save rf al).
Proof. intros H c. unfold rf_save. cbn [rf_vecs]. rewrite sget_build. apply Forall_app. split; [apply H|]. apply Forall_forall. intros x I. apply repeat_spec in I. subst. apply ser_default. Qed.
Lemma Forall_firstn {A} (P : A -> Prop) n : forall l, Forall P l -> Forall P (firstn n l).
Proof. induction n; intros [|x l] H; cbn; auto. inversion H; subst. constructor; auto. Qed.
Lemma rser_restore rf : rser rf -> rser (rf_restore rf).
Proof. intros H c. unfold rf_restore. cbn [rf_vecs]. destruct (rf_stack rf); [apply H|]. rewrite sget_build. apply Forall_firstn, H. Qed.
Lemma write_ser d c t v d' : dser d -> ser v -> write d c t v = Ok d' -> dser d'.
Proof.
  intros [A B G] V H. destruct t; cbn [write] in H.
  - apply bind_inv in H as (rf & H1 & H). injection H as <-. constructor; cbn; auto. eapply rser_set; eauto.
  - destruct (Nat.ltb _ _); [|discriminate]. injection H as <-. constructor; cbn; auto. now apply Forall_upd.
Qed.
Lemma read_ser d c o v : dser d -> ser_opnd o = true -> read d c o = Ok v -> ser v.
Proof.
  intros [A B G] O H. destruct o; cbn [read] in H.
  - eapply rser_get; eauto.
  - injection H as <-. exact O.
  - destruct (nth_error _ _) eqn:N; [|discriminate]. injection H as <-. destruct (cls_eqb _ _); [|apply ser_default]. rewrite Forall_forall in B. eapply B, nth_error_In; eauto.
Qed.
Lemma read_all_ser d : dser d -> forall cs os vs, forallb ser_opnd os = true -> read_all d cs os = Ok vs -> Forall ser vs.
Proof.
  intros D. induction cs as [|c cs IH]; intros [|o os] vs O H; cbn in H; try (injection H as <-; constructor).
  cbn in O. apply andb_true_iff in O as [O1 O2]. apply bind_inv in H as (v & H1 & H). apply bind_inv in H as (vs' & H2 & H). injection H as <-. constructor; eauto using read_ser.
Qed.
Lemma sop_ser hf o s a s' v : ser_op o = true -> Forall ser (i_globals s) -> Forall ser a -> sop_eval hf o s a = Ok (s', v) ->
  Forall ser (i_globals s') /\ (forall x, v = Some x -> ser x).
Proof.
  intros O G A H. destruct o; try discriminate O; destruct a as [|a1 [|a2 [|a3 [|]]]]; cbn [sop_eval] in H; try discriminate H;
    repeat match type of H with (let* x := _ in _) = _ => apply bind_inv in H as (? & ? & H) end;
    assert (E : s' = s' /\ v = v) by auto; injection H as <- <-; (split; [try exact G|intros y Y; try discriminate Y; injection Y as <-]); try reflexivity.
  - destruct o as [[] ?|?|[] []]; reflexivity.
  - unfold op2_eval in *. destruct o as [[] ?|? ?|[] []|? ?]; repeat match goal with H : rmap _ ?r = Ok _ |- _ => destruct r; cbn in H; try discriminate H end;
      match goal with H : Ok _ = Ok _ |- _ => injection H as <- end; try reflexivity; try (destruct w; reflexivity); try (destruct f; reflexivity).
  - unfold cvt_eval in *. destruct c; repeat match goal with H : match ?w with W32 => _ | W64 => _ end = _ |- _ => destruct w end;
      repeat match goal with H : rmap _ ?r = Ok _ |- _ => destruct r; cbn in H; try discriminate H end;
      repeat match goal with H : match ?s with Sx => _ | Ux => _ end = _ |- _ => destruct s end;
      match goal with H : Ok _ = Ok _ |- _ => injection H as <- end; try reflexivity; try (destruct w; reflexivity); try (destruct f; reflexivity).
  - match goal with H : mem_load _ _ _ _ = _ |- _ => unfold mem_load in H; apply bind_inv in H as (? & _ & H); injection H as <- end. destruct op; reflexivity.
  - match goal with H : global_get _ _ _ = _ |- _ => unfold global_get in H; destruct (nth_error _ _) eqn:N; [|discriminate]; injection H as <- end.
    destruct (cls_eqb _ _); [|apply ser_default]. rewrite Forall_forall in G. eapply G, nth_error_In; eauto.
  - match goal with H : global_set _ _ _ = _ |- _ => unfold global_set in H; destruct (nth_error _ _) eqn:N; [|discriminate]; destruct (cls_eqb _ _) eqn:E'; [|discriminate]; injection H as <- end.
    cbn. inversion A; subst. now apply Forall_upd.
Qed.
Record cser (c : config) : Prop := { cr_d : dser (s_d (c_v c)); cr_fs : Forall (fun f => Forall ser (f_loc f)) (c_callers c) }.
Lemma dstep_ser hf i d d' : ser_instr i = true -> dser d -> dstep hf i d = Some (Ok d') -> dser d'.
Proof.
  intros I D H. pose proof D as [A B G]. destruct i; cbn [dstep] in H; try discriminate H; injection H as H.
  - apply bind_inv in H as (v & H1 & H). eapply write_ser; eauto. eapply read_ser; eauto.
  - cbn [ser_instr] in I. apply andb_true_iff in I as [I1 I2]. destruct (_ && _); [discriminate|]. apply bind_inv in H as (args & H1 & H). apply bind_inv in H as ([s x] & H2 & H). cbn [fst snd] in H.
    destruct (sop_ser _ _ _ _ _ _ I1 G (read_all_ser d D _ _ _ I2 H1) H2) as [G' X].
    assert (D' : dser (if sets_ptr o then set_ptr (set_inst d s) (cur_ptr s) else set_inst d s)) by (destruct (sets_ptr o); constructor; auto).
    unfold write_opt in H. destruct (sop_res o), d0, x; try (injection H as <-; exact D'). eapply write_ser; eauto.
  - unfold do_select in H. apply bind_inv in H as (k & _ & H). apply bind_inv in H as (v & H1 & H). apply bind_inv in H as (rf & H2 & H). injection H as <-.
    constructor; cbn; auto. eapply rser_set; eauto using rser_get.
  - destruct (nth_error _ _) as [[]|] eqn:N; try discriminate; try (injection H as <-; auto; fail). eapply (write_ser d CRef (DReg _)); eauto. rewrite Forall_forall in B. eapply B, nth_error_In; eauto.
  - apply bind_inv in H as (v & H1 & H). eapply (write_ser d CRef (DLoc _)); eauto using rser_get.
  - congruence.
Qed.
Lemma branch_ser v n t src tgt v' : dser (s_d v) -> hv (branch v n t src tgt) = Some v' -> dser (s_d v').
Proof.
  intros [A B G]. unfold branch. intros H. apply hres_inv in H as (rf & H1 & H). injection H as <-. constructor; cbn; auto.
  destruct src; [injection H1 as <-; exact A|]. destruct tgt; [injection H1 as <-; exact A|]. eapply rser_copies; eauto.
Qed.
Definition yser (o : hout) : Prop := match o with HYield (YInvoke _ args _) _ => Forall ser args | _ => True end.
Lemma yser_res {A} (r : res A) k : (forall a, r = Ok a -> yser (k a)) -> yser (hres r k).
Proof. destruct r; cbn; auto. Qed.
Lemma hstep_yser hf M code v : dser (s_d v) -> yser (hstep hf M code v).
Proof.
  intros [A B G]. unfold hstep. destruct (nth_error code (s_pc v)) as [i|]; [|destruct (Nat.eqb _ _); exact Logic.I].
  assert (BR : forall n t s g, yser (branch v n t s g)) by (intros; unfold branch; apply yser_res; intros; exact Logic.I).
  destruct i; try (match goal with |- context[dstep hf ?i ?d] => destruct (dstep hf i d) as [[]|] end; exact Logic.I); try exact Logic.I.
  - apply yser_res; intros; exact Logic.I.
  - apply yser_res; intros k _. apply yser_res; intros f _. destruct (nth_error _ _); [|exact Logic.I]. destruct (nth_error _ _); [|exact Logic.I]. destruct (ftype_eqb _ _); [|exact Logic.I].
    apply yser_res; intros args H. apply yser_res; intros rs _. cbn. eapply rser_get_vals; eauto.
  - destruct (nth_error _ _); [|exact Logic.I]. apply yser_res; intros args H. apply yser_res; intros rs _. cbn. eapply rser_get_vals; eauto.
  - apply yser_res; intros; exact Logic.I.
  - apply yser_res; intros k _. destruct (negb _); [exact Logic.I|]. destruct has_else; exact Logic.I.
  - destruct (Nat.leb _ _); [unfold end_halt; apply yser_res; intros; exact Logic.I|]. apply yser_res; intros rf _. cbn zeta. destruct (_ && _); [unfold end_halt; apply yser_res; intros|]; exact Logic.I.
  - apply BR.
  - apply yser_res; intros k _. destruct (Z.eqb _ _); [exact Logic.I|apply BR].
  - apply yser_res; intros k _. match goal with |- context [match ?x with (_, _) => _ end] => destruct x as [[dd tt] rr] end. apply BR.
Qed.
Lemma hstep_ser hf M code v v' : (forall i, In i code -> ser_instr i = true) -> dser (s_d v) -> hv (hstep hf M code v) = Some v' -> dser (s_d v').
Proof.
  intros CK D. unfold hstep. destruct (nth_error code (s_pc v)) as [i|] eqn:N; [|destruct (Nat.eqb _ _); intros H; [injection H as <-; auto|discriminate]].
  specialize (CK i (nth_error_In _ _ N)). intros H. destruct i;
    try (match type of H with context[dstep hf ?i ?d] => destruct (dstep hf i d) as [[d'| |]|] eqn:E; try discriminate H; injection H as <-; eapply dstep_ser; eauto end; fail).
  all: hinv H; try (eapply branch_ser; eauto; fail); try (injection H as <-; exact D); try (unfold end_halt in H; hinv H; injection H as <-; exact D).
  all: injection H as <-; cbn; destruct D as [A B G]; constructor; cbn; auto; try (eapply rser_copies; eauto; fail).
  all: match goal with H : match ?x with [] => _ | _ => _ end = Ok _ |- _ => destruct x; [injection H as <-; exact A|]; match type of H with match ?y with [] => _ | _ => _ end = _ => destruct y; [injection H as <-; exact A|] end end;
    eapply rser_copies; eauto.
Qed.
Lemma default_locals_ser : forall ts ds, default_locals ts = Ok ds -> Forall ser ds.
Proof.
  induction ts as [|t ts IH]; intros ds H; cbn in H; [injection H as <-; constructor|]. apply bind_inv in H as (v & H1 & H). apply bind_inv in H as (vs & H2 & H). injection H as <-. constructor; auto.
  destruct t; cbn in H1; try discriminate; injection H1 as <-; reflexivity.
Qed.
Lemma writes_globals s ws : i_globals (apply_writes s ws) = i_globals s.
Proof. unfold apply_writes. destruct (i_mem s); reflexivity. Qed.
Lemma step_ser hf host M c c' : plain M -> plain_host host -> cser c -> step hf host M c = SNext c' -> cser c'.
Proof.
  intros PM PH [D FS] H. unfold step in H. destruct (nth_error (md_funcs M) (c_fn c)) as [[fd|]|] eqn:NF; try discriminate.
  assert (HQ : forall v', hv (hstep hf M (fd_code fd) (c_v c)) = Some v' -> dser (s_d v')) by (intros v' X; eapply hstep_ser; eauto).
  pose proof (hstep_yser hf M (fd_code fd) (c_v c) D) as YS.
  assert (LV : forall v, dser (s_d v) -> leave c v = SNext c' -> cser c').
  { intros v [A B G] X. unfold leave in X. destruct (c_callers c) as [|f fs]; [apply sres_inv in X as (? & _ & X); discriminate|]. apply sres_inv in X as (vals & X1 & X). apply sres_inv in X as (rf & X2 & X). injection X as <-.
    inversion FS; subst. constructor; cbn; auto. constructor; cbn; auto. eapply rser_set_vals; [|eapply rser_get_vals; eauto|eauto]. now apply rser_restore. }
  destruct (hstep hf M (fd_code fd) (c_v c)) as [v|v|[|w a r|f a rs] v| |] eqn:HS; try discriminate; cbn [hv] in HQ; specialize (HQ _ eq_refl); eauto.
  - injection H as <-. constructor; auto.
  - unfold call_host in H. destruct (host _) as [| | |z|o ws] eqn:HO; try discriminate. apply sres_inv in H as (rf & H1 & H). injection H as <-. destruct HQ as [A B G].
    constructor; cbn; auto. constructor; cbn; auto; [|now rewrite writes_globals]. destruct r as [r|]; [|injection H1 as <-; exact A]. destruct o as [x|]; [|injection H1 as <-; exact A]. cbn in H1. eapply rser_set_val; eauto.
  - destruct (nth_error (md_funcs M) f) as [[g|]|]; try discriminate. unfold enter in H. apply sres_inv in H as (ds & H1 & H). injection H as <-. destruct HQ as [A B G]. cbn in YS.
    constructor; cbn; auto. constructor; cbn; auto using rser_save. apply Forall_app. split; auto. eapply default_locals_ser; eauto.
Qed.
Lemma steps_ser hf host M n : plain M -> plain_host host -> forall c c', cser c -> steps hf host M n c = inl c' -> cser c'.
Proof.
  intros PM PH. induction n as [|n IH]; intros c c' C H; cbn [steps] in H; [congruence|]. destruct (step hf host M c) eqn:S; try discriminate. eapply (IH c0); eauto. eapply step_ser; eauto.
Qed.
Lemma initial_ser M s f args c : Forall ser args -> Forall ser (i_globals s) -> initial M s f args = Ok c -> cser c.
Proof.
  intros A G H. unfold initial in H. destruct (nth_error _ _) as [[fd|]|]; try discriminate. destruct (Nat.eqb _ _); [|discriminate]. injection H as <-.
  constructor; cbn; auto. constructor; cbn; auto.
  - apply rser_save. intros k. destruct k; constructor.
  - apply Forall_app. split; auto. apply Forall_forall. intros x I. apply in_map_iff in I as (t & <- & _). apply ser_default.
Qed.
Lemma forallb_Forall l : Forall ser l -> forallb ser_val l = true.
Proof. intros H. apply forallb_forall. intros x I. rewrite Forall_forall in H. now apply H. Qed.
Lemma ser_checkpoint st c : rel st c -> cser c -> exists g, checkpoint st = Some g.
Proof.
  intros (c1 & CO & [[[A B I _ _] _ _ _] _ _ CC _]) [[DA DB DG] FS]. unfold checkpoint.
  assert (E : ser_state st = true).
  { unfold config_of in CO. destruct (r_frames st) as [|[b f] rest] eqn:R; [discriminate|]. injection CO as <-. cbn in A, B, I, CC. unfold ser_state. rewrite R. rewrite A.
    apply andb_true_intro. split; [apply andb_true_intro; split|].
    - unfold ser_rf. apply forallb_forall. intros k _. apply forallb_Forall, DA.
    - cbn. apply andb_true_intro. split; [rewrite B; now apply forallb_Forall|]. clear -CC FS. remember (map snd rest) as l. revert rest Heql. induction CC as [|x y l l' H1 H2 IH]; intros rest E; destruct rest as [|[b g] rest]; try discriminate; auto.
      cbn in E. injection E as -> ->. inversion FS; subst. cbn. apply andb_true_intro. split; [|apply (IH H4 rest eq_refl)]. destruct H1 as [_ L _ _ _ _ _]. rewrite L. now apply forallb_Forall.
    - replace (i_globals (r_inst st)) with (i_globals (d_inst (s_d (c_v c)))); [now apply forallb_Forall|]. unfold inst_sim, erase in I. now injection I. }
  rewrite E. eauto.
Qed.
(** tables and data segments do not change either *)
Lemma sop_plain hf o s a s' v : ser_op o = true -> sop_eval hf o s a = Ok (s', v) -> i_tables s' = i_tables s /\ i_datas s' = i_datas s.
Proof.
  intros O H. destruct o; try discriminate O; destruct a as [|a1 [|a2 [|a3 [|]]]]; cbn [sop_eval] in H; try discriminate H;
    repeat match type of H with (let* x := _ in _) = _ => apply bind_inv in H as (? & ? & H) end; injection H as <- _; split; reflexivity.
Qed.
Lemma steps_plain hf host M n c c' : plain M -> steps hf host M n c = inl c' ->
  i_tables (d_inst (s_d (c_v c'))) = i_tables (d_inst (s_d (c_v c))) /\ i_datas (d_inst (s_d (c_v c'))) = i_datas (d_inst (s_d (c_v c))).
Proof.
  intros PM H. eapply (steps_inst hf host M n (fun s => i_tables s = i_tables (d_inst (s_d (c_v c))) /\ i_datas s = i_datas (d_inst (s_d (c_v c))))); eauto.
  - intros f fd o t srcs s a s' x NF I [Q1 Q2] E. pose proof (PM _ _ _ NF I) as PO. cbn in PO. apply andb_true_iff in PO as [PO _]. destruct (sop_plain _ _ _ _ _ _ PO E). split; congruence.
  - intros s ws [Q1 Q2]. unfold apply_writes. destruct (i_mem s); auto.
Qed.

(** ** what restore puts back, without any condition on tables and data segments *)
Definition kept (f f' : bool * frame) : Prop :=
  f_fn (snd f) = f_fn (snd f') /\ f_loc (snd f) = f_loc (snd f') /\ f_labels (snd f) = f_labels (snd f') /\ f_ret (snd f) = f_ret (snd f') /\
  f_res (snd f) = f_res (snd f') /\ f_n (snd f) = f_n (snd f').
Lemma restore_fields M s st g log t st' : checkpoint st = Some g -> restore M s g log t = Some st' -> shape s (r_inst st) ->
  r_rf st' = r_rf st /\ Forall2 kept (r_frames st') (r_frames st) /\ option_map m_data (i_mem (r_inst st')) = option_map m_data (i_mem (r_inst st)) /\
  option_map m_max (i_mem (r_inst st')) = option_map m_max (i_mem (r_inst st)) /\
  i_globals (r_inst st') = i_globals (r_inst st) /\ i_tables (r_inst st') = i_tables s /\ i_datas (r_inst st') = i_datas s /\
  flags st' (fun b => b = false) /\ Forall (fun f => f_ptr (snd f) = cur_ptr (r_inst st')) (r_frames st').
Proof.
  intros CK RS [SM SG]. unfold checkpoint in CK. destruct (ser_state st); [|discriminate]. injection CK as <-. unfold restore in RS. cbn [g_mem g_globals g_funcs g_rf g_frames] in RS.
  destruct (match i_mem s with Some _ => _ | None => _ end) as [s1|] eqn:E1; [|discriminate].
  assert (S1 : option_map m_data (i_mem s1) = option_map m_data (i_mem (r_inst st)) /\ option_map m_max (i_mem s1) = option_map m_max (i_mem s) /\ i_globals s1 = i_globals s /\ i_tables s1 = i_tables s /\ i_datas s1 = i_datas s).
  { destruct (i_mem s) as [m|] eqn:ES, (i_mem (r_inst st)) as [m'|]; cbn in SM, E1; try discriminate; injection E1 as <-; cbn; rewrite ?ES; auto. }
  destruct S1 as (A1 & A2 & A3 & A4 & A5).
  assert (LG : length (i_globals s1) = length (i_globals (r_inst st))) by (rewrite A3; apply (f_equal (@length _)) in SG; now rewrite !map_length in SG).
  rewrite LG, Nat.eqb_refl, A3, (restore_globals_ok _ _ SG) in RS. cbn [option_map] in RS. destruct (forallb _ _); [|discriminate]. injection RS as <-. cbn [r_rf r_frames r_inst with_globals i_mem i_globals i_tables i_datas].
  split; auto. split; [|split; [|split; [|split; [|split; [|split; [|split]]]]]]; auto; try congruence.
  - clear. induction (r_frames st) as [|f fs IH]; cbn; constructor; auto. repeat split; reflexivity.
  - unfold flags. cbn [r_frames]. apply Forall_forall. intros x IN. apply in_map_iff in IN as (p & <- & _). reflexivity.
  - apply Forall_forall. intros x IN. apply in_map_iff in IN as (p & <- & _). reflexivity.
Qed.
