(** Checkpoint files: proofs for Properties_Files.v (no modelled code). *)
From Coq Require Import ZArith List Bool Lia.
From Coq Require String.
From Verif Require Import Word Float Value Mem WasmMem MemProofs Store Regs IR Machine Wasm WasmTyping Decoder Check Layout Properties_Layout Restrict WasmPrims Runtime SimState RuntimeProofs MigrationProofs Properties_Runtime Module ModuleSpec EmitProofs StaticSpec TotalSpec Properties_Total Load LoadSpec LoadProofs ParamProofs MainProofs Codec CodecProofs FileSpec PrimFacts Soundness ModuleProofs Properties_Module EmitTyped RangeProofs.
Import ListNotations.
Open Scope nat_scope.

Lemma vec_fits {A} (c : codec A) l : short l -> Forall (fits c) l -> fits (c_vec c) l.
Proof. intros S H. split; [exact S|exact H]. Qed.
Lemma rev_fits {A} (c : codec A) l : fits (c_vec c) l -> fits (c_rev (c_vec c)) l.
Proof. intros [S H]. split; [|exact Logic.I]. split; [now rewrite rev_length|]. now apply Forall_rev. Qed.
Lemma u32_fits n : u32 n -> fits c_u32 n.
Proof. intros H. split; [|exact H]. cbn [fits c_uint]. change (256 ^ Z.of_nat 4)%Z with (2 ^ 32)%Z. unfold u32 in H. lia. Qed.
Lemma usize_fits n : u32 n -> fits c_usize n.
Proof. intros H. split; [|exact H]. cbn [fits c_uint]. change (256 ^ Z.of_nat 8)%Z with (2 ^ 64)%Z. unfold u32 in H. lia. Qed.
Lemma u16_fits n : u16 n -> fits c_u16 n.
Proof. intros H. split; [|exact H]. cbn [fits c_uint]. change (256 ^ Z.of_nat 2)%Z with (2 ^ 16)%Z. unfold u16 in H. lia. Qed.
Lemma six_fits {A} (c : cls -> codec A) (s : six A) : (forall k, fits (c k) (sget s k)) -> fits (c_six c) s.
Proof. intros H. split; [|exact Logic.I]. repeat split; [apply (H CI32)|apply (H CI64)|apply (H CF32)|apply (H CF64)|apply (H CRef)|apply (H CV128)]. Qed.
Lemma regs_fits rs : regs_ok rs -> fits c_regs rs.
Proof.
  intros [L H]. split; [|exact L]. apply vec_fits; [unfold short, u32; lia|]. eapply Forall_impl; [|exact H].
  intros r Hr. split; [|exact Logic.I]. split; [cbn [fst fits c_uint]; change (256 ^ Z.of_nat 4)%Z with (2 ^ 32)%Z; destruct (r_cls r); cbn; lia|].
  now apply u16_fits.
Qed.
Lemma vals_fits l : short l -> Forall val_ok l -> forallb ser_val l = true -> fits (c_vec c_val) l.
Proof.
  intros S V H. apply vec_fits; auto. rewrite forallb_forall in H. rewrite Forall_forall in V |- *. intros x I. apply val_fits. auto.
Qed.
(** a vector takes at least one byte per element *)
Definition wide {A} (c : codec A) : Prop := forall x, 1 <= length (put c x).
Lemma wide_via {A B} (c : codec A) (to : B -> A) back ok : wide c -> wide (c_via c to back ok).
Proof. intros H x. apply H. Qed.
Lemma wide_pair {A B} (a : codec A) (b : codec B) : wide a -> wide (c_pair a b).
Proof. intros H x. cbn [put c_pair]. rewrite app_length. specialize (H (fst x)). lia. Qed.
Lemma wide_uint n : 1 <= n -> wide (c_uint n).
Proof. intros H x. cbn [put c_uint]. now rewrite le_encode_length. Qed.
Lemma wide_vec {A} (c : codec A) : wide (c_vec c).
Proof. intros x. cbn [put c_vec]. rewrite app_length, le_encode_length. lia. Qed.
Lemma wide_enum {A} tag (of : BinNums.Z -> option (codec A)) : wide (c_enum tag of).
Proof. intros x. cbn [put c_enum]. rewrite app_length, le_encode_length. lia. Qed.
Lemma wide_class c : wide (of_class c).
Proof. destruct c; cbn [of_class]; try apply wide_enum; intros x; cbn [put c_i32 c_i64 c_f32 c_f64 c_v128 c_via c_int c_uint]; rewrite le_encode_length; lia. Qed.
Lemma wide_u32 : wide c_u32. Proof. apply wide_via, wide_uint. lia. Qed.
Lemma wide_six : wide (c_six (fun _ => c_u32)). Proof. apply wide_via, wide_pair, wide_u32. Qed.
Lemma wide_label : wide c_label. Proof. apply wide_via, wide_pair, wide_pair, wide_via, wide_uint. lia. Qed.
Lemma wide_frame : wide c_frame. Proof. apply wide_via, wide_pair, wide_pair, wide_vec. Qed.
Lemma vec_size {A} (c : codec A) l : wide c -> length l <= length (put (c_vec c) l).
Proof.
  intros W. cbn [put c_vec]. rewrite app_length. enough (length l <= length (flat_map (put c) l)) by lia.
  induction l as [|x l IH]; cbn [flat_map length]; [lia|]. rewrite app_length. specialize (W x). lia.
Qed.
Lemma vec_in {A} (c : codec A) l x : In x l -> length (put c x) <= length (put (c_vec c) l).
Proof.
  intros I. cbn [put c_vec]. rewrite app_length. enough (length (put c x) <= length (flat_map (put c) l)) by lia.
  induction l as [|y l IH]; [destruct I|]. cbn [flat_map]. rewrite app_length. destruct I as [->|I]; [lia|]. specialize (IH I). lia.
Qed.
Lemma rev_put {A} (c : codec A) l : put (c_rev (c_vec c)) l = put (c_vec c) (rev l). Proof. reflexivity. Qed.
Lemma six_part {A} (c : cls -> codec A) (s : six A) k : length (put (c k) (sget s k)) <= length (put (c_six c) s).
Proof. cbn [put c_six c_via c_pair fst snd]. rewrite !app_length. destruct k; cbn [sget]; lia. Qed.
Lemma pair_put {A B} (a : codec A) (b : codec B) p : length (put (c_pair a b) p) = length (put a (fst p)) + length (put b (snd p)).
Proof. cbn [put c_pair]. apply app_length. Qed.
Lemma via_put {A B} (c : codec A) (to : B -> A) back ok x : put (c_via c to back ok) x = put c (to x). Proof. reflexivity. Qed.
Lemma short_le {A B} (l : list A) (b : list B) : short b -> length l <= length b -> short l.
Proof. unfold short, u32. lia. Qed.
Lemma u32_le n m : u32 m -> n <= m -> u32 n. Proof. unfold u32. lia. Qed.
Lemma file_fits z st b g : lossless z -> state_ok st -> checkpoint st = Some g -> put c_file (file_of z g) = b -> short b -> fits c_file (file_of z g).
Proof.
  intros Z [R O F2 G2 M] C EB SB. unfold checkpoint in C. destruct (ser_state st) eqn:SS; [|discriminate].
  injection C as C. unfold ser_state in SS. apply andb_prop in SS as [SS SG]. apply andb_prop in SS as [SR SF].
  assert (SZ : length (put c_regfile (g_rf g)) <= length b /\ length (put (c_rev (c_vec c_frame)) (g_frames g)) <= length b /\
    length (put (c_vec c_byte) (fi_mem (file_of z g))) <= length b /\ length (put (c_vec c_val) (g_globals g)) <= length b /\ length (put (c_rev (c_vec c_u32)) (g_funcs g)) <= length b).
  { rewrite <- EB. unfold c_file. rewrite via_put, !pair_put. cbn [fst snd file_of fi_rf fi_frames fi_mem fi_globals fi_funcs]. lia. }
  destruct SZ as (Z1 & Z2 & Z3 & Z4 & Z5).
  split; [|exact Logic.I]. cbn [file_of fi_rf fi_frames fi_mem fi_globals fi_funcs]. split; [split|split; [|split]]; cbn [fst snd].
  - unfold c_regfile in Z1. rewrite via_put, !pair_put in Z1. cbn [fst snd] in Z1. rewrite <- C in Z1 |- *. cbn [g_rf] in Z1 |- *.
    assert (SV : forall c, short (sget (rf_vecs (r_rf st)) c)).
    { intros c. apply (short_le _ b SB). etransitivity; [apply (vec_size (of_class c) _ (wide_class c))|]. pose proof (six_part (fun c => c_vec (of_class c)) (rf_vecs (r_rf st)) c). cbn beta in *. lia. }
    split; [|exact Logic.I]. split; [|split]; cbn [fst snd].
    + apply six_fits. intros c. apply vec_fits; auto.
      unfold ser_rf in SR. rewrite forallb_forall in SR. assert (K : forallb ser_val (sget (rf_vecs (r_rf st)) c) = true) by (apply SR; destruct c; cbn; tauto).
      rewrite forallb_forall in K. specialize (R c). rewrite Forall_forall in R |- *. intros v I. apply class_fits. destruct (R v I). auto.
    + inversion O as [|? ? O1 O2]; subst. apply rev_fits, vec_fits.
      * apply (short_le _ _ SB). pose proof (vec_size _ (rev (rf_stack (r_rf st))) wide_six) as K. rewrite rev_length in K. rewrite rev_put in Z1. lia.
      * eapply Forall_impl; [|exact O2]. intros o Ho. apply six_fits. intros c. apply u32_fits. exact (u32_le _ _ (SV c) (Ho c)).
    + inversion O as [|? ? O1 O2]; subst. apply six_fits. intros c. apply u32_fits. exact (u32_le _ _ (SV c) (O1 c)).
  - rewrite rev_put in Z2. apply rev_fits, vec_fits; [apply (short_le _ b SB); pose proof (vec_size _ (rev (g_frames g)) wide_frame) as K; rewrite rev_length in K; lia|].
    assert (ZF : forall x, In x (g_frames g) -> length (put c_frame x) <= length b).
    { intros x I. pose proof (vec_in c_frame (rev (g_frames g)) x (proj1 (in_rev _ _) I)). lia. }
    rewrite <- C in ZF |- *. cbn [g_frames] in ZF |- *.
    rewrite forallb_forall in SF. rewrite Forall_forall in F2 |- *. intros f I. specialize (ZF f I). apply in_map_iff in I. destruct I as (x & <- & I).
    specialize (SF x I). destruct (F2 x I) as [A1 A2 A4 A6 A7 A8]. unfold c_frame in ZF. rewrite via_put, !pair_put in ZF. cbn [fst snd g_loc g_n g_labels g_res g_ret] in ZF. rewrite rev_put in ZF.
    split; [|exact Logic.I]. cbn [g_loc g_n g_labels g_res g_ret].
    split; [split|split; [|split]]; cbn [fst snd].
    + apply vals_fits; auto. apply (short_le _ b SB). pose proof (vec_size c_val (f_loc (snd x)) (wide_enum _ _)). lia.
    + now apply usize_fits.
    + apply rev_fits, vec_fits; [apply (short_le _ b SB); pose proof (vec_size _ (rev (f_labels (snd x))) wide_label) as K; rewrite rev_length in K; lia|].
      eapply Forall_impl; [|exact A6]. intros l [L1 L2]. split; [|exact Logic.I].
      split; [split|]; cbn [fst snd]; [|now apply usize_fits|now apply usize_fits].
      split; [|exact Logic.I]. cbn [fits c_uint]. destruct (l_loop l); cbn; lia.
    + now apply regs_fits.
    + now apply regs_fits.
  - apply vec_fits.
    + apply (short_le _ b SB). pose proof (vec_size c_byte (fi_mem (file_of z g)) (wide_uint 1 ltac:(lia))). cbn [file_of fi_mem] in *. lia.
    + assert (K : bytes_ok (match g_mem g with Some m => squeeze z m | None => [] end)).
      { rewrite <- C. cbn [g_mem]. destruct (i_mem (r_inst st)) as [m|]; cbn; [|constructor]. apply (z_bytes z Z). auto. }
      eapply Forall_impl; [|exact K]. intros x Hx. cbn. unfold is_byte in Hx. lia.
  - assert (SGL : short (g_globals g)) by (apply (short_le _ b SB); pose proof (vec_size c_val (g_globals g) (wide_enum _ _)); lia).
    rewrite <- C in SGL |- *. cbn [g_globals] in SGL |- *. now apply vals_fits.
  - rewrite rev_put in Z5. apply rev_fits, vec_fits; [apply (short_le _ b SB); pose proof (vec_size _ (rev (g_funcs g)) wide_u32) as K; rewrite rev_length in K; lia|].
    rewrite <- C. cbn [g_funcs].
    rewrite Forall_forall in F2 |- *. intros f I. apply in_map_iff in I. destruct I as (x & <- & I). apply u32_fits, (F2 x I).
Qed.
Lemma checkpoint_lengths st g : checkpoint st = Some g -> length (g_funcs g) = length (g_frames g).
Proof. unfold checkpoint. destruct (ser_state st); [|discriminate]. intros [= <-]. cbn. now rewrite !map_length. Qed.
Lemma image_back z st g : lossless z -> state_ok st -> checkpoint st = Some g -> image_of z (file_of z g) = g.
Proof.
  intros Z S C. unfold image_of, file_of. cbn [fi_rf fi_frames fi_mem fi_globals fi_funcs].
  rewrite (checkpoint_lengths _ _ C), Nat.sub_diag. cbn [skipn].
  assert (K : expand z (match g_mem g with Some m => squeeze z m | None => [] end) = g_mem g).
  { unfold checkpoint in C. destruct (ser_state st); [|discriminate]. injection C as <-. cbn [g_mem].
    destruct (i_mem (r_inst st)) as [m|] eqn:EM; cbn; [apply (z_back z Z); now apply (so_mem _ S)|apply (z_empty z Z)]. }
  rewrite K. destruct g; reflexivity.
Qed.
Lemma bytes_file z st b : checkpoint_bytes z st = Some b -> exists g, checkpoint st = Some g /\ put c_file (file_of z g) = b.
Proof. unfold checkpoint_bytes. destruct (checkpoint st) as [g|]; [|discriminate]. cbn. intros [= <-]. eauto. Qed.
(** reading back what was written, whatever follows it *)
Lemma read_back z st b : lossless z -> state_ok st -> checkpoint_bytes z st = Some b -> short b ->
  exists g, checkpoint st = Some g /\ forall M s r log t,
    match restore M s g log t with
    | Some st' => restore_bytes z M s (b ++ r) log t = Resumed st'
    | None => restore_bytes z M s (b ++ r) log t = Refused \/ restore_bytes z M s (b ++ r) log t = Panicked
    end.
Proof.
  intros Z S C SB. destruct (bytes_file _ _ _ C) as (g & CK & EB). exists g. split; auto. intros M s r log t.
  pose proof (file_fits z st b g Z S CK EB SB) as F. unfold restore_bytes. rewrite <- EB, (g_round _ file_good _ _ F).
  rewrite (image_back z st g Z S CK). cbn [file_of fi_funcs fi_frames fi_mem]. rewrite (checkpoint_lengths _ _ CK), Nat.ltb_irrefl.
  destruct (restore M s g log t) as [st'|]; [reflexivity|]. destruct (restore M s _ log t); auto.
Qed.
(** a file cut short *)
Lemma cut_refused z st b p q : lossless z -> state_ok st -> checkpoint_bytes z st = Some b -> short b -> b = p ++ q -> q <> [] ->
  forall M s log t, restore_bytes z M s p log t = Refused.
Proof.
  intros Z S C SB E N M s log t. destruct (bytes_file _ _ _ C) as (g & CK & EB).
  pose proof (file_fits z st b g Z S CK EB SB) as F. unfold restore_bytes.
  rewrite (cut_short c_file (file_of z g) p q file_good F); [reflexivity|congruence|exact N].
Qed.

Lemma no_ref_ser v : no_reference v <-> ser v.
Proof.
  unfold no_reference, ser. destruct v as [z|z|z|z|r|z]; cbn; split; intros H; auto; try (intros r' E; discriminate E).
  - rewrite (H r eq_refl). reflexivity.
  - intros r' [= <-]. destruct r; [reflexivity|discriminate|discriminate].
Qed.
Lemma movable_plain SM M : compile SM = Some M -> code_movable SM -> plain M.
Proof.
  intros C O f fd i N I. pose proof (ok_compile op_movable (fun _ => true) SM M C O f fd i N I) as K.
  assert (X : forall o, okopnd (fun _ => true) o = true -> ser_opnd o = true) by (intros o Ho; destruct o as [| |v] eqn:EO; try reflexivity; destruct v; cbn in Ho |- *; (reflexivity || discriminate)).
  destruct i; cbn [okinstr ser_instr] in *; auto. apply andb_prop in K as [K1 K2]. rewrite forallb_forall in K2.
  apply andb_true_intro. split; [destruct o; auto|]. apply forallb_forall. auto.
Qed.
Lemma written_ser ff args ss : Forall2 (written ff) args ss -> Forall ser args.
Proof. induction 1 as [|v s vs ss W]; constructor; auto. destruct v; cbn in W; try reflexivity; contradiction. Qed.
(** ** a process that does not know of the calls made before *)
Definition addlog (l : list event) (c : config) : config :=
  {| c_v := c_v c; c_fn := c_fn c; c_n := c_n c; c_callers := c_callers c; c_log := c_log c ++ l |}.
Definition saddlog (l : list event) (o : sout) : sout :=
  match o with
  | SNext c => SNext (addlog l c) | SDone vs s g => SDone vs s (g ++ l) | SExit z g => SExit z (g ++ l) | STrap t g => STrap t (g ++ l) | SUB => SUB
  end.
Definition oaddlog (l : list event) (o : outcome) : outcome :=
  match o with Done vs s g => Done vs s (g ++ l) | Exited z g => Exited z (g ++ l) | Trapped t g => Trapped t (g ++ l) | Undefined => Undefined end.
Lemma sres_addlog {A} l g (r : res A) k k' : (forall a, k' a = saddlog l (k a)) -> sres (g ++ l) r k' = saddlog l (sres g r k).
Proof. intros K. destruct r; cbn; auto. Qed.
Lemma step_addlog hf host host' M l c : (forall g, host' g = host (g ++ l)) -> step hf host M (addlog l c) = saddlog l (step hf host' M c).
Proof.
  intros HH. unfold step. cbn [addlog c_fn c_v]. destruct (nth_error (md_funcs M) (c_fn c)) as [[fd|]|]; try reflexivity.
  destruct (hstep hf M (fd_code fd) (c_v c)) as [v|v|[ |w args r|f args rs] v|t|]; try reflexivity.
  - unfold leave. cbn [addlog c_callers c_log c_n]. destruct (c_callers c); apply sres_addlog; intros; [reflexivity|]. apply sres_addlog. reflexivity.
  - unfold leave. cbn [addlog c_callers c_log c_n]. destruct (c_callers c); apply sres_addlog; intros; [reflexivity|]. apply sres_addlog. reflexivity.
  - unfold call_host. cbn [addlog c_log]. rewrite HH. cbn [app].
    change ((w, args, mem_view (d_inst (s_d v))) :: c_log c ++ l) with (((w, args, mem_view (d_inst (s_d v))) :: c_log c) ++ l).
    destruct (host _); try reflexivity. apply sres_addlog. reflexivity.
  - destruct (nth_error (md_funcs M) f) as [[g|]|]; try reflexivity. unfold enter. cbn [addlog c_callers c_log]. apply sres_addlog. reflexivity.
Qed.
Lemma steps_addlog hf host host' M l : (forall g, host' g = host (g ++ l)) -> forall n c,
  steps hf host M n (addlog l c) = match steps hf host' M n c with inl c => inl (addlog l c) | inr o => inr (oaddlog l o) end.
Proof.
  intros HH. induction n as [|n IH]; intros c; cbn [steps]; [reflexivity|]. rewrite (step_addlog hf host host' M l c HH).
  destruct (step hf host' M c); cbn [saddlog]; auto.
Qed.
Definition restart (l : list event) (t : nat) (st : rstate) : rstate :=
  {| r_rf := r_rf st; r_frames := r_frames st; r_inst := r_inst st; r_log := l; r_t := t |}.
Definition relog (l : list event) (c : config) : config :=
  {| c_v := c_v c; c_fn := c_fn c; c_n := c_n c; c_callers := c_callers c; c_log := l |}.
Lemma restart_rel l t st c : rel st c -> rel (restart l t st) (relog l c) /\ c = addlog (r_log st) (relog [] c).
Proof.
  intros (c1 & CO & [V F N C L]). split.
  - unfold config_of in CO. destruct (r_frames st) as [|[b f] rest] eqn:EF; [discriminate|]. injection CO as <-.
    eexists. split; [unfold config_of; cbn [restart r_frames]; rewrite EF; reflexivity|]. constructor; auto.
  - unfold config_of in CO. destruct (r_frames st) as [|[b f] rest] eqn:EF; [discriminate|]. injection CO as <-. cbn [c_log] in L. rewrite L. destruct c; reflexivity.
Qed.
Lemma reported_addlog l o : reported (oaddlog l o) = and_calls l (reported o).
Proof. destruct o; reflexivity. Qed.
Lemma and_calls_inj l r r' : and_calls l r = and_calls l r' -> r = r'.
Proof. destruct r, r'; cbn; try discriminate; auto. intros [= -> -> H]. apply app_inv_tail in H. now subst. Qed.
Lemma restore_restart M s g log t st l t' : restore M s g log t = Some st -> restore M s g l t' = Some (restart l t' st).
Proof.
  unfold restore. destruct (match i_mem s with Some _ => _ | None => _ end) as [s1|]; [|discriminate].
  destruct (if Nat.eqb _ _ then _ else _) as [s2|]; [|discriminate]. destruct (forallb _ _); [|discriminate]. intros [= <-]. reflexivity.
Qed.
(** ** every checkpoint holds values of their types *)
Lemma content_byte ps k : forall d, is_byte d -> Forall (fun p => bytes_ok (snd p)) ps -> is_byte (content d ps k).
Proof.
  induction ps as [|[o x] ps IH]; intros d D H; cbn [content]; auto. inversion H as [|? ? H1 H2]; subst. apply IH; auto. destruct (_ && _); auto.
  destruct (nth_in_or_default (Z.to_nat (k - o)) x d) as [K|K]; [|now rewrite K]. cbn [snd] in H1. unfold bytes_ok in H1. rewrite Forall_forall in H1. auto.
Qed.
Lemma active_bytes gs i l ps : active gs i l ps -> Forall (fun p => bytes_ok (snd p)) l -> Forall (fun p : BinNums.Z * list BinNums.Z => bytes_ok (snd p)) ps.
Proof. induction 1; intros Q; inversion Q; subst; auto. Qed.
Lemma instance_datas S I : instantiate S = IDone I -> i_datas (mi_inst I) = map ds_bytes (s_datas S).
Proof.
  unfold instantiate.
  destruct (link _) as [imps| | | | |]; try discriminate. cbn [ibind]. cbv zeta. destruct (alloc_mem _) as [m| | | | |]; try discriminate. cbn [ibind].
  destruct (globals _ _) as [gs| | | | |]; try discriminate. cbn [ibind]. destruct (elems _ _ _ _) as [ts| | | | |]; try discriminate. cbn [ibind].
  destruct (datas _ _ _) as [m'| | | | |]; try discriminate. cbn [ibind]. destruct (negb _); try discriminate.
  match goal with |- context [ibind ?x _] => destruct x as [[]| | | | |]; try discriminate end. cbn [ibind]. intros E. injection E as <-. reflexivity.
Qed.
Lemma instance_iok sg W gs F M I : LoadSpec.presents sg W F -> LoadSpec.sound W gs -> handled W -> in_range W gs -> compile (w_code W) = Some M -> instance sg F = Some I -> iok (mi_inst I).
Proof.
  intros P S H [_ IG ID _ _] C EI. destruct (load_complete sg W F M P C) as (m & fds & L & T & FM & TM).
  pose proof (shell_valid W gs M fds S C FM) as V. destruct H as [H1 H2 H3 H4]. destruct S as [_ _ SL _].
  destruct (C32_instance_partial (with_code W fds) (md_funcs M) gs V H1 H2 H3 SL) as (I' & EI' & IO).
  unfold instance in EI. rewrite L, T, EI' in EI. injection EI as <-. pose proof (instance_datas _ _ EI') as DT. split.
  - now rewrite (io_globals _ _ _ _ IO).
  - intros mi EM. pose proof (io_memory _ _ _ _ IO) as K. destruct (s_mem (with_code W fds)) as [[min max]|]; [|congruence].
    destruct K as (mi' & E' & _ & LN & K). rewrite EM in E'. injection E' as <-.
    destruct (active_total gs 0 (data_segments (with_code W fds))) as (ps & AC).
    { intros i x y IN. unfold data_segments in IN. apply in_map_iff in IN as (e & EE & IN). injection EE as E1 _. destruct (v_data _ _ _ V e i x IN E1) as (_ & _ & K'). exact K'. }
    specialize (K ps AC). apply Forall_forall. intros x IN. destruct (In_nth _ _ 0%Z IN) as (j & J & <-). unfold len in LN.
    rewrite <- (Nat2Z.id j). rewrite K by lia. apply content_byte; [apply zero_byte|]. eapply active_bytes; [exact AC|].
    apply Forall_forall. intros p IP. unfold data_segments in IP. apply in_map_iff in IP as (e & <- & IP). cbn [snd]. rewrite Forall_forall in ID. exact (ID e IP).
  - rewrite DT. cbn [with_code s_datas]. apply Forall_forall. intros x IN. apply in_map_iff in IN as (e & <- & IN). rewrite Forall_forall in ID. auto.
Qed.
Lemma below_all st : forall t, below t st -> Forall (fun o => forall c, sget o c <= t c) st.
Proof.
  induction st as [|o st IH]; intros t H; constructor; [apply H|]. destruct H as [H1 H2]. eapply Forall_impl; [|apply (IH _ H2)]. intros o' L c. specialize (L c). specialize (H1 c). lia.
Qed.
Lemma good_state_ok W gs M st : in_range W gs -> compile (w_code W) = Some M -> sgood M st -> state_ok st.
Proof.
  intros [IC IG ID IF IB] C [A [O1 O2] [I1 I2 I3] FS]. destruct (f_compile val_okb _ _ C IC) as (LN & FC). constructor; auto.
  - pose proof (below_all _ _ O1) as K. constructor; auto. rewrite O2. destruct (rf_stack (r_rf st)); [intros []; cbn; lia|now inversion K].
  - eapply Forall_impl; [|exact FS]. intros [b f] (fd & [FN NN LC LB LV RT RS]). cbn [snd] in *.
    destruct (FC _ _ FN) as (_ & d & ND & TD & LD). destruct (IB d (nth_error_In _ _ ND)) as [B1 B2].
    assert (LT : f_fn f < length (md_funcs M)) by (apply nth_error_Some; congruence).
    constructor; auto.
    + unfold short, u32 in *. lia.
    + rewrite NN, TD. exact B2.
    + eapply Forall_impl; [|exact LB]. intros l [L1 L2]. unfold u32 in *. lia.
Qed.
Lemma migrated_good hf host M s st0 st : hostfp_ok hf -> host_ok host -> mod_ok M -> fines M -> iok s -> sgood M st0 -> migrated hf host M s st0 st -> sgood M st.
Proof.
  intros HF HO MO FM I S0 MG. induction MG as [|E D en k n st st1 g st2 MG IH RUN CK TB DT RS]; auto.
  pose proof (run_good hf host M E D en k n st HF HO MO FM IH) as K. rewrite RUN in K. eapply restore_good; eauto.
Qed.
(** ** several processes *)
Section Processes.
  Variables (hf : hostfp) (host : hostfn) (sg : nat -> ftype) (ff : cls -> list Z -> option Z) (z : lz4).
  Variables (W : wmodule) (gs : list val) (F : list payload) (name : String.string) (f : nat) (d : sfdef) (args : list val) (ss : list (list Z)).
  Hypotheses (Z : lossless z) (P : LoadSpec.presents sg W F) (S : LoadSpec.sound W gs) (H : handled W) (O : Forall one_result (sm_funcs (w_code W))).
  Hypotheses (WI : known_module (w_code W) = true) (MD : forallb (modest (w_code W)) (sm_funcs (w_code W)) = true).
  Hypotheses (EX : In (name, ExFunc f) (w_exports W)) (N : nth_error (sm_funcs (w_code W)) f = Some (SWasm d)).
  Hypotheses (TA : Forall2 has_type (fst (sf_type d)) args) (WR : Forall2 (written ff) args ss).

  Lemma fresh_session : exists I M st0, instance sg F = Some I /\ mi_modul I = M /\ compile (w_code W) = Some M /\ start M (mi_inst I) f args = Ok st0 /\
    i_globals (mi_inst I) = gs /\
    forall E D cr k n, session hf host sg ff z Fresh E D cr k n F name ss = inr (run hf host M E D cr k n st0).
  Proof.
    destruct (C42_modest _ (so_code _ _ S) O WI MD) as (M & C & Sm).
    destruct (instance_loaded sg W gs F M P S H C) as (I & fds & EI & IO & EM).
    assert (EF : get_export_func I name = Some f) by (apply (io_exports _ _ _ _ IO (so_names _ _ S)); exact EX).
    assert (PA : parse_params ff ss = Some args).
    { apply parse_written_all; auto. clear -TA. induction TA as [|? ? ? ? [? ?]]; constructor; auto. }
    assert (LA : length args = length (fst (sf_type d))) by (symmetry; clear -TA; induction TA; cbn; auto).
    destruct (start_of _ _ (mi_inst I) _ _ _ C N LA) as (st & ST).
    exists I, M, st. repeat (split; [solve [auto]|]). split; [apply (io_globals _ _ _ _ IO)|].
    intros. unfold session. rewrite EI, EF, PA, EM, ST. reflexivity.
  Qed.

  Hypotheses (HF : hostfp_ok hf) (HO : host_ok host) (IR : in_range W gs).
  Lemma fresh_good I M st0 st : instance sg F = Some I -> compile (w_code W) = Some M -> start M (mi_inst I) f args = Ok st0 -> migrated hf host M (mi_inst I) st0 st ->
    forall E D cr k n st1, run hf host M E D cr k n st = RCheckpoint st1 -> state_ok st1.
  Proof.
    intros EI C ST MG E D cr k n st1 RUN. pose proof (compile_ok _ _ C) as MO.
    assert (FM : fines M) by (intros x fd NX; apply (f_compile val_okb _ _ C (ir_consts _ _ IR)) in NX; apply NX).
    pose proof (instance_iok sg W gs F M I P S H IR C EI) as IK.
    assert (AO : Forall val_ok args) by (clear -TA; induction TA as [|? ? ? ? [? ?]]; constructor; auto).
    pose proof (migrated_good _ _ _ _ _ _ HF HO MO FM IK (start_good _ _ _ _ _ MO AO IK ST) MG) as K.
    pose proof (run_good hf host M E D cr k n st HF HO MO FM K) as K'. rewrite RUN in K'. eapply good_state_ok; eauto.
  Qed.
  Hypothesis MV : movable (w_code W) gs host.
  Lemma history_state how : history hf host sg ff z F name ss how -> exists I M st0 st, instance sg F = Some I /\ mi_modul I = M /\ compile (w_code W) = Some M /\
    start M (mi_inst I) f args = Ok st0 /\ migrated hf host M (mi_inst I) st0 st /\ Forall ser args /\ Forall ser (i_globals (mi_inst I)) /\
    forall E D cr k n, session hf host sg ff z how E D cr k n F name ss = inr (run hf host M E D cr k n st).
  Proof.
    destruct fresh_session as (I & M & st0 & EI & EM & C & ST & EG & SE). destruct MV as [MC MG MH].
    assert (PA : Forall ser args) by (eapply written_ser; eauto).
    assert (PG : Forall ser (i_globals (mi_inst I))) by (rewrite EG; eapply Forall_impl; [|exact MG]; intros v; apply no_ref_ser).
    assert (PH : plain_host host) by (intros log v ws X; apply no_ref_ser; eauto).
    pose proof (movable_plain _ _ C MC) as PM. intros HI. exists I, M, st0. induction HI as [|how E D k n st b HI IH SS CB SB].
    - exists st0. repeat (split; [solve [auto]|]). split; [constructor|]. auto.
    - destruct IH as (st1 & _ & _ & _ & _ & MG1 & _ & _ & SE1). rewrite SE1 in SS. injection SS as SS.
      pose proof (fresh_good I M st0 st1 EI C ST MG1 _ _ _ _ _ _ SS) as SO.
      destruct (C28_plain_modules hf host (w_code W) M (mi_inst I) f args st0 st1 E D true k n st C PM PH PA PG ST MG1 SS) as (g & st2 & CK & RS & MG2).
      exists st2. repeat (split; [solve [auto]|]). intros E' D' cr' k' n'. unfold session. rewrite EI, EM.
      destruct (read_back z st b Z SO CB SB) as (g' & CK' & RB). rewrite CK in CK'. injection CK' as <-.
      specialize (RB M (mi_inst I) [] (r_log st) (r_t st)). rewrite RS, app_nil_r in RB. rewrite RB. reflexivity.
  Qed.
  (** every request for a checkpoint is answered with a file *)
  Lemma history_saves how E D k n st : history hf host sg ff z F name ss how -> session hf host sg ff z how E D true k n F name ss = inr (RCheckpoint st) ->
    exists b, checkpoint_bytes z st = Some b.
  Proof.
    intros HI SS. destruct (history_state how HI) as (I & M & st0 & st1 & EI & EM & C & ST & MG1 & PA & PG & SE1). rewrite SE1 in SS. injection SS as SS.
    destruct MV as [MC MG MH].
    assert (PH : plain_host host) by (intros log v ws X; apply no_ref_ser; eauto).
    destruct (C28_plain_modules hf host (w_code W) M (mi_inst I) f args st0 st1 E D true k n st C (movable_plain _ _ C MC) PH PA PG ST MG1 SS) as (g & st2 & CK & RS & MG2).
    unfold checkpoint_bytes. rewrite CK. cbn. eauto.
  Qed.
  Lemma history_ok how E D cr k n st : history hf host sg ff z F name ss how -> session hf host sg ff z how E D cr k n F name ss = inr (RCheckpoint st) -> state_ok st.
  Proof.
    intros HI SS. destruct (history_state how HI) as (I & M & st0 & st1 & EI & EM & C & ST & MG1 & PA & PG & SE1). rewrite SE1 in SS. injection SS as SS.
    exact (fresh_good I M st0 st1 EI C ST MG1 _ _ _ _ _ _ SS).
  Qed.
  (** the last process reports what one process does *)
  Lemma history_report how E D E' D' r : history hf host sg ff z F name ss how -> r <> Running ->
    (exists k n, main hf host sg ff E D false k n F name ss = r) <-> (exists k n, command hf host sg ff z how E' D' false k n F name ss = r).
  Proof.
    intros HI NR. destruct (history_state how HI) as (I & M & st0 & st & EI & EM & C & ST & MG & PA & PG & SE).
    destruct fresh_session as (I' & M' & st0' & EI' & EM' & C' & ST' & EG & SE').
    rewrite EI in EI'. injection EI' as <-. rewrite EM in EM'. subst M'. rewrite ST in ST'. injection ST' as <-.
    assert (MA : forall k n, main hf host sg ff E D false k n F name ss = handle_result (run hf host M E D false k n st0)).
    { intros k n. specialize (SE' E D false k n). unfold session in SE'. unfold main. rewrite EI in *.
      destruct (get_export_func I name) as [f1|]; [|discriminate]. destruct (parse_params ff ss) as [l1|]; [|discriminate]. destruct (start (mi_modul I) (mi_inst I) f1 l1); try discriminate.
      injection SE' as SE'. now rewrite SE'. }
    assert (CA : forall k n, command hf host sg ff z how E' D' false k n F name ss = handle_result (run hf host M E' D' false k n st)).
    { intros k n. unfold command. now rewrite SE. }
    assert (MO : mod_ok M) by exact (compile_ok _ _ C).
    destruct (start_initial _ _ _ _ _ ST) as (c0 & I0 & RL0).
    destruct (migrated_rel _ _ _ _ _ _ _ _ _ MO ST I0 MG) as (j & c & _ & _ & FL).
    destruct (migrated_rel _ _ _ _ _ _ _ _ _ MO ST I0 (MigNone hf host M (mi_inst I) st0)) as (j0 & c1 & _ & _ & FL0).
    assert (Q : forall E D st k n st', flags st (fun b => b = false) -> run hf host M E D false k n st <> RCheckpoint st').
    { intros E1 D1 st1 k n st' FL1. apply run_quiet; [|now left]. eapply Forall_impl; [|apply (armed_flags false st1 (fun b => b = false)); auto]. intros x ->. now left. }
    pose proof (C28_resume_partial hf host (w_code W) M (mi_inst I) f args st0 st C ST MG E D E' D') as RE. split.
    - intros (k & n & K). rewrite MA in K. destruct (handled_observe (run hf host M E D false k n st0)) as (o & OB); [congruence|intros; now apply Q|].
      destruct (proj1 (RE o)) as (k' & n' & OB'); [eauto|]. exists k', n'. rewrite CA, (report_observe _ _ OB'), <- K. symmetry. now apply report_observe.
    - intros (k & n & K). rewrite CA in K. destruct (handled_observe (run hf host M E' D' false k n st)) as (o & OB); [congruence|intros; now apply Q|].
      destruct (proj2 (RE o)) as (k' & n' & OB'); [eauto|]. exists k', n'. rewrite MA, (report_observe _ _ OB'), <- K. symmetry. now apply report_observe.
  Qed.

  Lemma history_last b log t : history hf host sg ff z F name ss (From b log t) -> exists I M st0 st g, instance sg F = Some I /\ mi_modul I = M /\ compile (w_code W) = Some M /\
    start M (mi_inst I) f args = Ok st0 /\ migrated hf host M (mi_inst I) st0 st /\ restore M (mi_inst I) g log t = Some st /\
    forall log' t', restore_bytes z M (mi_inst I) b log' t' = Resumed (restart log' t' st).
  Proof.
    intros HI. inversion HI as [|how E D k n st1 b' HI0 SS CB SB EH]; subst.
    destruct (history_state how HI0) as (I & M & st0 & st & EI & EM & C & ST & MG & PA & PG & SE). destruct MV as [MC MGL MH].
    assert (PH : plain_host host) by (intros log v ws X; apply no_ref_ser; eauto).
    rewrite SE in SS. injection SS as SS. pose proof (fresh_good I M st0 st EI C ST MG _ _ _ _ _ _ SS) as SO.
    destruct (C28_plain_modules hf host (w_code W) M (mi_inst I) f args st0 st E D true k n st1 C (movable_plain _ _ C MC) PH PA PG ST MG SS) as (g & st2 & CK & RS & MG2).
    exists I, M, st0, st2, g. repeat (split; [solve [auto]|]). intros log' t'.
    destruct (read_back z st1 b Z SO CB SB) as (g' & CK' & RB). rewrite CK in CK'. injection CK' as <-.
    specialize (RB M (mi_inst I) [] log' t'). rewrite (restore_restart _ _ _ _ _ _ log' t' RS), app_nil_r in RB. exact RB.
  Qed.
  (** a new process whose host goes on where the old one stopped *)
  Lemma history_continued b log t t' host' E D E' D' r : history hf host sg ff z F name ss (From b log t) -> r <> Running ->
    (forall g, host' g = host (g ++ log)) ->
    (exists k n, command hf host sg ff z (From b log t) E D false k n F name ss = and_calls log r) <->
    (exists k n, command hf host' sg ff z (From b [] t') E' D' false k n F name ss = r).
  Proof.
    intros HI NR HH. destruct (history_last b log t HI) as (I & M & st0 & st & g & EI & EM & C & ST & MG & RS & RB).
    assert (MO : mod_ok M) by exact (compile_ok _ _ C).
    destruct (start_initial _ _ _ _ _ ST) as (c0 & I0 & RL0).
    destruct (migrated_rel _ _ _ _ _ _ _ _ _ MO ST I0 MG) as (j & c & SJ & RL & FL).
    pose proof (levels_steps hf host M MO _ _ _ (levels_initial _ _ _ _ _ MO I0) SJ) as LV.
    destruct (restart_rel [] t' st c RL) as [RL' EC].
    assert (SAME : st = restart log t st) by (pose proof (restore_restart _ _ _ _ _ _ log t RS) as X; rewrite RS in X; congruence).
    assert (LG : r_log st = log) by (rewrite SAME; reflexivity).
    rewrite LG in EC.
    assert (Q : forall host E D st k n st', flags st (fun b => b = false) -> run hf host M E D false k n st <> RCheckpoint st').
    { intros host1 E1 D1 st1 k n st' FL1. apply run_quiet; [|now left]. eapply Forall_impl; [|apply (armed_flags false st1 (fun b => b = false)); auto]. intros x ->. now left. }
    assert (LV' : levels M (relog [] c)) by (destruct LV as [LV1 LV2]; split; auto).
    assert (CA : forall host E D k n l t0, command hf host sg ff z (From b l t0) E D false k n F name ss = handle_result (run hf host M E D false k n (restart l t0 st))).
    { intros. unfold command, session. now rewrite EI, EM, RB. }
    symmetry in SAME.
    pose proof (run_complete hf host M E D false MO (armed false st) c) as R1.
    pose proof (run_complete hf host' M E' D' false MO (armed false (restart [] t' st)) (relog [] c)) as R2.
    specialize (R1 (proj2 (rel_armed _ _ _) RL) LV (fun k n st' => Q host E D st k n st' FL)).
    specialize (R2 (proj2 (rel_armed _ _ _) RL') LV' (fun k n st' => Q host' E' D' (restart [] t' st) k n st' FL)).
    change (forall o, (exists j o', steps hf host M j c = inr o' /\ erase_out o' = o) <-> (exists k n, observe (run hf host M E D false k n st) = Some o)) in R1.
    change (forall o, (exists j o', steps hf host' M j (relog [] c) = inr o' /\ erase_out o' = o) <-> (exists k n, observe (run hf host' M E' D' false k n (restart [] t' st)) = Some o)) in R2.
    split.
    - intros (k & n & K). rewrite CA, SAME in K. destruct (handled_observe (run hf host M E D false k n st)) as (o & OB); [rewrite K; destruct r; try discriminate; congruence|intros; now apply Q|].
      destruct (proj2 (R1 o)) as (m & o' & SS & EO); [eauto|]. rewrite EC in SS. rewrite (steps_addlog hf host host' M log HH) in SS.
      destruct (steps hf host' M m (relog [] c)) as [c2|o2] eqn:S2; [discriminate|]. injection SS as <-.
      destruct (proj1 (R2 (erase_out o2))) as (k' & n' & OB'); [eauto|]. exists k', n'. rewrite CA, (report_observe _ _ OB'), reported_erase.
      rewrite (report_observe _ _ OB), <- EO, reported_erase, reported_addlog in K. exact (and_calls_inj _ _ _ K).
    - intros (k & n & K). rewrite CA in K. destruct (handled_observe (run hf host' M E' D' false k n (restart [] t' st))) as (o & OB); [congruence|intros; now apply Q|].
      destruct (proj2 (R2 o)) as (m & o' & SS & EO); [eauto|].
      destruct (proj1 (R1 (erase_out (oaddlog log o')))) as (k' & n' & OB').
      { exists m, (oaddlog log o'). split; auto. rewrite EC, (steps_addlog hf host host' M log HH), SS. reflexivity. }
      exists k', n'. rewrite CA, SAME, (report_observe _ _ OB'), reported_erase, reported_addlog. f_equal. rewrite <- K, (report_observe _ _ OB), <- EO. symmetry. apply reported_erase.
  Qed.
End Processes.
