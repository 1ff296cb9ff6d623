(** Property theorems C72, continued: the condition on the standard's run. *)
From Coq Require Import String ZArith List Bool Lia.
From Verif Require Import Word Value Numeric Float Mem WasmMem MemProofs Store Regs IR Machine Wasm WasmTyping Decoder Check Restrict WasmPrims PrimFacts Soundness Agree Correct ExecFacts Examples Properties_Exec
  Runtime Properties_Runtime Args ArgsSpec Properties_Args Wasi WasiSpec Module ModuleSpec StaticSpec TotalSpec Load LoadSpec Properties_Main
  WorldSpec World WorldProofs Properties_World EmitTyped RangeProofs EmitProofs Codec FileSpec FileProofs TraceSpec TraceProofs MoveProofs Properties_Trace Properties_Whole Properties_Move Accept Program Properties_Program BoundsSpec Bounds Properties_Bounds
  WasmFloat RoundSpec NanSpec PortProofs Ieee RoundProofs Properties_Ieee Properties_Port Properties_Across.
Import ListNotations.
Open Scope nat_scope.
Local Open Scope string_scope.
Local Open Scope list_scope.

Lemma nanb_value v : nanb v = false -> ~ nan_value v.
Proof. destruct v; cbn; try tauto; intros H K; rewrite K in H; discriminate H. Qed.
(** two sets of primitives that agree where the first makes no NaN *)
Lemma standard_agree P1 P2 host SM :
  (forall o s args s' v, iok s -> exists_op o = true -> Forall2 has_type (sop_args o) args ->
     p_op P2 o s args = Ok (s', v) -> iok s' /\ match sop_res o, v with Some t, Some v => has_type t v | None, None => True | _, _ => False end) ->
  (forall t, p_default P2 t = Ok (default_of (class_of t))) -> p_ind_host P2 = true ->
  (forall o s args, Forall2 has_type (sop_args o) args -> gives_nan o (p_op P1 o s args) = false -> p_op P2 o s args = p_op P1 o s args) ->
  (forall ts t i, p_func P2 ts t i = p_func P1 ts t i) -> (forall t, p_default P2 t = p_default P1 t) -> p_ind_host P2 = p_ind_host P1 ->
  host_ok host -> WasmTyping.valid SM -> forallb (oksrc (fun _ => true) val_okb) (sm_funcs SM) = true ->
  forall n f d args s, nth_error (sm_funcs SM) f = Some (SWasm d) -> Forall2 has_type (fst (sf_type d)) args -> iok s ->
    invoke (without_nan P1) host SM n f args s <> OUB -> invoke P2 host SM n f args s = invoke P1 host SM n f args s.
Proof.
  intros K1 K2 K3 EO EF ED EH HH V OK n f d args s N A I NU.
  set (Q := {| p_op := fun o s args => if gives_nan o (p_op P1 o s args) then p_op P2 o s args else p_op P1 o s args;
               p_func := p_func P1; p_default := p_default P1; p_ind_host := p_ind_host P1 |}).
  assert (EQ : invoke Q host SM n f args s = invoke P2 host SM n f args s).
  { refine (proj1 (invariant_sound iok (fun _ => true) (fun _ => true) P2 Q host SM _ writes_iok K2 K3 eq_refl HH V _ _ _ _ _ n f d args s N A I)); auto.
    - intros o s1 a s' v I1 _ EX A1 E. eapply K1; eauto.
    - intros d' IN. rewrite forallb_forall in OK. specialize (OK _ IN). cbn [oksrc] in OK. revert OK. generalize (sf_body d'). clear.
      induction c as [|b k IHk|lp ps rs body IHb k IHk|ps rs th IHt k IHk|ps rs th IHt el IHe k IHk|d k IHk|d k IHk|ds d k IHk|k IHk|k IHk|f k IHk|ty tb k IHk];
        cbn [okcode refs_by]; intros H; auto; repeat match goal with H : _ && _ = true |- _ => apply andb_prop in H as [? H] end; rewrite ?IHk, ?IHb, ?IHt, ?IHe by auto; auto.
      destruct b; auto; rewrite ?IHk by auto; cbn in *; rewrite ?andb_true_r; auto.
    - intros o s1 a _ _ _ A1. cbn [Q p_op]. destruct (gives_nan _ _) eqn:G; auto. symmetry. auto.
    - intros. symmetry. apply EF.
    - intros. symmetry. apply ED. }
  assert (A1 : Agree.ag (invoke (without_nan P1) host SM n f args s) (invoke Q host SM n f args s)).
  { apply Agree.invoke_agree; [|intros; right; split; auto|intros; auto]. intros o s1 a. cbn. destruct (gives_nan _ _); auto. }
  assert (A2 : Agree.ag (invoke (without_nan P1) host SM n f args s) (invoke P1 host SM n f args s)).
  { apply Agree.invoke_agree; [|intros; right; split; auto|intros; auto]. intros o s1 a. cbn. destruct (gives_nan _ _); auto. }
  destruct A1 as [A1|A1]; [contradiction|]. destruct A2 as [A2|A2]; [contradiction|]. congruence.
Qed.
Lemma result_of o (v : option val) : (forall t x, sop_res o = Some t -> v = Some x -> isv (class_of t) x) ->
  match sop_res o with None => v = None | Some t => exists x, v = Some x /\ val_cls x = class_of t end ->
  match sop_res o, v with Some t, Some v => has_type t v | None, None => True | _, _ => False end.
Proof. intros R K. destruct (sop_res o) as [t|]; [destruct K as (x & -> & _); exact (R t x eq_refl eq_refl)|now subst v]. Qed.
Lemma wasm_keeps hf o s a s' v : hostfp_ok hf -> iok s -> exists_op o = true -> Forall2 has_type (sop_args o) a ->
  p_op (wasm_prims hf) o s a = Ok (s', v) -> iok s' /\ match sop_res o, v with Some t, Some v => has_type t v | None, None => True | _, _ => False end.
Proof.
  intros HF K EX A E. cbn [wasm_prims p_op] in E. destruct (diverges o s a) eqn:D.
  - unfold at_divergence in E. destruct o; try discriminate E; args A; destruct (i_mem s) as [m|] eqn:M; try discriminate E; pose proof (ik_m s K m M) as B; pose proof K as [KG KM KD]; cbn [sop_res].
    + unfold wasm_grow in E. cbv zeta in E. destruct (i32_arg _ A1) as (z & -> & Hz). assert (PZ : (0 <= pattern (VI32 z) < 2 ^ 32)%Z) by (cbn [pattern]; unfold WasmNum.unsigned, in_s in *; destruct (Z.ltb_spec z 0); lia).
      assert (PG : (0 <= pages (m_data m))%Z) by (unfold pages, mlen, page; apply Z.div_pos; lia).
      destruct (Z.ltb_spec 65536 (pages (m_data m) + pattern (VI32 z))) as [L|L]; cbn [orb] in E.
      * injection E as <- <-. split; auto. split; [reflexivity|]. cbn. unfold in_s. lia.
      * destruct (match m_max m with Some x => _ | None => _ end); injection E as <- <-.
        -- split; auto. split; [reflexivity|]. cbn. unfold in_s. lia.
        -- split; [constructor; cbn; auto; intros ? [= <-]; cbn; apply bytes_app2; auto; apply bytes_repeat, zero_byte|]. split; [reflexivity|]. cbn [val_ok]. unfold in_s. lia.
    + destruct (nth_error (i_datas s) k) as [b|] eqn:N; [|discriminate E]. destruct (_ || _); [discriminate E|]. injection E as <- <-. split; auto. apply iok_mem; auto.
      apply bytes_splice; auto. apply bytes_firstn, bytes_skipn. rewrite Forall_forall in KD. eapply KD, nth_error_In; eauto.
  - destruct (sop_ok o) eqn:SO.
    + destruct (sop_range hf HF o s a s' v SO K A E) as [K' R]. split; auto. apply result_of; auto. eapply BasicSim.sop_eval_res; eauto.
    + destruct o as [[[] []| |]|o|c|op off|op off| | | |k| |k|t i|t i|t| |t e|t e|t e]; try discriminate SO; try discriminate EX; try (destruct t; discriminate); try (destruct e; discriminate); args A; cbn [sop_eval sop_res] in *; apply FrameFacts.bind_inv in E as (x & G & E); injection E as <- <-.
      * unfold global_get in G. destruct (nth_error _ _) eqn:N; [|discriminate G]. injection G as <-. split; auto.
        destruct (cls_eqb _ _) eqn:Q; [|apply isv_default]. split; [now apply StoreProofs.cls_eqb_eq|]. pose proof (ik_g s K) as KG. rewrite Forall_forall in KG. eapply KG, nth_error_In; eauto.
      * unfold global_set in G. destruct (nth_error _ _) eqn:N; [|discriminate G]. destruct (cls_eqb _ _); [|discriminate G]. injection G as <-. destruct K. split; auto. constructor; cbn; auto. apply Forall_upd'; auto. apply A1.
Qed.
Lemma wasm_agree hf hf' o s a : standard_fp hf -> standard_fp hf' -> Forall2 has_type (sop_args o) a ->
  gives_nan o (p_op (wasm_prims hf) o s a) = false -> p_op (wasm_prims hf') o s a = p_op (wasm_prims hf) o s a.
Proof.
  intros S1 S2 A G. cbn [wasm_prims p_op] in *. destruct (diverges o s a); [reflexivity|]. apply sop_agree; auto.
  intros R s' v E. apply nanb_value. unfold gives_nan in G. rewrite R, E in G. exact G.
Qed.
(** A valid program whose run, as the standard prescribes it for one machine's floating point, makes no NaN whose
    pattern the standard leaves open: the standard prescribes the same run for every machine. *)
Theorem C72_standard : forall hf hf' host SM, standard_fp hf -> standard_fp hf' -> hostfp_ok hf' -> host_ok host -> WasmTyping.valid SM ->
  forallb (oksrc (fun _ => true) val_okb) (sm_funcs SM) = true ->
  forall n f d args s, nth_error (sm_funcs SM) f = Some (SWasm d) -> Forall2 has_type (fst (sf_type d)) args -> iok s ->
    invoke (without_nan (wasm_prims hf)) host SM n f args s <> OUB ->
    invoke (wasm_prims hf') host SM n f args s = invoke (wasm_prims hf) host SM n f args s.
Proof.
  intros hf hf' host SM S1 S2 HF HH V OK n f d args s N A I NU.
  apply (standard_agree (wasm_prims hf) (wasm_prims hf') host SM) with (d := d); auto.
  - intros. eapply wasm_keeps; eauto.
  - intros. apply wasm_agree; auto.
Qed.
Print Assumptions C72_standard.
Lemma below_agree hf hf' host SM : standard_fp hf -> standard_fp hf' -> hostfp_ok hf' -> host_ok host -> WasmTyping.valid SM ->
  forallb (oksrc (fun _ => true) val_okb) (sm_funcs SM) = true ->
  forall n f d args s, nth_error (sm_funcs SM) f = Some (SWasm d) -> Forall2 has_type (fst (sf_type d)) args -> iok s ->
    invoke (without_nan (below_2GiB (wasm_prims hf))) host SM n f args s <> OUB ->
    invoke (below_2GiB (wasm_prims hf')) host SM n f args s = invoke (below_2GiB (wasm_prims hf)) host SM n f args s.
Proof.
  intros S1 S2 HF HH V OK n f d args s N A I NU.
  apply (standard_agree (below_2GiB (wasm_prims hf)) (below_2GiB (wasm_prims hf')) host SM) with (d := d); auto.
  - intros o s1 a s' v I1 EX A1 E. cbn [below_2GiB p_op] in E. destruct (huge o s1 a); [discriminate E|]. eapply wasm_keeps; eauto.
  - intros o s1 a A1 G. cbn [below_2GiB p_op] in *. destruct (huge o s1 a); [reflexivity|]. apply wasm_agree; auto.
Qed.
Lemma without_nan_ag P host SM n f args s : Agree.ag (invoke (without_nan P) host SM n f args s) (invoke P host SM n f args s).
Proof. apply Agree.invoke_agree; [|intros; right; split; auto|intros; auto]. intros o s1 a. cbn. destruct (gives_nan _ _); auto. Qed.
Lemma log_calls r o : as_outcome r = Some o -> WorldProofs.log_of r = Some (calls_of o).
Proof. destruct r; cbn; intros H; try discriminate H; injection H as <-; reflexivity. Qed.
(** A file that passes the check, run on a WASI host: every machine reports what the standard prescribes for one of them,
    if that run makes no such NaN (and stays clear of the points of C70). *)
Theorem C72_report : forall F W gs, admit_moved expected_type F = Some (W, gs) -> steady F W = true ->
  forall hf sys file l env ff z name f d args ss,
  standard_fp hf -> polite sys -> byte_replies sys -> lossless z ->
  line_ok l -> Forall bytes_ok (file :: line_texts l) -> Forall bytes_ok env ->
  let words := file :: filter nonempty (line_texts l) in
  (total words < 2 ^ 31)%Z -> (total env < 2 ^ 31)%Z ->
  In (name, ExFunc f) (w_exports W) -> nth_error (sm_funcs (w_code W)) f = Some (SWasm d) ->
  Forall2 has_type (fst (sf_type d)) args -> Forall2 (written ff) args ss ->
  let host := passthrough sys (argv file (Some (line_src l))) env in
  exists I fds fs, instance expected_type F = Some I /\ instance_of (with_code W fds) fs gs I /\
    forall n o, as_outcome (invoke (without_nan (below_2GiB (wasm_prims hf))) (direct sys words env) (w_code W) n f args (mi_inst I)) = Some o -> ~ at_bound o ->
      Forall (WorldSpec.proper words env) (calls_of o) ->
      forall hf' how E D r, standard_fp hf' -> hostfp_ok hf' -> history hf' host expected_type ff z F name ss how -> r <> Running ->
        ((exists k m, command hf' host expected_type ff z how E D false k m F name ss = r) <-> r = reported o).
Proof.
  intros F W gs A ST hf sys file l env ff z name f d args ss S1 PS BS Z LO BW BE words TW TE EX N TA WR host.
  destruct (admit_moved_sound _ _ _ _ A) as ([P S H O WI MD IR] & CM & GR).
  assert (EW : argv file (Some (line_src l)) = words) by (apply C33_argv; auto).
  assert (BA : Forall bytes_ok words).
  { inversion BW as [|? ? B1 B2]; subst. constructor; auto. apply Forall_forall. intros x I. apply filter_In in I as [I _]. rewrite Forall_forall in B2. auto. }
  assert (HO : host_ok (passthrough sys words env)).
  { intros log o ws X. destruct (WholeProofs.passthrough_ok sys words env BS BA BE log o ws X) as [V B]. split; auto. intros v Y. apply (V v Y). }
  destruct (C70_command F W gs A ST ieee sys file l env ff z Properties_Runtime.never TailCall name f d args ss Fresh ieee_ok PS BS Z LO BW BE TW TE EX N TA WR (HFresh _ _ _ _ _ _ _ _)) as (I & fds & fs & EI & IO & _).
  exists I, fds, fs. split; auto. split; auto. intros n o R NB PR hf' how E D r S2 HF HI NR.
  destruct (C70_command F W gs A ST hf' sys file l env ff z E D name f d args ss how HF PS BS Z LO BW BE TW TE EX N TA WR HI) as (I' & fds' & fs' & EI' & _ & K).
  rewrite EI in EI'. injection EI' as <-. apply (K n o); auto. clear K.
  pose proof (log_calls _ _ R) as L.
  set (s := mi_inst I) in *.
  pose proof (WorldProofs.invoke_same sys words env PS TW TE (without_nan (below_2GiB (wasm_prims hf))) (w_code W) n f args s _ L PR) as Q1.
  assert (NU : invoke (without_nan (below_2GiB (wasm_prims hf))) (passthrough sys words env) (w_code W) n f args s <> OUB) by (rewrite Q1; intros X; rewrite X in R; discriminate R).
  destruct (Properties_Total.C42_modest _ (so_code _ _ S) O (Properties_Total.within_known _ WI) MD) as (M & C & _).
  pose proof (instance_iok expected_type W gs F M I P S H IR C EI) as IK.
  pose proof (below_agree hf hf' _ (w_code W) S1 S2 HF HO (so_code _ _ S) (ir_consts _ _ IR) n f d args s N TA IK NU) as Q2.
  destruct (without_nan_ag (below_2GiB (wasm_prims hf)) (passthrough sys words env) (w_code W) n f args s) as [X|Q3]; [contradiction|].
  assert (Q4 : invoke (below_2GiB (wasm_prims hf')) (passthrough sys words env) (w_code W) n f args s = invoke (without_nan (below_2GiB (wasm_prims hf))) (direct sys words env) (w_code W) n f args s) by congruence.
  rewrite (WorldProofs.invoke_hosts (below_2GiB (wasm_prims hf')) (passthrough sys words env) (direct sys words env) (w_code W) (Forall (WorldSpec.proper words env)) (WorldProofs.A_closed words env)) with (l := calls_of o); auto.
  - rewrite Q4. exact R.
  - intros l0 A0. symmetry. apply (WorldProofs.same_answers sys words env PS TW TE l0 A0).
  - rewrite Q4. exact L.
Qed.
Print Assumptions C72_report.

(** ** ten times 0.1 again: the standard's run for [ieee] makes no NaN; 0.0 / 0.0 does *)
Lemma turn_range F r : F = F32 \/ F = F64 -> in_u (fw F) r -> in_u (fw F) (turn F r).
Proof.
  intros HF I. unfold turn. destruct (is_nan F r); auto. unfold Ieee.signed, in_u in *.
  pose proof (Z.mod_pos_bound r (2 ^ (fw F - 1)) ltac:(destruct HF as [-> | ->]; reflexivity)) as B.
  assert (E : (2 ^ fw F = 2 ^ (fw F - 1) + 2 ^ (fw F - 1))%Z) by (destruct HF as [-> | ->]; reflexivity).
  revert B E. generalize (r mod 2 ^ (fw F - 1))%Z (2 ^ (fw F - 1))%Z (2 ^ fw F)%Z. intros. destruct (negb _); lia.
Qed.
Lemma other_ok : hostfp_ok other.
Proof.
  destruct ieee_ok as [A B C D E]. constructor; intros; cbn [other h_bin h_round h_of_int h_demote h_promote]; auto.
  - apply turn_range; auto. destruct f; auto.
  - apply turn_range; auto. destruct f; auto.
  - apply (turn_range F32); auto.
  - apply (turn_range F64); auto.
Qed.
Example C72_report_example : admit_moved expected_type F3 = Some (W3, []) /\ steady F3 W3 = true /\ standard_fp ieee /\ standard_fp other /\ hostfp_ok other /\
  (exists I, instance expected_type F3 = Some I /\
     as_outcome (invoke (without_nan (below_2GiB (wasm_prims ieee))) (direct sys1 words_hi []) (w_code W3) 60 0 [VI32 10] (mi_inst I)) = Some (Done [VF64 4607182418800017407] (mi_inst I) [])) /\
  command other host3 expected_type ff0 zl Fresh never TailCall false 200 60 F3 "tenths" ten = Exit 0 [MResult (VF64 4607182418800017407)] [] /\
  invoke (without_nan (wasm_prims ieee)) (fun _ => HoErr) p_nan 9 0 [] inst0 = OUB.
Proof.
  split; [vm_compute; reflexivity|]. split; [vm_compute; reflexivity|]. split; [exact ieee_standard|]. split; [exact other_standard|]. split; [|split; [|split; vm_compute; reflexivity]].
  - exact other_ok.
  - destruct (instance expected_type F3) as [I|] eqn:E; [|vm_compute in E; discriminate E]. exists I. split; [reflexivity|]. revert E. vm_compute. intros E. injection E as <-. reflexivity.
Qed.
