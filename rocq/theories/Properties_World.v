(** C57: programs on their host.  C50: declared types. *)
From Coq Require Import String ZArith List Bool Lia.
From Verif Require Import Word Value Numeric Float Mem WasmMem Store Regs IR Machine Wasm WasmTyping Decoder Check Restrict WasmPrims PrimFacts Agree Soundness Correct ExecFacts Examples
  Runtime RuntimeProofs Module ModuleSpec StaticSpec TotalSpec Load LoadSpec LoadProofs ParamProofs MainProofs Properties_Main
  Wasi WasiSpec WasiProofs Properties_Host WorldSpec World WorldProofs.
Import ListNotations.
Open Scope nat_scope.

(** ** C50: the types the interpreter takes the functions to have are the standard's *)
Definition kind_types (k : kind) : list valtype :=
  match k with KInt b => if Z.eqb b 64 then [TI64] else [TI32] | KPtr | KOut _ => [TI32] | KPath | KVecs => [TI32; TI32] end.
Theorem C50_types : forall f, expected f = (flat_map kind_types (signature f), match f with ProcExit => [] | _ => [TI32] end).
Proof. destruct f; reflexivity. Qed.
Theorem C50_typed_arguments : forall f vs, Forall2 has_type (fst (expected f)) vs <-> arguments (signature f) vs.
Proof.
  intros f vs. split.
  - intros H. assert (G : forall ks, Forall (fun k => match k with KInt b => (b <= 64)%Z | _ => True end) ks -> forall vs, Forall2 has_type (flat_map kind_types ks) vs -> arguments ks vs).
    { clear. induction ks as [|k ks IH]; intros B vs H; [inversion H; subst; constructor|]. inversion B as [|? ? B1 B2]; subst. cbn [flat_map] in H.
      apply Forall2_app_inv_l in H as (v1 & v2 & H1 & H2 & ->). specialize (IH B2 _ H2).
      assert (T32 : forall v, has_type TI32 v -> exists z, v = VI32 z /\ in_s 32 z) by (intros v [A1 A2]; destruct v; try discriminate; eauto).
      assert (T64 : forall v, has_type TI64 v -> exists z, v = VI64 z /\ in_s 64 z) by (intros v [A1 A2]; destruct v; try discriminate; eauto).
      destruct k as [b| | | |n]; cbn [kind_types] in H1; [destruct (Z.eqb_spec b 64)| | | |];
        repeat match goal with H : Forall2 _ (_ :: _) _ |- _ => inversion H; subst; clear H | H : Forall2 _ [] _ |- _ => inversion H; subst; clear H end;
        repeat match goal with H : has_type TI32 ?v |- _ => destruct (T32 v H) as (? & -> & ?); clear H | H : has_type TI64 ?v |- _ => destruct (T64 v H) as (? & -> & ?); clear H end;
        cbn [app]; constructor; auto; lia. }
    rewrite C50_types in H. cbn [fst] in H. apply G in H; auto. destruct f; unfold signature, fd; repeat constructor; lia.
  - intros H. rewrite C50_types. cbn [fst]. induction H; cbn [flat_map kind_types app]; auto; try (destruct (Z.eqb_spec b 64); [lia|]); repeat (constructor; auto); try split; auto.
Qed.

(** ** C57: a program runs on the host as if it called the host itself *)
(** For the programs of C56.  If the program, running directly on a host, ends with outcome [o], its host
    calls all being proper, then chiwawa running on that host reports [o] and nothing else, and the host
    has seen the same calls. *)
Theorem C57_transparent_partial : forall hf sys argv env ff E D cr W gs F name f d args ss,
  polite sys -> (total argv < 2 ^ 31)%Z -> (total env < 2 ^ 31)%Z ->
  LoadSpec.presents expected_type W F -> sound W gs -> handled W -> Forall one_result (sm_funcs (w_code W)) -> Restrict.within (w_code W) = true ->
  forallb (modest (w_code W)) (sm_funcs (w_code W)) = true ->
  (cr = false \/ forall t, request E t = false) ->
  In (name, ExFunc f) (w_exports W) -> nth_error (sm_funcs (w_code W)) f = Some (SWasm d) ->
  Forall2 has_type (fst (sf_type d)) args -> Forall2 (written ff) args ss ->
  exists I fds fs, instance expected_type F = Some I /\ instance_of (with_code W fds) fs gs I /\
    forall n o, clear hf (direct sys argv env) (w_code W) n f args (mi_inst I) ->
      as_outcome (invoke (wasm_prims hf) (direct sys argv env) (w_code W) n f args (mi_inst I)) = Some o ->
      Forall (proper argv env) (calls_of o) ->
      made sys argv env (calls_of o) = flat_map (scalls argv env) (calls_of o) /\
      forall r, r <> Running ->
        ((exists k n, main hf (passthrough sys argv env) expected_type ff E D cr k n F name ss = r) <-> r = reported o).
Proof.
  intros hf sys argv env ff E D cr W gs F name f d args ss PS TA TE P S H O WI MD Q EX N TY WR.
  destruct (end_to_end hf (passthrough sys argv env) expected_type ff E D cr W gs F name f d args ss P S H O WI MD Q EX N TY WR) as (I & fds & fs & EI & IO & G).
  exists I, fds, fs. split; auto. split; auto. intros n o CL AO PR. pose proof (outcome_log _ _ AO) as LO.
  split; [now apply same_answers|]. intros r NR.
  rewrite (G (clear_same hf sys argv env PS TA TE _ _ _ _ _ _ CL LO PR) r NR).
  pose proof (invoke_same sys argv env PS TA TE (wasm_prims hf) _ _ _ _ _ _ LO PR) as SA. split.
  - intros (m & o' & A' & ->). f_equal.
    assert (NF : forall k, as_outcome (invoke (wasm_prims hf) (passthrough sys argv env) (w_code W) k f args (mi_inst I)) <> None ->
        invoke (wasm_prims hf) (passthrough sys argv env) (w_code W) k f args (mi_inst I) <> OFuel) by (intros k X Y; rewrite Y in X; now apply X).
    assert (A1 : as_outcome (invoke (wasm_prims hf) (passthrough sys argv env) (w_code W) n f args (mi_inst I)) = Some o) by now rewrite SA.
    destruct (Nat.le_ge_cases n m) as [L|L].
    + rewrite (invoke_budget _ _ _ _ _ _ n m L) in A' by (apply NF; congruence). congruence.
    + rewrite (invoke_budget _ _ _ _ _ _ m n L) in A1 by (apply NF; congruence). congruence.
  - intros ->. exists n, o. now rewrite SA.
Qed.
(** Every module and state: as long as the calls made so far are proper, the run through the interpreter's
    WASI functions is, step for step, the run on the host itself. *)
Theorem C57_steps : forall hf sys argv env M n c,
  polite sys -> (total argv < 2 ^ 31)%Z -> (total env < 2 ^ 31)%Z ->
  forall l, steps_log (steps hf (direct sys argv env) M n c) = Some l -> Forall (proper argv env) l ->
  steps hf (passthrough sys argv env) M n c = steps hf (direct sys argv env) M n c.
Proof.
  intros hf sys argv env M n c PS TA TE l L PR.
  apply (steps_hosts hf (direct sys argv env) (passthrough sys argv env) M (Forall (proper argv env)) (A_closed argv env) (fun l H => proj2 (same_answers sys argv env PS TA TE l H)) n c l L PR).
Qed.
(** what [direct] gives the guest: the host's error number, and the memory as the host left it with the
    results stored *)
Theorem C57_reply : forall sys argv env w vs m log f, polite sys -> bytes_ok m -> fun_of w = Some f -> strings_of argv env f = None -> f <> ProcExit ->
  let r := sys ((f, named m (signature f) vs, m) :: flat_map (scalls argv env) log) in
  exists ws, direct sys argv env ((w, vs, Some m) :: log) = HoRet (Some (VI32 (r_errno r))) ws /\
    forall s mi, i_mem s = Some mi -> m_data mi = m ->
      mem_view (apply_writes s ws) = Some (if Z.eqb (r_errno r) 0 then pokes (r_mem r) (outs (signature f) vs) (r_out r) else r_mem r).
Proof.
  intros sys argv env w vs m log f PS B W SO NX r.
  destruct (PS f (named m (signature f) vs) m (flat_map (scalls argv env) log) B) as [_ ML]. fold r in ML.
  assert (PL : forall os zs x, length (pokes x os zs) = length x). { induction os as [|[a n] os IH]; intros zs x; cbn [pokes]; auto. rewrite IH. apply poke_length. }
  exists (image m (if Z.eqb (r_errno r) 0 then pokes (r_mem r) (outs (signature f) vs) (r_out r) else r_mem r)). split.
  - unfold direct. cbn [flat_map scalls]. rewrite W, SO. cbn [app]. fold r. destruct f; try discriminate; try contradiction; reflexivity.
  - intros s mi E <-. unfold mem_view, apply_writes. rewrite E. cbn. f_equal. apply image_writes. destruct (Z.eqb _ _); now rewrite ?PL.
Qed.

(** An example: a program that writes three bytes and exits with status 7. *)
Local Open Scope string_scope.
Definition ty_w : ftype := ([TI32; TI32; TI32; TI32], [TI32]). Definition ty_x : ftype := ([TI32], []). Definition ty_m : ftype := ([], []).
Definition hello_f : sfunc := func [] [] [] [i32c 1; i32c 0; i32c 1; i32c 16; CCall 0; drop; i32c 7; CCall 1].
Definition W1 : wmodule :=
  {| w_code := {| sm_types := [ty_w; ty_x; ty_m]; sm_funcs := [SWasi 1 ty_w; SWasi 0 ty_x; hello_f] |};
     w_tables := []; w_mem := Some (1%Z, None); w_globals := []; w_elems := [];
     w_datas := [{| ds_bytes := [8; 0; 0; 0; 3; 0; 0; 0; 104; 105; 10]%Z; ds_mode := MActive 0 [CVal (VI32 0)] |}];
     w_exports := [("_start", ExFunc 2)]; w_start := None |}.
Definition F1 : list payload :=
  [PVersion 1; PTypes (items [ty_w; ty_x; ty_m]); PImports (items [WiFunc (Some 1) 0; WiFunc (Some 0) 1]); PFuncs (items [2]); PMems (items [(1%Z, None)]);
   PExports (items (w_exports W1)); PCode (body hello_f); PDatas (items (w_datas W1))].
(** a host that accepts what is written to descriptor 1 *)
Definition sys1 : system := fun past =>
  match past with
  | (FdWrite, SInt 1%Z :: _, m) :: _ => {| r_errno := 0; r_out := [3%Z]; r_ptrs := []; r_buf := []; r_mem := m |}
  | (_, _, m) :: _ => {| r_errno := 8; r_out := []; r_ptrs := []; r_buf := []; r_mem := m |}
  | [] => {| r_errno := 8; r_out := []; r_ptrs := []; r_buf := []; r_mem := [] |}
  end.
Definition I1 : minst := match instance expected_type F1 with Some x => x | None => {| mi_modul := {| md_funcs := []; md_types := [] |}; mi_inst := inst0; mi_exports := [] |} end.
Lemma F1_presents : LoadSpec.presents expected_type W1 F1.
Proof.
  exists [SWasi 1 ty_w; SWasi 0 ty_x], [hello_f], [WiFunc (Some 1) 0; WiFunc (Some 0) 1], [2], [PCode (body hello_f)].
  split; [reflexivity|]. split; [repeat (constructor; [cbn [import_entry]; split; [reflexivity|eexists; split; reflexivity]|]); constructor|].
  split; [repeat constructor|]. split; [repeat constructor|]. reflexivity.
Qed.
Lemma W1_sound : sound W1 [].
Proof.
  assert (EV : evaluates [] [CVal (VI32 0)] (VI32 0)) by constructor.
  split.
  - unfold W1, hello_f, ty_w, ty_x, ty_m. cbn [w_code]. split; [repeat constructor; vf|]. exists [SWasi 1 ([TI32; TI32; TI32; TI32], [TI32]); SWasi 0 ([TI32], [])]. eexists. repeat split; auto; repeat constructor.
  - split.
    + eexists. split; [repeat (constructor; [reflexivity|]); constructor|reflexivity].
    + constructor.
    + intros n x [H|[]]; injection H as <- <-; cbn; lia.
    + discriminate.
    + constructor.
    + intros min max H. injection H as <- <-. lia.
    + intros e l [].
    + intros e t x [].
    + intros d t x [<-|[]] L. injection L as <- <-. split; [reflexivity|]. split; [discriminate|]. eauto.
  - split; [|intros t n l ps N; destruct t; discriminate]. intros min max ps L A. injection L as <- <-. inversion A; subst; [|congruence].
    match goal with H : evaluates _ _ (VI32 ?z) |- _ => assert (z = 0%Z) by (inversion H; reflexivity); subst z end.
    match goal with H : active _ _ [] _ |- _ => inversion H; subst end. constructor; [cbn; lia|constructor].
  - cbn. repeat constructor; cbn; intuition discriminate.
Qed.
Lemma W1_handled : handled W1.
Proof. split; [constructor|constructor|intros min max H; injection H as <- <-; lia|reflexivity]. Qed.
Lemma sys1_polite : polite sys1.
Proof. intros f a m past B r. unfold r, sys1. destruct f; cbn; try (split; [lia|auto]). destruct a as [|[z| | |] a]; cbn; try (split; [lia|auto]). destruct z as [|[ | | ]|]; cbn; (split; [lia|auto]). Qed.
(** the calls made, checked by computation *)
Definition proper_example (e : event) : bool :=
  match e with
  | (1%nat, [VI32 1; VI32 0; VI32 1; VI32 16]%Z, Some m) =>
      forallb (fun b => Z.leb 0 b && Z.ltb b 256) m && Z.leb 20 (mlen m) && Z.leb (mlen m) 65536 &&
      match table m 0 1 with [(a, n)] => Z.leb (a + n) (mlen m) | _ => false end
  | (0%nat, [VI32 7]%Z, Some m) => forallb (fun b => Z.leb 0 b && Z.ltb b 256) m && Z.leb (mlen m) 65536
  | _ => false
  end.
Lemma proper_example_ok argv env e : proper_example e = true -> proper argv env e.
Proof.
  destruct e as [[w vs] [m|]]; [|destruct w as [|[|]]; cbn; intros; repeat match goal with H : context [match ?x with _ => _ end] |- _ => destruct x end; discriminate].
  assert (BO : forall m, forallb (fun b => Z.leb 0 b && Z.ltb b 256)%bool m = true -> bytes_ok m).
  { intros x H. apply Forall_forall. intros b I. rewrite forallb_forall in H. specialize (H b I). unfold is_byte in *. lia. }
  intros H. destruct w as [|[|w]].
  - assert (V : vs = [VI32 7]) by (unfold proper_example in H; repeat match type of H with context [match ?x with _ => _ end] => destruct x; try discriminate end; reflexivity). subst vs.
    cbn [proper_example] in H. apply andb_prop in H as [B L]. exists ProcExit, m. split; [reflexivity|]. split; [reflexivity|].
    split; [auto|]. split; [unfold isize_max; lia|]. split; [repeat constructor; cbn; lia|]. split; [constructor|].
    split; [apply r_other; try discriminate; constructor|]. split; [constructor|]. split; [constructor|discriminate].
  - assert (V : vs = [VI32 1; VI32 0; VI32 1; VI32 16]%Z) by (unfold proper_example in H; repeat match type of H with context [match ?x with _ => _ end] => destruct x; try discriminate end; reflexivity). subst vs.
    cbn [proper_example] in H. apply andb_prop in H as [H T]. apply andb_prop in H as [H L]. apply andb_prop in H as [B L0].
    assert (ET : table m 0 1 = [iovec m 0 0]) by reflexivity. rewrite ET in T. destruct (iovec m 0 0) as [a n] eqn:EI.
    assert (NN : (0 <= n)%Z). { destruct (table_pos m 0 1 (BO _ B) a n); auto. rewrite ET. now left. }
    exists FdWrite, m. split; [reflexivity|]. split; [reflexivity|].
    split; [auto|]. split; [unfold isize_max; lia|]. split; [unfold signature, fd; repeat constructor; cbn; lia|].
    split; [repeat constructor; unfold inside; cbn; lia|].
    assert (BI : buffers_in m (table m 0 1)). { rewrite ET. intros x y [E|[]] NZ. injection E as <- <-. lia. }
    split; [unfold signature, fd; apply r_other; try discriminate; apply r_vecs; try exact BI; try (cbn; lia); apply r_other; try discriminate; constructor|].
    split; [|split; [constructor|discriminate]].
    unfold signature, fd. cbn [named spans flat_map app]. change (addr 0) with 0%Z. change (addr 1) with 1%Z. rewrite ET. cbn [map app]. constructor; [|constructor].
    unfold inside, some_buffer. cbn [snd]. destruct (Z.eqb_spec n 0); cbn [fst snd]; lia.
  - exfalso. destruct w; discriminate.
Qed.
Definition direct_ok (o : Wasm.out) : bool := match o with OExit z l => Z.eqb z 7 && Nat.eqb (length l) 2 && forallb proper_example l | _ => false end.
Lemma run1 : direct_ok (invoke (guarded (w_code W1) (wasm_prims hf0)) (direct sys1 [] []) (w_code W1) 9 2 [] (mi_inst I1)) = true.
Proof. vm_compute. reflexivity. Qed.
Example C57_example : polite sys1 /\ LoadSpec.presents expected_type W1 F1 /\ sound W1 [] /\ handled W1 /\ Forall one_result (sm_funcs (w_code W1)) /\ Restrict.within (w_code W1) = true /\
  forallb (modest (w_code W1)) (sm_funcs (w_code W1)) = true /\ In ("_start", ExFunc 2) (w_exports W1) /\ instance expected_type F1 = Some I1 /\
  clear hf0 (direct sys1 [] []) (w_code W1) 9 2 [] (mi_inst I1) /\
  (exists log, invoke (wasm_prims hf0) (direct sys1 [] []) (w_code W1) 9 2 [] (mi_inst I1) = OExit 7 log /\ length log = 2 /\ Forall (proper [] []) log) /\
  exists k n log, main hf0 (passthrough sys1 [] []) expected_type ff0 E0 LoopStyle false k n F1 "_start" [] = Exit 7 [] log.
Proof.
  split; [exact sys1_polite|]. split; [exact F1_presents|]. split; [exact W1_sound|]. split; [exact W1_handled|]. split; [repeat constructor|]. split; [reflexivity|].
  split; [reflexivity|]. split; [left; reflexivity|].
  assert (EI : instance expected_type F1 = Some I1). { unfold I1. assert (K : match instance expected_type F1 with Some _ => true | None => false end = true) by (vm_compute; reflexivity). destruct (instance expected_type F1); [reflexivity|discriminate]. }
  split; [exact EI|].
  pose proof run1 as R. assert (CL : clear hf0 (direct sys1 [] []) (w_code W1) 9 2 [] (mi_inst I1)). { unfold clear. intros K. rewrite K in R. discriminate R. }
  split; [exact CL|]. rewrite (guarded_wasm _ _ _ _ _ _ _ CL) in R.
  assert (G : exists log, invoke (wasm_prims hf0) (direct sys1 [] []) (w_code W1) 9 2 [] (mi_inst I1) = OExit 7 log /\ length log = 2 /\ Forall (proper [] []) log).
  { destruct (invoke _ _ _ _ _ _ _) as [| | | |z l| | |]; try discriminate R. cbn [direct_ok] in R. apply andb_prop in R as [R P]. apply andb_prop in R as [Z0 L].
    apply Z.eqb_eq in Z0 as ->. apply Nat.eqb_eq in L. exists l. split; [reflexivity|]. split; [exact L|]. apply Forall_forall. intros e I. rewrite forallb_forall in P. apply proper_example_ok, P, I. }
  split; [exact G|]. destruct G as (log & G & _ & PR).
  destruct (C57_transparent_partial hf0 sys1 [] [] ff0 E0 LoopStyle false W1 [] F1 "_start" 2 {| sf_type := ([], []); sf_locals := []; sf_body := seqc [i32c 1; i32c 0; i32c 1; i32c 16; CCall 0; drop; i32c 7; CCall 1] |} [] []
      sys1_polite eq_refl eq_refl F1_presents W1_sound W1_handled (ltac:(repeat constructor)) eq_refl eq_refl (or_introl eq_refl) (or_introl eq_refl) eq_refl (Forall2_nil _) (Forall2_nil _))
    as (I' & fds & fs & EI' & _ & K).
  rewrite EI in EI'. pose proof (f_equal (fun o => match o with Some x => x | None => I1 end) EI') as E1. cbv beta iota in E1. rewrite <- E1 in K. clear EI EI' R.
  destruct (K 9 (Exited 7 log) CL (eq_trans (f_equal as_outcome G) eq_refl) PR) as [_ K2]. destruct (proj2 (K2 (Exit 7 [] log) ltac:(discriminate)) eq_refl) as (k & n & X). exists k, n, log. exact X.
Qed.
