(** C58: the host calls of programs that may never end. *)
From Coq Require Import String ZArith List Bool Lia.
From Verif Require Import Word Value Numeric Float Mem WasmMem Store Regs IR Machine Wasm WasmTyping Decoder Check Sim Restrict WasmPrims PrimFacts Soundness Correct ExecFacts Examples Properties_Exec
  Runtime RuntimeProofs Module ModuleSpec StaticSpec TotalSpec Load LoadSpec LoadProofs ParamProofs MainProofs Properties_Main
  Wasi WasiSpec WasiProofs Properties_Host WorldSpec World WorldProofs Properties_World TraceSpec TraceProofs.
Import ListNotations.
Open Scope nat_scope.

(** ** the standard and the machine make the same calls, in the same order, with the same arguments and memory *)
(** [l] is the history, latest call first, at some host call of the run by the standard -- a run that the
    host ends at that call -- exactly if the compiled program arrives at a call with history [l]. *)
Theorem C58_host_calls_partial : forall hf host SM M, WasmTyping.valid SM -> Restrict.within SM = true -> compile SM = Some M -> Check.small M = true ->
  forall f d args s, nth_error (sm_funcs SM) f = Some (SWasm d) -> Forall2 has_type (fst (sf_type d)) args ->
    (forall n, clear hf host SM n f args s) ->
    exists c0, initial M s f args = Ok c0 /\
      forall l, l <> [] ->
        ((exists n, invoke (wasm_prims hf) (stopping (length l) host) SM n f args s = OExit 0 l) <->
         (exists m c, steps hf host M m c0 = inl c /\ next_call hf M c = Some l)).
Proof.
  intros hf host SM M V W C Sm f d args s N A CL.
  destruct (C23_termination_partial hf host SM M V W C Sm f d args s N A CL) as (c0 & I0 & _). exists c0. split; auto.
  assert (L0 : c_log c0 = []).
  { unfold initial in I0. destruct (nth_error (md_funcs M) f) as [[fd|]|]; try discriminate. destruct (Nat.eqb _ _); [|discriminate]. now injection I0 as <-. }
  intros l NE.
  destruct (C23_termination_partial hf (stopping (length l) host) SM M V W C Sm f d args s N A (clear_stopped hf (length l) host SM f args s CL)) as (c1 & I1 & T).
  assert (c1 = c0) by congruence. subst c1.
  assert (LT : length (c_log c0) < length l) by (rewrite L0; destruct l; [congruence|cbn; lia]).
  split.
  - intros (n & H). destruct (proj2 (T (Exited 0 l))) as (m & S); [exists n; now rewrite H|].
    destruct (stop_made hf M (length l) host m c0 (Exited 0 l) l S ltac:(discriminate) eq_refl eq_refl LT) as (_ & m' & c' & E1 & E2). eauto.
  - intros (m & c & E1 & E2). pose proof (stop_ends hf M (length l) host m c0 c l E1 E2 eq_refl) as S.
    destruct (proj1 (T (Exited 0 l))) as (n & H); [eauto|]. exists n. destruct (invoke _ _ _ _ _ _ _) as [| | | |z lg| | |]; cbn in H; congruence.
Qed.

(** ** the whole program *)
(** With a host that ends it at some call, the program's report shows the calls made so far: they are the
    standard's.  Programs of C56. *)
Theorem C58_main_partial : forall hf host sg ff E D cr W gs F name f d args ss,
  LoadSpec.presents sg W F -> sound W gs -> handled W -> Forall one_result (sm_funcs (w_code W)) -> Restrict.within (w_code W) = true ->
  forallb (modest (w_code W)) (sm_funcs (w_code W)) = true ->
  (cr = false \/ forall t, request E t = false) ->
  In (name, ExFunc f) (w_exports W) -> nth_error (sm_funcs (w_code W)) f = Some (SWasm d) ->
  Forall2 has_type (fst (sf_type d)) args -> Forall2 (written ff) args ss ->
  exists I fds fs, instance sg F = Some I /\ instance_of (with_code W fds) fs gs I /\
    ((forall n, clear hf host (w_code W) n f args (mi_inst I)) -> forall l, l <> [] ->
      ((exists k n, main hf (stopping (length l) host) sg ff E D cr k n F name ss = Exit 0 [] l) <->
       (exists n, invoke (wasm_prims hf) (stopping (length l) host) (w_code W) n f args (mi_inst I) = OExit 0 l))).
Proof.
  intros hf host sg ff E D cr W gs F name f d args ss P S H O WI MD Q EX N TY WR.
  destruct (main_machine hf sg ff E D cr W gs F name f d args ss P S H O WI MD Q EX N TY WR) as (I & fds & M & c0 & EI & IO & C & Sm & I0 & L0 & MM).
  exists I, fds, (md_funcs M). split; auto. split; auto. intros CL l NE. rewrite (MM _ (Exit 0 [] l)) by discriminate.
  destruct (C58_host_calls_partial hf host _ M (so_code _ _ S) WI C Sm f d args (mi_inst I) N TY CL) as (c1 & I1 & K).
  assert (c1 = c0) by congruence. subst c1. rewrite (K l NE).
  assert (LT : length (c_log c0) < length l) by (rewrite L0; destruct l; [congruence|cbn; lia]).
  split.
  - intros (m & o & SS & R). assert (U : o <> Undefined) by (intros ->; discriminate).
    assert (CO : calls_of o = l) by (destruct o; cbn in R |- *; congruence).
    destruct (stop_made hf M (length l) host m c0 o l SS U CO eq_refl LT) as (_ & X). exact X.
  - intros (m & c & E1 & E2). exists (Datatypes.S m), (Exited 0 l). split; [exact (stop_ends hf M (length l) host m c0 c l E1 E2 eq_refl)|reflexivity].
Qed.

(** ** on a WASI host *)
(** Programs of C56 on the hosts of C57: a history of proper calls is one the program makes running directly
    on the host exactly if it makes it through the interpreter, and the host has then seen the same calls. *)
Theorem C58_transparent_partial : forall hf sys argv env ff E D cr W gs F name f d args ss,
  polite sys -> (total argv < 2 ^ 31)%Z -> (total env < 2 ^ 31)%Z ->
  LoadSpec.presents expected_type W F -> sound W gs -> handled W -> Forall one_result (sm_funcs (w_code W)) -> Restrict.within (w_code W) = true ->
  forallb (modest (w_code W)) (sm_funcs (w_code W)) = true ->
  (cr = false \/ forall t, request E t = false) ->
  In (name, ExFunc f) (w_exports W) -> nth_error (sm_funcs (w_code W)) f = Some (SWasm d) ->
  Forall2 has_type (fst (sf_type d)) args -> Forall2 (written ff) args ss ->
  exists I fds fs, instance expected_type F = Some I /\ instance_of (with_code W fds) fs gs I /\
    ((forall n, clear hf (direct sys argv env) (w_code W) n f args (mi_inst I)) ->
     forall l, l <> [] -> Forall (proper argv env) l ->
      ((exists k n, main hf (stopping (length l) (passthrough sys argv env)) expected_type ff E D cr k n F name ss = Exit 0 [] l) <->
       (exists n, invoke (wasm_prims hf) (stopping (length l) (direct sys argv env)) (w_code W) n f args (mi_inst I) = OExit 0 l)) /\
      made sys argv env l = flat_map (scalls argv env) l).
Proof.
  intros hf sys argv env ff E D cr W gs F name f d args ss PS TA TE P S H O WI MD Q EX N TY WR.
  destruct (main_machine hf expected_type ff E D cr W gs F name f d args ss P S H O WI MD Q EX N TY WR) as (I & fds & M & c0 & EI & IO & C & Sm & I0 & L0 & MM).
  exists I, fds, (md_funcs M). split; auto. split; auto. intros CL l NE PR. split; [|now apply same_answers]. rewrite (MM _ (Exit 0 [] l)) by discriminate.
  destruct (C58_host_calls_partial hf (direct sys argv env) _ M (so_code _ _ S) WI C Sm f d args (mi_inst I) N TY CL) as (c1 & I1 & K).
  assert (c1 = c0) by congruence. subst c1. rewrite (K l NE).
  assert (LT : length (c_log c0) < length l) by (rewrite L0; destruct l; [congruence|cbn; lia]).
  assert (SA : forall l, Forall (proper argv env) l -> passthrough sys argv env l = direct sys argv env l) by (intros x X; now apply same_answers).
  assert (TL : forall c, next_call hf M c = Some l -> Forall (proper argv env) (c_log c)).
  { intros c X. destruct (next_cons hf M c l X) as (e & ->). now inversion PR. }
  split.
  - intros (m & o & SS & R). assert (U : o <> Undefined) by (intros ->; discriminate).
    assert (CO : calls_of o = l) by (destruct o; cbn in R |- *; congruence).
    destruct (stop_made hf M (length l) _ m c0 o l SS U CO eq_refl LT) as (_ & m' & c' & E1 & E2). exists m', c'. split; [|exact E2].
    rewrite <- E1. apply (steps_hosts hf (passthrough sys argv env) (direct sys argv env) M (Forall (proper argv env)) (A_closed argv env) (fun l X => eq_sym (SA l X)) m' c0 (c_log c')); [now rewrite E1|now apply TL].
  - intros (m & c & E1 & E2). exists (Datatypes.S m), (Exited 0 l). split; [|reflexivity].
    apply (stop_ends hf M (length l) _ m c0 c l); auto. rewrite <- E1.
    apply (steps_hosts hf (direct sys argv env) (passthrough sys argv env) M (Forall (proper argv env)) (A_closed argv env) SA m c0 (c_log c)); [now rewrite E1|now apply TL].
Qed.

(** An example: a program that yields for ever.  It never ends, and after two calls its history has two
    calls in both. *)
Local Open Scope string_scope.
Definition ty_y : ftype := ([], [TI32]).
Definition spin_f : sfunc := func [] [] [] [loop [] [] [CCall 0; drop; CBr 0]].
Definition W2 : wmodule :=
  {| w_code := {| sm_types := [ty_y; ty_m]; sm_funcs := [SWasi 13 ty_y; spin_f] |};
     w_tables := []; w_mem := Some (1%Z, None); w_globals := []; w_elems := []; w_datas := [];
     w_exports := [("_start", ExFunc 1)]; w_start := None |}.
Definition F2 : list payload :=
  [PVersion 1; PTypes (items [ty_y; ty_m]); PImports (items [WiFunc (Some 13) 0]); PFuncs (items [1]); PMems (items [(1%Z, None)]);
   PExports (items (w_exports W2)); PCode (body spin_f)].
Definition sys2 : system := fun past =>
  match past with
  | (_, _, m) :: _ => {| r_errno := 0; r_out := []; r_ptrs := []; r_buf := []; r_mem := m |}
  | [] => {| r_errno := 8; r_out := []; r_ptrs := []; r_buf := []; r_mem := [] |}
  end.
Definition I2 : minst := match instance expected_type F2 with Some x => x | None => {| mi_modul := {| md_funcs := []; md_types := [] |}; mi_inst := inst0; mi_exports := [] |} end.
Lemma F2_presents : LoadSpec.presents expected_type W2 F2.
Proof.
  exists [SWasi 13 ty_y], [spin_f], [WiFunc (Some 13) 0], [1], [PCode (body spin_f)].
  split; [reflexivity|]. split; [repeat (constructor; [cbn [import_entry]; split; [reflexivity|eexists; split; reflexivity]|]); constructor|].
  split; [repeat constructor|]. split; [repeat constructor|]. reflexivity.
Qed.
Lemma W2_sound : sound W2 [].
Proof.
  split.
  - unfold W2, spin_f, ty_y, ty_m. cbn [w_code]. split; [repeat constructor; vf|]. exists [SWasi 13 ([], [TI32])]. eexists. repeat split; auto; repeat constructor.
  - split.
    + eexists. split; [repeat (constructor; [reflexivity|]); constructor|reflexivity].
    + constructor.
    + intros n x [H|[]]; injection H as <- <-; cbn; lia.
    + discriminate.
    + constructor.
    + intros min max H. injection H as <- <-. lia.
    + intros e l [].
    + intros e t x [].
    + intros d t x [].
  - split; [|intros t n l ps N; destruct t; discriminate]. intros min max ps L A. inversion A; subst. constructor.
  - cbn. repeat constructor; cbn; intuition discriminate.
Qed.
Lemma W2_handled : handled W2.
Proof. split; [constructor|constructor|intros min max H; injection H as <- <-; lia|reflexivity]. Qed.
Lemma sys2_polite : polite sys2.
Proof. intros f a m past B r. unfold r, sys2. cbn. split; [lia|reflexivity]. Qed.
(** it never ends, whatever state it starts in, and never reaches an excluded point *)
Lemma spin_body argv env P n ls x : exists y, exec P (direct sys2 argv env) (w_code W2) n (0 :: ls) (CCall 0 (CBasic BDrop (CBr 0 CNil))) [] x = OBr 0 [] y \/
  exists t l, exec P (direct sys2 argv env) (w_code W2) n (0 :: ls) (CCall 0 (CBasic BDrop (CBr 0 CNil))) [] x = OTrap t l.
Proof.
  rewrite exec_call. change (nth_error (sm_funcs (w_code W2)) 0) with (Some (SWasi 13 ty_y)). cbn [sfunc_type ty_y fst length]. change (take 0 []) with (Some ([] : list val, [] : list val)). cbn iota beta. unfold do_host. cbv zeta. cbn [rev].
  destruct (mem_view (x_inst x)) as [m|]; [|exists x; right; eexists; eexists; reflexivity].
  match goal with |- context [direct sys2 argv env ?l] => assert (E : exists ws, direct sys2 argv env l = HoRet (Some (VI32 0)) ws) by (eexists; reflexivity) end.
  destruct E as (ws & ->). change (host_vals (snd ty_y) (Some (VI32 0))) with (Some [VI32 0]). cbn iota beta. cbn [app]. eexists. left. rewrite exec_basic. cbn [bexec lift]. destruct n; reflexivity.
Qed.
Lemma spins argv env P n : forall ls x, match exec P (direct sys2 argv env) (w_code W2) n ls (loop [] [] [CCall 0; drop; CBr 0] CNil) [] x with OFuel | OTrap _ _ => True | _ => False end.
Proof.
  induction n as [n IH] using Wf_nat.lt_wf_ind. intros ls x. unfold loop. cbn [seqc]. unfold drop. rewrite exec_block. cbn [length]. change (take 0 []) with (Some ([] : list val, [] : list val)). cbn iota beta.
  destruct (spin_body argv env P n ls x) as (y & [-> | (t & l & ->)]); [|exact Logic.I]. destruct n as [|n]; [exact Logic.I|]. apply (IH n); lia.
Qed.
Lemma spins_clear argv env : forall hf s n, clear hf (direct sys2 argv env) (w_code W2) n 1 [] s.
Proof.
  intros hf s n. unfold clear, invoke. change (nth_error (sm_funcs (w_code W2)) 1) with (Some spin_f). unfold spin_f, func. cbn [sf_type sf_locals sf_body seqc snd length].
  pose proof (spins argv env (guarded (w_code W2) (wasm_prims hf)) n [0] {| x_loc := [] ++ map (fun t => default_of (class_of t)) []; x_inst := s; x_log := [] |}) as K.
  destruct (exec _ _ _ n _ _ _ _); try contradiction; discriminate.
Qed.
Definition yields (e : event) : bool := match e with (13, [], Some m) => forallb (fun b => Z.leb 0 b && Z.ltb b 256) m && Z.leb (mlen m) 65536 | _ => false end.
Lemma yields_proper argv env e : yields e = true -> proper argv env e.
Proof.
  destruct e as [[w vs] [m|]]; intros H.
  - assert (E : w = 13 /\ vs = []) by (unfold yields in H; repeat match type of H with context [match ?x with _ => _ end] => is_var x; destruct x; try discriminate H end; auto).
    destruct E as [-> ->]. cbn [yields] in H. apply andb_prop in H as [B L]. exists SchedYield, m. split; [reflexivity|]. split; [reflexivity|].
    split; [apply Forall_forall; intros b I; rewrite forallb_forall in B; specialize (B b I); unfold is_byte; lia|]. split; [unfold isize_max; lia|].
    split; [constructor|]. split; [constructor|]. split; [constructor|]. split; [constructor|]. split; [constructor|discriminate].
  - exfalso. unfold yields in H. repeat match type of H with context [match ?x with _ => _ end] => is_var x; destruct x; try discriminate H end.
Qed.
Definition two_yields (o : Wasm.out) : bool := match o with OExit z l => Z.eqb z 0 && Nat.eqb (length l) 2 && forallb yields l | _ => false end.
Lemma run2 : two_yields (invoke (wasm_prims hf0) (stopping 2 (direct sys2 [] [])) (w_code W2) 9 1 [] (mi_inst I2)) = true.
Proof. vm_compute. reflexivity. Qed.
Example C58_example : polite sys2 /\ LoadSpec.presents expected_type W2 F2 /\ sound W2 [] /\ handled W2 /\ Forall one_result (sm_funcs (w_code W2)) /\ Restrict.within (w_code W2) = true /\
  forallb (modest (w_code W2)) (sm_funcs (w_code W2)) = true /\ In ("_start", ExFunc 1) (w_exports W2) /\ instance expected_type F2 = Some I2 /\
  (forall n, clear hf0 (direct sys2 [] []) (w_code W2) n 1 [] (mi_inst I2)) /\
  exists l, invoke (wasm_prims hf0) (stopping (length l) (direct sys2 [] [])) (w_code W2) 9 1 [] (mi_inst I2) = OExit 0 l /\ length l = 2 /\ Forall (proper [] []) l /\
    exists k n, main hf0 (stopping (length l) (passthrough sys2 [] [])) expected_type ff0 E0 LoopStyle false k n F2 "_start" [] = Exit 0 [] l.
Proof.
  split; [exact sys2_polite|]. split; [exact F2_presents|]. split; [exact W2_sound|]. split; [exact W2_handled|]. split; [repeat constructor|]. split; [reflexivity|].
  split; [reflexivity|]. split; [left; reflexivity|].
  assert (EI : instance expected_type F2 = Some I2). { unfold I2. assert (K : match instance expected_type F2 with Some _ => true | None => false end = true) by (vm_compute; reflexivity). destruct (instance expected_type F2); [reflexivity|discriminate]. }
  split; [exact EI|]. split; [intros n; apply spins_clear|].
  pose proof run2 as R.
  assert (G : exists l, invoke (wasm_prims hf0) (stopping 2 (direct sys2 [] [])) (w_code W2) 9 1 [] (mi_inst I2) = OExit 0 l /\ length l = 2 /\ Forall (proper [] []) l).
  { destruct (invoke _ _ _ _ _ _ _) as [| | | |z l| | |]; try discriminate R. cbn [two_yields] in R. apply andb_prop in R as [R P]. apply andb_prop in R as [Z0 L].
    apply Z.eqb_eq in Z0 as ->. apply Nat.eqb_eq in L. exists l. split; [reflexivity|]. split; [exact L|]. apply Forall_forall. intros e I. rewrite forallb_forall in P. apply yields_proper, P, I. }
  destruct G as (l & G & L & PR). exists l. rewrite L. split; [exact G|]. split; [reflexivity|]. split; [exact PR|].
  destruct (C58_transparent_partial hf0 sys2 [] [] ff0 E0 LoopStyle false W2 [] F2 "_start" 1 {| sf_type := ([], []); sf_locals := []; sf_body := seqc [loop [] [] [CCall 0; drop; CBr 0]] |} [] []
      sys2_polite eq_refl eq_refl F2_presents W2_sound W2_handled (ltac:(repeat constructor)) eq_refl eq_refl (or_introl eq_refl) (or_introl eq_refl) eq_refl (Forall2_nil _) (Forall2_nil _))
    as (I' & fds & fs & EI' & _ & K).
  rewrite EI in EI'. pose proof (f_equal (fun o => match o with Some x => x | None => I2 end) EI') as E1. cbv beta iota in E1. rewrite <- E1 in K. clear EI EI' R E1.
  assert (NE : l <> []) by (intros ->; discriminate L).
  destruct (K (spins_clear [] [] hf0 (mi_inst I2)) l NE PR) as [K2 _]. rewrite L in K2. apply K2. exists 9. exact G.
Qed.
