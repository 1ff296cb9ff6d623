(** Loading a well-formed file gives its module. *)
From Coq Require Import ZArith List Bool Lia.
From Coq Require String.
From Verif Require Import Word Value Numeric Float Mem Store Regs IR Machine Wasm Decoder Check BasicSim Dyn WasmTyping MemProofs PrimFacts Runtime Module Load LoadSpec.
Import ListNotations.
Open Scope nat_scope.

Lemma upto_items {A} (l : list A) : upto (items l) = l.
Proof. induction l as [|a l IH]; cbn; [auto|]. now f_equal. Qed.
Lemma whole_items {A} (l : list A) : whole (items l) = true.
Proof. induction l; cbn; auto. Qed.
Lemma after_items {A} (l : list A) m : after (items l) m = LOk m.
Proof. unfold after. now rewrite whole_items. Qed.

Lemma noise_load sg p m : noise p = true -> load1 sg p m = LOk m.
Proof.
  intros H. destruct m as [a1 a2 a3 a4 a5 a6 a7 a8 a9 a10 a11]. destruct p as [| [|? ?]|[|? ?]|[|? ?]|[|? ?]|[|? ?]|[|? ?]|[|? ?]| |[|? ?]|[|? ?]| | |]; try discriminate H;
    unfold load1, after, with_funcs; cbn [upto whole map l_types l_imports l_funcs l_tables l_mems l_globals l_exports l_start l_elems l_datas l_cur]; rewrite ?app_nil_r; reflexivity.
Qed.
Lemma load_proper sg F : forall m, load_from sg F m = load_from sg (proper F) m.
Proof.
  induction F as [|p F IH]; intros m; [reflexivity|]. unfold proper. cbn [filter]. fold (proper F). destruct (noise p) eqn:N; cbn [negb load_from].
  - now rewrite (noise_load _ _ _ N).
  - destruct (load1 sg p m); auto.
Qed.
Lemma load_app sg F G : forall m, load_from sg (F ++ G) m = match load_from sg F m with LOk m' => load_from sg G m' | r => r end.
Proof. induction F as [|p F IH]; intros m; cbn [app load_from]; [reflexivity|]. destruct (load1 sg p m); auto. Qed.

(** a translation that succeeds does not panic *)
Lemma no_panic E : forall n ops z z', length ops <= n -> dec_ops E ops z = Some z' -> panics E ops z = false.
Proof.
  induction n as [|n IH]; intros [|op rest] z z' L H; cbn [length] in L; try lia; cbn [dec_ops panics] in *; auto.
  destruct (dec_dead op z) as [z1|z1]; [eapply IH; [|exact H]; lia|].
  destruct (dec_live E op rest z1) as [[z2 [|]]|]; [|eapply IH; [|exact H]; lia|discriminate].
  destruct rest as [|o r]; [reflexivity|]. cbn [length] in L. eapply IH; [|exact H]. lia.
Qed.
Lemma translate_no_panic E ops r : translate E ops = Some r -> panics E ops (dec_start E) = false.
Proof. unfold translate. destruct (dec_ops E ops (dec_start E)) as [z|] eqn:D; [|discriminate]. intros _. eapply no_panic; eauto. Qed.

Definition is_wasi (f : sfunc) : Prop := match f with SWasi _ _ => True | SWasm _ => False end.
Lemma no_imports types defs tys : Forall2 (func_entry types) defs tys -> wasi_imports defs = [].
Proof. induction 1 as [|f ty ds ts E _ IH]; [reflexivity|]. destruct f; [exact IH|contradiction]. Qed.
Lemma all_fimports imps : Forall is_wasi imps -> filter is_fimport (wasi_imports imps) = wasi_imports imps.
Proof. induction 1 as [|[d|w t] l H _ IH]; [reflexivity|contradiction|]. cbn. now f_equal. Qed.
Lemma no_types imps : Forall is_wasi imps -> defined_types imps = [].
Proof. induction 1 as [|[d|w t] l H _ IH]; [reflexivity|contradiction|]. exact IH. Qed.
(** the entries of the function section resolve to the right types *)
Lemma entry_types types defs tys (m : lmod) : Forall2 (func_entry types) defs tys -> l_types m = types -> forall fs, map lf_ty fs = tys -> map (ty_of m) fs = defined_types defs.
Proof.
  intros FT Ht. induction FT as [|f ty ds ts FE _ IH]; intros fs E.
  - destruct fs; [reflexivity|discriminate].
  - destruct fs as [|g fs]; [discriminate|]. cbn [map] in E. injection E as E1 E2. destruct f as [d|w t]; [|contradiction]. cbn [map defined_types flat_map app].
    change (flat_map _ ds) with (defined_types ds). rewrite (IH fs E2). f_equal. unfold ty_of. rewrite Ht, E1. cbn in FE. now rewrite FE.
Qed.
Section Load.
  Variables (sg : nat -> ftype) (W : wmodule).
  Let SM := w_code W.
  Let types := sm_types SM.
  Variables (imps defs : list sfunc) (tys : list nat).
  Hypothesis HF : sm_funcs SM = imps ++ defs.
  Hypothesis HI : Forall is_wasi imps.
  Hypothesis HT : Forall2 (func_entry types) defs tys.

  Lemma imports_are : wasi_imports (sm_funcs SM) = wasi_imports imps.
  Proof.
    rewrite HF. unfold wasi_imports. rewrite flat_map_app. replace (flat_map _ defs) with (@nil import); [apply app_nil_r|].
    symmetry. eapply no_imports, HT.
  Qed.
  Lemma imports_all_func : filter is_fimport (wasi_imports imps) = wasi_imports imps.
  Proof. apply all_fimports, HI. Qed.
  Lemma def_types : defined_types (sm_funcs SM) = defined_types defs.
  Proof.
    rewrite HF. unfold defined_types. rewrite flat_map_app. replace (flat_map _ imps) with (@nil ftype); [reflexivity|].
    symmetry. apply no_types, HI.
  Qed.
  Definition base (m : lmod) := l_types m = types /\ l_imports m = wasi_imports imps /\ map lf_ty (l_funcs m) = tys.
  Lemma src_is m : base m -> modsrc_of m = src_of SM.
  Proof.
    intros (T & I & F). unfold modsrc_of, src_of, nimp. rewrite I, imports_all_func, (entry_types types defs tys m HT T _ F), T, imports_are, def_types. reflexivity.
  Qed.
  Lemma nimp_is m : base m -> nimp m = length (wasi_imports imps).
  Proof. intros (_ & I & _). unfold nimp. now rewrite I, imports_all_func. Qed.

  Definition translated (ty : nat) (fd : fdef) : lfunc := {| lf_ty := ty; lf_body := Some (fd_locals fd, fd_code fd, fd_alloc fd) |}.
  Definition pending (ty : nat) : lfunc := {| lf_ty := ty; lf_body := None |}.
  Lemma load_bodies : forall ds ts fds bodies, Forall2 (func_entry types) ds ts -> Forall2 code_entry ds bodies ->
    map_opt (compile_func SM) ds = Some (map FWasm fds) ->
    forall don m, base m -> l_funcs m = don ++ map pending ts -> l_cur m = length (wasi_imports imps) + length don ->
      load_from sg bodies m = LOk (with_funcs m (don ++ map (fun p => translated (fst p) (snd p)) (combine ts fds)) (l_cur m + length ds)) /\ length fds = length ts.
  Proof.
    induction ds as [|f ds IH]; intros ts fds bodies FT FC MO don m B LF LC; inversion FT as [|? ty ? ts' FE FT']; inversion FC as [|? p ? bs' CE FC']; subst.
    - cbn in MO. injection MO as MO. destruct fds; [|discriminate]. split; [|reflexivity]. cbn [load_from combine map length] in *. rewrite <- LF, Nat.add_0_r. now destruct m.
    - destruct f as [d|]; [|contradiction]. cbn [code_entry] in CE. subst p. cbn [func_entry] in FE.
      cbn [map_opt] in MO. destruct (compile_func SM (SWasm d)) as [g|] eqn:CG; [|discriminate]. destruct (map_opt (compile_func SM) ds) as [gs|] eqn:MG; [|discriminate].
      destruct fds as [|fd fds]; [discriminate|]. cbn [map] in MO. injection MO as -> ->.
      cbn [load_from load1]. unfold load_body. cbn [b_badlocals b_ops b_bad b_locals].
      assert (LI : l_cur m - nimp m = length don) by (rewrite (nimp_is m B), LC; lia). rewrite LI.
      assert (NE : nth_error (l_funcs m) (length don) = Some (pending ty)) by (rewrite LF, nth_error_app2, Nat.sub_diag by lia; reflexivity).
      assert (EE : benv m (length don) {| b_locals := sf_locals d; b_badlocals := false; b_ops := flatten (sf_body d) ++ [FEnd]; b_bad := false |} = env_of SM d).
      { unfold benv, env_of. rewrite NE, (src_is m B). unfold ty_of, pending. cbn [lf_ty b_locals]. destruct B as (T & _). rewrite T, FE. reflexivity. }
      rewrite EE. unfold compile_func in CG. destruct (translate (env_of SM d) (flatten (sf_body d) ++ [FEnd])) as [[code al]|] eqn:TR; [|discriminate]. injection CG as <-.
      rewrite (translate_no_panic _ _ _ TR), NE.
      set (m1 := with_funcs m (upd (l_funcs m) (length don) {| lf_ty := lf_ty (pending ty); lf_body := Some (sf_locals d, code, al) |}) (S (l_cur m))).
      assert (U : l_funcs m1 = (don ++ [translated ty {| fd_type := sf_type d; fd_locals := sf_locals d; fd_code := code; fd_alloc := al |}]) ++ map pending ts').
      { unfold m1. cbn [with_funcs l_funcs]. rewrite LF. cbn [map]. clear. induction don as [|x don IH]; cbn; [reflexivity|]. f_equal. exact IH. }
      destruct (IH ts' fds bs' FT' FC' eq_refl (don ++ [translated ty {| fd_type := sf_type d; fd_locals := sf_locals d; fd_code := code; fd_alloc := al |}]) m1) as [-> LL].
      + destruct B as (T & Im & F). split; [exact T|]. split; [exact Im|]. rewrite U, <- F, LF, !map_app, <- app_assoc. reflexivity.
      + exact U.
      + unfold m1. cbn [with_funcs l_cur]. rewrite LC, app_length. cbn. lia.
      + split; [|cbn; lia]. unfold m1. cbn [with_funcs l_types l_imports l_funcs l_tables l_mems l_globals l_exports l_start l_elems l_datas l_cur combine map fst snd length].
        rewrite <- app_assoc. cbn [app]. f_equal. unfold with_funcs. f_equal. lia.
  Qed.
End Load.

Lemma map_opt_app {A B} (f : A -> option B) l l' : map_opt f (l ++ l') = match map_opt f l, map_opt f l' with Some a, Some b => Some (a ++ b) | _, _ => None end.
Proof.
  induction l as [|a l IH]; cbn [app map_opt]; [now destruct (map_opt f l')|]. rewrite IH. destruct (f a); auto. destruct (map_opt f l); auto. now destruct (map_opt f l').
Qed.
Lemma compile_imports SM imps : Forall is_wasi imps ->
  map_opt (compile_func SM) imps = Some (map (fun i => match i with ImWasi w t => FWasi w t | _ => FWasi 0 ([], []) end) (wasi_imports imps)).
Proof. induction 1 as [|[d|w t] l H _ IH]; [reflexivity|contradiction|]. cbn [map_opt compile_func]. rewrite IH. reflexivity. Qed.
Lemma compile_defs SM defs tys types : Forall2 (func_entry types) defs tys -> forall fs, map_opt (compile_func SM) defs = Some fs ->
  exists fds, fs = map FWasm fds /\ Forall2 (fun fd ty => nth_error types ty = Some (fd_type fd)) fds tys.
Proof.
  induction 1 as [|f ty ds ts E _ IH]; cbn [map_opt]; intros fs H. { injection H as <-. exists []. split; [reflexivity|constructor]. }
  destruct f as [d|]; [|contradiction]. cbn [compile_func] in H. destruct (translate _ _) as [[code al]|]; [|discriminate]. destruct (map_opt (compile_func SM) ds) as [gs|]; [|discriminate]. injection H as <-.
  destruct (IH gs eq_refl) as (fds & -> & F). exists ({| fd_type := sf_type d; fd_locals := sf_locals d; fd_code := code; fd_alloc := al |} :: fds). split; [reflexivity|]. constructor; auto.
Qed.

Theorem load_complete sg W F M : presents sg W F -> compile (w_code W) = Some M ->
  exists m fds, load sg F = LOk m /\ to_src m = Some (with_code W fds) /\
    md_funcs M = map (fun i => match i with ImWasi w t => FWasi w t | _ => FWasi 0 ([], []) end) (wasi_imports (sm_funcs (w_code W))) ++ map FWasm fds /\
    md_types M = sm_types (w_code W).
Proof.
  intros (imps & defs & is & tys & bodies & HF & FI & FT & FC & FP) CM.
  assert (HI : Forall is_wasi imps).
  { clear -FI. induction FI as [|f i l l' E _ IH]; constructor; auto. destruct f; [contradiction|exact Logic.I]. }
  unfold compile in CM. rewrite HF, map_opt_app, (compile_imports _ _ HI) in CM.
  destruct (map_opt (compile_func (w_code W)) defs) as [fs|] eqn:MO; [|discriminate]. injection CM as <-.
  destruct (compile_defs _ _ _ _ FT _ MO) as (fds & -> & TY). cbn [md_funcs md_types].
  unfold load. rewrite load_proper, FP, <- load_proper.
  set (imports := match is with [] => [] | _ => [PImports (items is)] end).
  set (m0 := {| l_types := sm_types (w_code W); l_imports := wasi_imports imps; l_funcs := []; l_tables := []; l_mems := []; l_globals := []; l_exports := []; l_start := None; l_elems := []; l_datas := []; l_cur := length (wasi_imports imps) |}).
  assert (L0 : load_from sg ([PVersion 1; PTypes (items (sm_types (w_code W)))] ++ imports) empty_mod = LOk m0).
  { assert (IM : map (to_import sg) is = wasi_imports imps).
    { clear -FI. induction FI as [|f i l l' E _ IH]; [reflexivity|]. destruct f as [d|w t]; [contradiction|]. destruct E as (-> & ty & -> & _). cbn [map to_import wasi_imports flat_map app]. f_equal. exact IH. }
    cbn [app load_from load1]. change (1 =? 1)%Z with true. cbv iota. rewrite after_items, upto_items. cbn [empty_mod l_types l_imports l_funcs l_tables l_mems l_globals l_exports l_start l_elems l_datas l_cur app].
    unfold imports. destruct is as [|i is'].
    - cbn [map] in IM. unfold m0. rewrite <- IM. reflexivity.
    - cbn [load_from load1]. rewrite whole_items, upto_items. cbn [l_types l_imports l_funcs l_tables l_mems l_globals l_exports l_start l_elems l_datas l_cur app]. rewrite IM. unfold with_funcs, nimp, m0.
      cbn [l_types l_imports l_funcs l_tables l_mems l_globals l_exports l_start l_elems l_datas l_cur]. rewrite (all_fimports _ HI). reflexivity. }
  set (mems := match w_mem W with Some m => [m] | None => [] end).
  set (m1 := {| l_types := sm_types (w_code W); l_imports := wasi_imports imps; l_funcs := map pending tys; l_tables := w_tables W; l_mems := mems; l_globals := w_globals W; l_exports := w_exports W; l_start := w_start W; l_elems := w_elems W; l_datas := []; l_cur := length (wasi_imports imps) |}).
  assert (L1 : load_from sg ([PFuncs (items tys); PTables (items (w_tables W)); PMems (items mems); PGlobals (items (w_globals W)); PExports (items (w_exports W))] ++ match w_start W with Some f => [PStart f] | None => [] end ++ [PElems (items (w_elems W))]) m0 = LOk m1).
  { unfold m0. cbn [app load_from load1]. repeat (rewrite after_items, upto_items; cbn [with_funcs l_types l_imports l_funcs l_tables l_mems l_globals l_exports l_start l_elems l_datas l_cur app]).
    unfold m1. destruct (w_start W); cbn [app load_from load1]; rewrite after_items, upto_items; reflexivity. }
  destruct (load_bodies sg W imps defs tys HF HI FT defs tys fds bodies FT FC MO [] m1) as [L2 LL].
  { split; [reflexivity|]. split; [reflexivity|]. unfold m1. cbn [l_funcs]. rewrite map_map. cbn [pending lf_ty]. apply map_id. }
  { reflexivity. } { cbn. lia. }
  set (m2 := with_funcs m1 ([] ++ map (fun p => translated (fst p) (snd p)) (combine tys fds)) (l_cur m1 + length defs)) in L2.
  set (m3 := {| l_types := l_types m2; l_imports := l_imports m2; l_funcs := l_funcs m2; l_tables := l_tables m2; l_mems := l_mems m2; l_globals := l_globals m2; l_exports := l_exports m2; l_start := l_start m2; l_elems := l_elems m2; l_datas := w_datas W; l_cur := l_cur m2 |}).
  exists m3, fds. split.
  - rewrite (app_assoc _ imports), load_app, L0. fold mems.
    match type of L1 with load_from _ (?a ++ ?x ++ ?p) _ = _ => match goal with |- load_from _ (_ ++ _ ++ _ ++ ?b ++ ?d) _ = _ =>
      change (load_from sg (a ++ x ++ p ++ b ++ d) m0 = LOk m3); replace (a ++ x ++ p ++ b ++ d) with ((a ++ x ++ p) ++ b ++ d) by (rewrite <- !app_assoc; reflexivity) end end.
    rewrite load_app, L1, load_app, L2.
    cbn [load_from load1]. rewrite after_items, upto_items. reflexivity.
  - assert (TS : map_opt (to_fdef m3) (map (fun p => translated (fst p) (snd p)) (combine tys fds)) = Some fds).
    { clear -TY. change (l_types m3) with (sm_types (w_code W)) in *. assert (T3 : l_types m3 = sm_types (w_code W)) by reflexivity. clearbody m3.
      induction TY as [|fd ty l l' E _ IH]; [reflexivity|]. cbn [combine map map_opt fst snd]. rewrite IH. unfold to_fdef, translated. cbn [lf_ty lf_body]. rewrite T3, E. now destruct fd. }
    assert (IM : wasi_imports (sm_funcs (w_code W)) = wasi_imports imps) by (eapply imports_are; eauto).
    split; [|split; [|reflexivity]].
    + unfold to_src. change (l_funcs m3) with (map (fun p => translated (fst p) (snd p)) (combine tys fds)). rewrite TS. unfold with_code. fold (wasi_imports (sm_funcs (w_code W))). rewrite IM. f_equal.
      unfold m3, m2, with_funcs, m1. cbn [l_types l_imports l_funcs l_tables l_mems l_globals l_exports l_start l_elems l_datas l_cur]. f_equal. unfold mems. now destruct (w_mem W).
    + now rewrite IM.
Qed.
