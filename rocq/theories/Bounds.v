(** A run of the standard's semantics within its bounds stays clear of chiwawa's divergences. *)
From Coq Require Import ZArith List Bool Lia.
From Verif Require Import Word Value Numeric Float Mem Store Regs IR Machine Wasm WasmTyping WasmMem WasmPrims PrimFacts Decoder Check BasicSim Sim Agree Correct
  ExecFacts BoundsSpec.
Import ListNotations.
Open Scope nat_scope.

Lemma bound {A B} (r : res A) (k : A -> res B) b : (let* x := r in k x) = Ok b -> exists a, r = Ok a /\ k a = Ok b.
Proof. destruct r; cbn; try discriminate; eauto. Qed.
Lemma eval_tables hf o s args s' v : writes_no_table o = true -> sop_eval hf o s args = Ok (s', v) -> i_tables s' = i_tables s.
Proof.
  intros W H. destruct o; try discriminate W; repeat (destruct args as [|? args]; try discriminate H); cbn [sop_eval] in H;
    repeat (apply bound in H as (? & _ & H)); try discriminate H; injection H as <- <-; reflexivity.
Qed.
Lemma div_tables o s args s' v : at_divergence o s args = Ok (s', v) -> i_tables s' = i_tables s.
Proof.
  intros H. unfold at_divergence in H.
  destruct o; try discriminate H; repeat (destruct args as [|? args]; try discriminate H); destruct (i_mem s); try discriminate H.
  - destruct (wasm_grow _ _ _); injection H as <- <-; reflexivity.
  - destruct (nth_error _ _); [|discriminate H]. destruct (_ || _)%bool; [discriminate H|]. injection H as <- <-. reflexivity.
Qed.
Lemma writes_tables s ws : i_tables (apply_writes s ws) = i_tables s.
Proof. unfold apply_writes. destruct (i_mem s); reflexivity. Qed.

Section B.
  Variable hf : hostfp.
  Variable host : hostfn.
  Variable M : smodule.
  Notation P1 := (guarded M (wasm_prims hf)).
  Notation P2 := (below_2GiB (wasm_prims hf)).
  Variable okop : sop -> bool.
  Variable Inv : list table -> Prop.
  Hypothesis I_op : forall o s args s' v, okop o = true -> p_op P2 o s args = Ok (s', v) -> Inv (i_tables s) -> Inv (i_tables s').
  Hypothesis I_func : forall ts t i f w ty, Inv ts -> table_func ts t i = Ok f -> nth_error (sm_funcs M) f <> Some (SWasi w ty).
  Hypothesis U : uses okop M = true.
  Hypothesis PL : plain_locals M = true.

  Lemma at_op o s args : p_op P1 o s args = p_op P2 o s args \/ p_op P2 o s args = UB \/ p_op P2 o s args = Trap TOutOfBounds.
  Proof.
    cbn [guarded below_2GiB wasm_prims p_op]. destruct (huge o s args) eqn:HG; [auto|]. destruct (diverges o s args) eqn:D; [|auto]. right. right.
    destruct o; try reflexivity; unfold diverges in D; unfold huge in HG; unfold at_divergence;
      (destruct args as [|a1 args]; [discriminate D|]).
    all: swap 1 2.
    - destruct args as [|a2 args]; [discriminate D|]. destruct args as [|a3 args]; [discriminate D|]. destruct args as [|a4 args]; [|discriminate D].
      destruct (i_mem s) as [m|]; [|discriminate D]. rewrite HG in D. cbn [orb] in D. apply andb_prop in D as [D1 D2]. apply Z.eqb_eq in D1. destruct (nth_error (i_datas s) k) as [seg|]; auto.
      rewrite D1, !Z.add_0_r, D2. reflexivity.
    - destruct args as [|a2 args]; [|discriminate D]. destruct (i_mem s) as [m|]; [|discriminate D]. exfalso.
      repeat (apply orb_false_elim in HG as [HG ?]). rewrite HG in D. 
      repeat match goal with H : ?u = false |- _ => rewrite H in D; clear H end. discriminate D.
  Qed.

  Definition tabs (o : out) : Prop :=
    match o with ONorm _ x | OBr _ _ x | ORet _ x => Inv (i_tables (x_inst x)) | _ => True end.
  (** the second run, if it stays within bounds, is the first *)
  Definition near (a b : out) : Prop := (a = b /\ tabs b) \/ b = OUB \/ exists l, b = OTrap TOutOfBounds l.
  Lemma near_same a : tabs a -> near a a. Proof. left. auto. Qed.
  Lemma near_ub a : near a OUB. Proof. right. auto. Qed.
  Lemma near_trap a l : near a (OTrap TOutOfBounds l). Proof. right. right. eauto. Qed.
  Hint Resolve near_ub near_trap : core.

  Lemma near_finish l a b k1 k2 : near a b -> (forall vs x, Inv (i_tables (x_inst x)) -> near (k1 vs x) (k2 vs x)) -> near (finish l a k1) (finish l b k2).
  Proof.
    intros [[-> T]|[-> |[lg ->]]] K; cbn; auto. destruct b as [vs x| [|d] vs x | vs x | | | | | ]; cbn [finish tabs] in *; try (apply K; exact T); try (left; cbn; auto; fail).
  Qed.
  Lemma near_host w t args x k1 k2 : Inv (i_tables (x_inst x)) -> (forall vs x, Inv (i_tables (x_inst x)) -> near (k1 vs x) (k2 vs x)) ->
    near (do_host host w t args x k1) (do_host host w t args x k2).
  Proof.
    intros T K. unfold do_host. cbv zeta. destruct (host _); try (left; cbn; auto; fail); auto. destruct (host_vals _ _); auto. apply K. cbn [x_inst]. now rewrite writes_tables.
  Qed.
  Lemma defaults d : In (SWasm d) (sm_funcs M) -> p_defaults P1 (sf_locals d) = p_defaults P2 (sf_locals d).
  Proof.
    intros I. unfold plain_locals in PL. rewrite forallb_forall in PL. specialize (PL _ I). cbn beta iota in PL. revert PL. generalize (sf_locals d) as ts. clear.
    induction ts as [|t ts IH]; [reflexivity|]. cbn [forallb]. intros H. apply andb_prop in H as [H1 H2]. cbn [p_defaults]. rewrite IH by auto.
    cbn [guarded p_default below_2GiB wasm_prims]. destruct (is_ref t); [discriminate|reflexivity].
  Qed.
  Lemma body_ops d : In (SWasm d) (sm_funcs M) -> all_ops okop (sf_body d) = true.
  Proof. intros I. unfold uses in U. rewrite forallb_forall in U. exact (U _ I). Qed.
  Lemma near_call n d args x k1 k2 : In (SWasm d) (sm_funcs M) -> Inv (i_tables (x_inst x)) ->
    match n with O => True | S n => forall c ls stk x, all_ops okop c = true -> Inv (i_tables (x_inst x)) -> near (exec P1 host M n ls c stk x) (exec P2 host M n ls c stk x) end ->
    (forall vs x, Inv (i_tables (x_inst x)) -> near (k1 vs x) (k2 vs x)) -> near (callf P1 host M n d args x k1) (callf P2 host M n d args x k2).
  Proof.
    intros I T IHn K. unfold callf. destruct n as [|n]; [left; cbn; auto|]. rewrite defaults by auto.
    destruct (p_defaults P2 (sf_locals d)) as [ds|t|]; [|left; cbn; auto|auto]. apply near_finish; auto. apply IHn; auto. now apply body_ops.
  Qed.
  Lemma near_basic b stk x : match b with BOp o => okop o | _ => true end = true -> Inv (i_tables (x_inst x)) ->
    (bexec P1 b stk x = bexec P2 b stk x /\ forall stk' x', bexec P2 b stk x = Some (Ok (stk', x')) -> Inv (i_tables (x_inst x')))
    \/ bexec P2 b stk x = Some UB \/ bexec P2 b stk x = Some (Trap TOutOfBounds).
  Proof.
    intros O T. destruct b; cbn [bexec];
      try (left; split; [reflexivity|]; intros stk' x' E;
           repeat match type of E with context [match ?u with _ => _ end] => destruct u; try discriminate E end; injection E as <- <-; exact T).
    destruct (take _ _) as [[args rest]|]; [|left; split; [reflexivity|discriminate]].
    destruct (at_op o (x_inst x) (rev args)) as [E|[E|E]].
    - left. rewrite E. split; [reflexivity|]. intros stk' x' R.
      destruct (p_op P2 o (x_inst x) (rev args)) as [[s' v]| |] eqn:EV; cbn [bind] in R; try discriminate R. cbn [fst snd] in R.
      injection R as _ <-. cbn [x_inst with_inst]. eapply I_op; eauto.
    - right. left. now rewrite E.
    - right. right. now rewrite E.
  Qed.
  Ltac triv := left; cbn; auto; fail.

  Lemma near_exec n : forall c ls stk x, all_ops okop c = true -> Inv (i_tables (x_inst x)) -> near (exec P1 host M n ls c stk x) (exec P2 host M n ls c stk x).
  Proof.
    induction n as [n IHn] using lt_wf_ind.
    assert (IH1 : match n with O => True | S n => forall c ls stk x, all_ops okop c = true -> Inv (i_tables (x_inst x)) -> near (exec P1 host M n ls c stk x) (exec P2 host M n ls c stk x) end)
      by (destruct n; auto).
    clear IHn.
    induction c as [|b k IHk|lp ps rs body IHb k IHk|ps rs th IHt k IHk|ps rs th IHt el IHe k IHk|d k IHk|d k IHk|ds d k IHk|k IHk|k IHk|f k IHk|ty tb k IHk];
      intros ls stk x O T; try (cbn [all_ops] in O).
    - rewrite (exec_rest P2 host M P1) by exact Logic.I. destruct n; left; (split; [reflexivity|exact T]).
    - rewrite !exec_basic.
      assert (O' : match b with BOp o => okop o | _ => true end = true /\ all_ops okop k = true) by (destruct b; try (now split); now apply andb_prop in O).
      destruct O' as [O1 O2]. destruct (near_basic b stk x O1 T) as [[-> K]|[-> | ->]]; cbn [lift]; auto.
      destruct (bexec P2 b stk x) as [[[stk' x']| |]|]; cbn [lift]; try triv; auto. apply IHk; auto. eapply K; eauto.
    - apply andb_prop in O as [O1 O2]. rewrite !exec_block. destruct (take (length ps) stk) as [[args rest]|]; [|triv].
      destruct (IHb ((if lp then length ps else length rs) :: ls) args x O1 T) as [[-> K]|[-> |[lg ->]]]; auto.
      match goal with |- near (match ?o with _ => _ end) _ => destruct o as [vs y|[|d] vs y|vs y|t l|z l| | | ] end; cbn in K; try triv; auto.
      destruct lp; auto. destruct n; [triv|]. apply IH1; auto. cbn [all_ops]. now rewrite O1, O2.
    - apply andb_prop in O as [O1 O2]. rewrite !exec_if. destruct stk as [|cv stk]; [triv|]. destruct (is_true cv) as [b|]; [|triv]. destruct (take (length ps) stk) as [[args rest]|]; [|triv].
      destruct b; auto. destruct (IHt (length rs :: ls) args x O1 T) as [[-> K]|[-> |[lg ->]]]; auto.
      match goal with |- near (match ?o with _ => _ end) _ => destruct o as [vs y|[|d] vs y|vs y|t l|z l| | | ] end; cbn in K; try triv; auto.
    - apply andb_prop in O as [O1 O2]. apply andb_prop in O1 as [O1 O3]. rewrite !exec_ifelse. destruct stk as [|cv stk]; [triv|]. destruct (is_true cv) as [b|]; [|triv]. destruct (take (length ps) stk) as [[args rest]|]; [|triv].
      assert (H : near (if b then exec P1 host M n (length rs :: ls) th args x else exec P1 host M n (length rs :: ls) el args x)
                     (if b then exec P2 host M n (length rs :: ls) th args x else exec P2 host M n (length rs :: ls) el args x)) by (destruct b; auto).
      destruct H as [[-> K]|[-> |[lg ->]]]; auto.
      match goal with |- near (match ?o with _ => _ end) _ => destruct o as [vs y|[|d] vs y|vs y|t l|z l| | | ] end; cbn in K; try triv; auto.
    - rewrite (exec_rest P2 host M P1) by exact Logic.I. destruct n; left; (split; [reflexivity|]); cbn [exec]; destruct (nth_error ls d); cbn [tabs]; auto.
    - rewrite !exec_brif. destruct stk as [|cv stk]; [triv|]. destruct (is_true cv) as [[|]|]; try triv; auto; destruct (nth_error ls d); try triv; auto.
    - rewrite (exec_rest P2 host M P1) by exact Logic.I. left. split; [reflexivity|].
      assert (E : exec P2 host M n ls (CBrTable ds d k) stk x = match stk with
         | VI32 z :: stk => let e := nth (Z.to_nat (z mod 2 ^ 32)) ds d in match nth_error ls e with Some a => OBr e (firstn a stk) x | None => OStuck end | _ => OStuck end) by (destruct n; reflexivity).
      rewrite E. destruct stk as [|[z| | | | | ] stk]; cbn [tabs]; auto. cbv zeta. destruct (nth_error ls _); cbn [tabs]; auto.
    - rewrite (exec_rest P2 host M P1) by exact Logic.I. left. split; [reflexivity|]. destruct n; exact T.
    - rewrite (exec_rest P2 host M P1) by exact Logic.I. left. split; [reflexivity|]. destruct n; exact Logic.I.
    - rewrite !exec_call. destruct (nth_error (sm_funcs M) f) as [fn|] eqn:Nf; [|triv]. destruct (take _ stk) as [[args rest]|]; [|triv]. destruct fn as [d|w t].
      + apply near_call; auto. eapply nth_error_In; eauto.
      + apply near_host; auto.
    - rewrite !exec_callind. destruct stk as [|[i| | | | | ] stk]; try triv. destruct (nth_error (sm_types M) ty) as [t|]; [|triv]. destruct (take _ stk) as [[args rest]|]; [|triv].
      change (p_func P2 (i_tables (x_inst x)) tb i) with (table_func (i_tables (x_inst x)) tb i).
      cbn [guarded p_func wasm_prims]. destruct (table_func (i_tables (x_inst x)) tb i) as [f| |] eqn:TF; [|triv|auto].
      destruct (nth_error (sm_funcs M) f) as [[d|w tt]|] eqn:Nf.
      + rewrite Nf. destruct (ftype_eqb _ _); [|triv]. apply near_call; auto. eapply nth_error_In; eauto.
      + destruct (I_func _ _ _ _ w tt T TF Nf).
      + rewrite Nf. auto.
  Qed.
  Lemma near_invoke n f args s : Inv (i_tables s) -> near (invoke P1 host M n f args s) (invoke P2 host M n f args s).
  Proof.
    intros T. unfold invoke. destruct (nth_error (sm_funcs M) f) as [[d|]|] eqn:Nf; try triv. apply near_finish; [|intros; now apply near_same].
    apply near_exec; auto. apply body_ops. eapply nth_error_In; eauto.
  Qed.
End B.

Lemma op_tables hf o s args s' v : writes_no_table o = true -> p_op (below_2GiB (wasm_prims hf)) o s args = Ok (s', v) -> i_tables s' = i_tables s.
Proof.
  cbn [below_2GiB wasm_prims p_op]. destruct (huge o s args); [discriminate|]. destruct (diverges o s args); [|apply eval_tables]. intros _. apply div_tables.
Qed.
Lemma all_ops_true c : all_ops (fun _ => true) c = true.
Proof. induction c; cbn [all_ops]; auto; try (rewrite ?IHc, ?IHc1, ?IHc2, ?IHc3; reflexivity). destruct b; auto. Qed.
Lemma uses_true SM : uses (fun _ => true) SM = true.
Proof. unfold uses. apply forallb_forall. intros [d|] _; auto. apply all_ops_true. Qed.
Lemma own_func SM ts t i f w ty : own_tables SM ts = true -> table_func ts t i = Ok f -> nth_error (sm_funcs SM) f <> Some (SWasi w ty).
Proof.
  intros O T N. unfold table_func in T. unfold own_tables in O. rewrite forallb_forall in O.
  destruct (nth_error ts t) as [tb|] eqn:Nt; [|discriminate T]. specialize (O _ (nth_error_In _ _ Nt)). rewrite forallb_forall in O.
  destruct (nth_error tb _) as [[|g|]|] eqn:Ne; try discriminate T. injection T as <-. specialize (O _ (nth_error_In _ _ Ne)). cbn [own_element] in O. rewrite N in O. discriminate O.
Qed.

(** ** the statement without the section's parameters *)
Lemma bounded_near hf host SM n f args s : plain_locals SM = true -> calls_own SM (i_tables s) = true ->
  invoke (guarded SM (wasm_prims hf)) host SM n f args s = invoke (below_2GiB (wasm_prims hf)) host SM n f args s \/
  invoke (below_2GiB (wasm_prims hf)) host SM n f args s = OUB \/
  exists l, invoke (below_2GiB (wasm_prims hf)) host SM n f args s = OTrap TOutOfBounds l.
Proof.
  intros PL CO. unfold calls_own in CO. apply orb_prop in CO as [CO|CO].
  - destruct (near_invoke hf host SM (fun _ => true) (fun _ => True)) with (n := n) (f := f) (args := args) (s := s) as [[E _]|K]; auto.
    + intros ts t i g w ty _ _ N. rewrite forallb_forall in CO. specialize (CO _ (nth_error_In _ _ N)). discriminate CO.
    + apply uses_true.
  - apply andb_prop in CO as [C1 C2].
    destruct (near_invoke hf host SM writes_no_table (fun ts => own_tables SM ts = true)) with (n := n) (f := f) (args := args) (s := s) as [[E _]|K]; auto.
    + intros o s0 a s' v O E T. now rewrite (op_tables _ _ _ _ _ _ O E).
    + intros ts t i g w ty T E. eapply own_func; eauto.
Qed.
(** [below_2GiB] only ever leaves more undefined *)
Lemma below_ag hf host SM n f args s :
  ag (invoke (below_2GiB (wasm_prims hf)) host SM n f args s) (invoke (wasm_prims hf) host SM n f args s).
Proof.
  apply invoke_agree.
  - intros o s0 a. cbn [below_2GiB p_op]. destruct (huge o s0 a); auto.
  - intros. right. split; auto.
  - intros. auto.
Qed.
Lemma bounded_clear hf host SM n f args s : plain_locals SM = true -> calls_own SM (i_tables s) = true ->
  invoke (below_2GiB (wasm_prims hf)) host SM n f args s <> OUB ->
  (forall l, invoke (wasm_prims hf) host SM n f args s <> OTrap TOutOfBounds l) -> clear hf host SM n f args s.
Proof.
  intros PL CO NU NB. unfold clear. destruct (bounded_near hf host SM n f args s PL CO) as [E|[E|[l E]]].
  - now rewrite E.
  - contradiction.
  - destruct (below_ag hf host SM n f args s) as [A|A]; [contradiction|]. rewrite E in A. destruct (NB l). congruence.
Qed.
Lemma bounded_outcome hf host SM n f args s o : plain_locals SM = true -> calls_own SM (i_tables s) = true ->
  as_outcome (invoke (below_2GiB (wasm_prims hf)) host SM n f args s) = Some o -> ~ at_bound o ->
  clear hf host SM n f args s /\ as_outcome (invoke (wasm_prims hf) host SM n f args s) = Some o.
Proof.
  intros PL CO E NB. assert (NU : invoke (below_2GiB (wasm_prims hf)) host SM n f args s <> OUB) by (intros K; rewrite K in E; discriminate E).
  destruct (below_ag hf host SM n f args s) as [A|A]; [contradiction|]. rewrite <- A. split; auto. apply bounded_clear; auto.
  intros l K. apply NB. rewrite A, K in E. injection E as <-. now exists l.
Qed.

(** ** programs that do not change the size of memory *)
Section Same.
  Variables P1 P2 : prims.
  Variable host : hostfn.
  Variable M : smodule.
  Variable okop : sop -> bool.
  Hypothesis S_op : forall o s args, okop o = true -> p_op P1 o s args = p_op P2 o s args.
  Hypothesis S_func : forall ts t i, p_func P1 ts t i = p_func P2 ts t i.
  Hypothesis S_default : forall t, p_default P1 t = p_default P2 t.
  Hypothesis S_host : p_ind_host P1 = p_ind_host P2.
  Hypothesis U : uses okop M = true.
  Lemma same_finish l a k1 k2 : (forall vs x, k1 vs x = k2 vs x) -> finish l a k1 = finish l a k2.
  Proof. intros K. destruct a as [| [|d] | | | | | | ]; cbn; auto. Qed.
  Lemma same_host w t args x k1 k2 : (forall vs x, k1 vs x = k2 vs x) -> do_host host w t args x k1 = do_host host w t args x k2.
  Proof. intros K. unfold do_host. cbv zeta. destruct (host _); auto. destruct (host_vals _ _); auto. Qed.
  Lemma same_defaults ts : p_defaults P1 ts = p_defaults P2 ts.
  Proof. induction ts as [|t ts IH]; [reflexivity|]. cbn [p_defaults]. now rewrite S_default, IH. Qed.
  Lemma same_call n d args x k1 k2 : In (SWasm d) (sm_funcs M) ->
    match n with O => True | S n => forall c ls stk x, all_ops okop c = true -> exec P1 host M n ls c stk x = exec P2 host M n ls c stk x end ->
    (forall vs x, k1 vs x = k2 vs x) -> callf P1 host M n d args x k1 = callf P2 host M n d args x k2.
  Proof.
    intros I IHn K. unfold callf. destruct n as [|n]; auto. rewrite same_defaults. destruct (p_defaults P2 (sf_locals d)) as [ds|t|]; auto.
    rewrite IHn; [now apply same_finish|]. unfold uses in U. rewrite forallb_forall in U. exact (U _ I).
  Qed.
  Lemma same_exec n : forall c ls stk x, all_ops okop c = true -> exec P1 host M n ls c stk x = exec P2 host M n ls c stk x.
  Proof.
    induction n as [n IHn] using lt_wf_ind.
    assert (IH1 : match n with O => True | S n => forall c ls stk x, all_ops okop c = true -> exec P1 host M n ls c stk x = exec P2 host M n ls c stk x end)
      by (destruct n; auto).
    clear IHn.
    induction c as [|b k IHk|lp ps rs body IHb k IHk|ps rs th IHt k IHk|ps rs th IHt el IHe k IHk|d k IHk|d k IHk|ds d k IHk|k IHk|k IHk|f k IHk|ty tb k IHk];
      intros ls stk x O; try (now apply exec_rest); cbn [all_ops] in O.
    - rewrite !exec_basic.
      assert (O' : match b with BOp o => okop o | _ => true end = true /\ all_ops okop k = true) by (destruct b; try (now split); now apply andb_prop in O).
      destruct O' as [O1 O2]. assert (E : bexec P1 b stk x = bexec P2 b stk x) by (destruct b; cbn [bexec]; try reflexivity; destruct (take _ _) as [[a r]|]; auto; now rewrite S_op).
      rewrite E. destruct (bexec P2 b stk x) as [[[]| |]|]; cbn [lift]; auto.
    - apply andb_prop in O as [O1 O2]. rewrite !exec_block. destruct (take (length ps) stk) as [[args rest]|]; [|auto]. rewrite IHb by auto.
      match goal with |- match ?o with _ => _ end = _ => destruct o as [vs y|[|d] vs y|vs y|t l|z l| | | ] end; auto.
      destruct lp; auto. destruct n; auto. apply IH1. cbn [all_ops]. now rewrite O1, O2.
    - apply andb_prop in O as [O1 O2]. rewrite !exec_if. destruct stk as [|cv stk]; auto. destruct (is_true cv) as [b|]; auto. destruct (take (length ps) stk) as [[args rest]|]; auto.
      destruct b; auto. rewrite IHt by auto.
      match goal with |- match ?o with _ => _ end = _ => destruct o as [vs y|[|d] vs y|vs y|t l|z l| | | ] end; auto.
    - apply andb_prop in O as [O1 O2]. apply andb_prop in O1 as [O1 O3]. rewrite !exec_ifelse. destruct stk as [|cv stk]; auto. destruct (is_true cv) as [b|]; auto. destruct (take (length ps) stk) as [[args rest]|]; auto.
      rewrite IHt, IHe by auto. destruct b.
      all: match goal with |- match ?o with _ => _ end = _ => destruct o as [vs y|[|d] vs y|vs y|t l|z l| | | ] end; auto.
    - rewrite !exec_brif. destruct stk as [|cv stk]; auto. destruct (is_true cv) as [[|]|]; auto; destruct (nth_error ls d); auto.
    - rewrite !exec_call. destruct (nth_error (sm_funcs M) f) as [fn|] eqn:Nf; auto. destruct (take _ stk) as [[args rest]|]; auto. destruct fn as [d|w t].
      + apply same_call; auto. eapply nth_error_In; eauto.
      + apply same_host; auto.
    - rewrite !exec_callind. destruct stk as [|[i| | | | | ] stk]; auto. destruct (nth_error (sm_types M) ty) as [t|]; auto. destruct (take _ stk) as [[args rest]|]; auto.
      rewrite S_func. destruct (p_func P2 (i_tables (x_inst x)) tb i) as [f| |]; auto.
      destruct (nth_error (sm_funcs M) f) as [fn|] eqn:Nf; auto. destruct (ftype_eqb _ _); auto. destruct fn as [d|w tt].
      + apply same_call; auto. eapply nth_error_In; eauto.
      + rewrite S_host. destruct (p_ind_host P2); auto. apply same_host; auto.
  Qed.
  Lemma same_invoke n f args s : invoke P1 host M n f args s = invoke P2 host M n f args s.
  Proof.
    unfold invoke. destruct (nth_error (sm_funcs M) f) as [[d|]|] eqn:Nf; auto. rewrite same_exec; auto.
    unfold uses in U. rewrite forallb_forall in U. exact (U _ (nth_error_In _ _ Nf)).
  Qed.
End Same.
Lemma below_same hf host SM n f args s : uses sizes_no_memory SM = true ->
  invoke (below_2GiB (wasm_prims hf)) host SM n f args s = invoke (wasm_prims hf) host SM n f args s.
Proof.
  intros U. apply same_invoke with (okop := sizes_no_memory); auto. intros o s0 a O. cbn [below_2GiB p_op].
  assert (H : huge o s0 a = false) by (destruct o; try reflexivity; discriminate O). now rewrite H.
Qed.
