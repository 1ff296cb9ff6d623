(** Two sets of primitives that agree except where the first is undefined give the same executions,
    except that the first may be undefined. *)
From Coq Require Import ZArith List Bool Lia.
From Verif Require Import Word Value Numeric Float Mem Store Regs IR Machine Wasm WasmTyping WasmPrims PrimFacts Decoder Check BasicSim Sim.
Import ListNotations.
Open Scope nat_scope.

Section Agree.
  Variables P1 P2 : prims.
  Variable host : hostfn.
  Variable M : smodule.
  Hypothesis A_op : forall o s args, p_op P1 o s args = UB \/ p_op P1 o s args = p_op P2 o s args.
  Hypothesis A_func : forall ts t i, p_func P1 ts t i = UB \/
    (p_func P1 ts t i = p_func P2 ts t i /\
     forall f w ty, p_func P1 ts t i = Ok f -> nth_error (sm_funcs M) f = Some (SWasi w ty) -> p_ind_host P1 = p_ind_host P2).
  Hypothesis A_default : forall t, p_default P1 t = UB \/ p_default P1 t = p_default P2 t.

  Definition ag (a b : out) : Prop := a = OUB \/ a = b.
  Lemma ag_refl a : ag a a. Proof. now right. Qed.
  Lemma ag_ub b : ag OUB b. Proof. now left. Qed.
  Hint Resolve ag_refl ag_ub : core.
  Lemma ag_finish l a b k1 k2 : ag a b -> (forall vs x, ag (k1 vs x) (k2 vs x)) -> ag (finish l a k1) (finish l b k2).
  Proof. intros [->| ->] K; [now left|]. destruct b as [| [|d] | | | | | | ]; cbn; auto. Qed.
  Lemma ag_host w t args x k1 k2 : (forall vs x, ag (k1 vs x) (k2 vs x)) ->
    ag (do_host host w t args x k1) (do_host host w t args x k2).
  Proof.
    intros K. unfold do_host. cbv zeta. destruct (host _); auto. destruct (host_vals _ _); auto.
  Qed.
  Lemma a_defaults ts : p_defaults P1 ts = UB \/ p_defaults P1 ts = p_defaults P2 ts.
  Proof.
    induction ts as [|t ts IH]; [now right|]. cbn [p_defaults]. destruct (A_default t) as [-> | ->]; [now left|].
    destruct (p_default P2 t); cbn [bind]; [|now right|now left].
    destruct IH as [-> | ->]; [now left|now right].
  Qed.
  Lemma a_basic b stk x : (bexec P1 b stk x = Some UB) \/ bexec P1 b stk x = bexec P2 b stk x.
  Proof.
    destruct b; cbn [bexec]; try (now right). destruct (take _ _) as [[args rest]|]; [|now right].
    destruct (A_op o (x_inst x) (rev args)) as [-> | ->]; [now left|now right].
  Qed.

  Lemma exec_rest P n ls c stk x : match c with CNil | CBr _ _ | CBrTable _ _ _ | CReturn _ | CUnreachable _ => True | _ => False end ->
    exec P host M n ls c stk x = exec P2 host M n ls c stk x.
  Proof. destruct c; try tauto; destruct n; reflexivity. Qed.
  Lemma a_call n d args x k1 k2 :
    match n with O => True | S n => forall c ls stk x, ag (exec P1 host M n ls c stk x) (exec P2 host M n ls c stk x) end ->
    (forall vs x, ag (k1 vs x) (k2 vs x)) -> ag (callf P1 host M n d args x k1) (callf P2 host M n d args x k2).
  Proof.
    intros IHn K. unfold callf. destruct n as [|n]; auto. destruct (a_defaults (sf_locals d)) as [-> | ->]; [now left|].
    destruct (p_defaults P2 (sf_locals d)) as [ds| |]; auto. apply ag_finish; auto.
  Qed.

  Lemma agree n : forall c ls stk x, ag (exec P1 host M n ls c stk x) (exec P2 host M n ls c stk x).
  Proof.
    induction n as [n IHn] using lt_wf_ind.
    assert (IH1 : match n with O => True | S n => forall c ls stk x, ag (exec P1 host M n ls c stk x) (exec P2 host M n ls c stk x) end)
      by (destruct n; auto).
    clear IHn.
    induction c as [|b k IHk|lp ps rs body IHb k IHk|ps rs th IHt k IHk|ps rs th IHt el IHe k IHk|d k IHk|d k IHk|ds d k IHk|k IHk|k IHk|f k IHk|ty tb k IHk];
      intros ls stk x; try (right; now apply exec_rest).
    - rewrite !exec_basic. destruct (a_basic b stk x) as [-> | ->]; [now left|]. destruct (bexec P2 b stk x) as [[[]| |]|]; cbn [lift]; auto.
    - rewrite !exec_block. destruct (take (length ps) stk) as [[args rest]|]; [|auto].
      destruct (IHb ((if lp then length ps else length rs) :: ls) args x) as [-> | ->]; [now left|].
      match goal with |- ag (match ?o with _ => _ end) _ => destruct o as [vs y|[|d] vs y|vs y|t l|z l| | | ] end; auto.
      destruct lp; auto. destruct n; auto.
    - rewrite !exec_if. destruct stk as [|cv stk]; auto. destruct (is_true cv) as [b|]; auto. destruct (take (length ps) stk) as [[args rest]|]; auto.
      destruct b; auto. destruct (IHt (length rs :: ls) args x) as [-> | ->]; [now left|].
      match goal with |- ag (match ?o with _ => _ end) _ => destruct o as [vs y|[|d] vs y|vs y|t l|z l| | | ] end; auto.
    - rewrite !exec_ifelse. destruct stk as [|cv stk]; auto. destruct (is_true cv) as [b|]; auto. destruct (take (length ps) stk) as [[args rest]|]; auto.
      assert (H : ag (if b then exec P1 host M n (length rs :: ls) th args x else exec P1 host M n (length rs :: ls) el args x)
                     (if b then exec P2 host M n (length rs :: ls) th args x else exec P2 host M n (length rs :: ls) el args x)) by (destruct b; auto).
      destruct H as [-> | ->]; [now left|].
      match goal with |- ag (match ?o with _ => _ end) _ => destruct o as [vs y|[|d] vs y|vs y|t l|z l| | | ] end; auto.
    - rewrite !exec_brif. destruct stk as [|cv stk]; auto. destruct (is_true cv) as [[|]|]; auto; destruct (nth_error ls d); auto.
    - rewrite !exec_call. destruct (nth_error (sm_funcs M) f) as [fn|]; auto. destruct (take _ stk) as [[args rest]|]; auto. destruct fn as [d|w t].
      + apply a_call; auto.
      + apply ag_host; auto.
    - rewrite !exec_callind. destruct stk as [|[i| | | | | ] stk]; auto. destruct (nth_error (sm_types M) ty) as [t|]; auto. destruct (take _ stk) as [[args rest]|]; auto.
      destruct (A_func (i_tables (x_inst x)) tb i) as [-> |[E H]]; [now left|]. rewrite <- E.
      destruct (p_func P1 (i_tables (x_inst x)) tb i) as [f| |]; auto.
      destruct (nth_error (sm_funcs M) f) as [fn|] eqn:Nf; auto. destruct (ftype_eqb _ _); auto. destruct fn as [d|w tt].
      + apply a_call; auto.
      + rewrite (H f w tt eq_refl Nf). destruct (p_ind_host P2); auto. apply ag_host; auto.
  Qed.
  Lemma invoke_agree n f args s : ag (invoke P1 host M n f args s) (invoke P2 host M n f args s).
  Proof.
    unfold invoke. destruct (nth_error (sm_funcs M) f) as [[d|]|]; auto. apply ag_finish; auto. apply agree.
  Qed.
End Agree.
