(** Checking a file: a computable test of the conditions the theorems put on a module, so that they can be
    applied to compiled programs.  A proof device; nothing of /repo is modelled here (its validator,
    wasmparser's, is not modelled).  The test is sound: what passes meets the conditions. *)
From Coq Require Import String ZArith List Bool Lia.
From Verif Require Import Word Value Numeric Float Mem WasmMem Store Regs IR Machine Wasm WasmTyping Decoder Check Restrict Soundness Module ModuleSpec TotalSpec StaticSpec Load LoadSpec Codec EmitProofs FileSpec.
Import ListNotations.
Local Open Scope string_scope.
Local Open Scope list_scope.
Open Scope nat_scope.

(** ** validation (Core, appendix A.3): operand types may be unknown in dead code *)
Definition vt_eqb (a b : valtype) : bool :=
  match a, b with
  | TI32, TI32 | TI64, TI64 | TF32, TF32 | TF64, TF64 | TV128, TV128 | TFuncRef, TFuncRef | TExternRef, TExternRef => true
  | _, _ => false
  end.
Lemma vt_eqb_eq a b : vt_eqb a b = true -> a = b.
Proof. destruct a, b; cbn; congruence. Qed.
Fixpoint list_eqb {A} (e : A -> A -> bool) (a b : list A) : bool :=
  match a, b with [], [] => true | x :: a, y :: b => e x y && list_eqb e a b | _, _ => false end.
Lemma list_eqb_eq {A} (e : A -> A -> bool) : (forall a b, e a b = true -> a = b) -> forall a b, list_eqb e a b = true -> a = b.
Proof. intros H. induction a as [|x a IH]; intros [|y b] K; cbn in K; try congruence. apply andb_prop in K as [K1 K2]. f_equal; auto. Qed.
Definition vts_eqb := list_eqb vt_eqb.
Lemma vts_eqb_eq a b : vts_eqb a b = true -> a = b.
Proof. apply list_eqb_eq, vt_eqb_eq. Qed.

(** the operands known so far, top first; [true]: and any others below them *)
Definition opnds := (list (option valtype) * bool)%type.
Definition fits_op (o : option valtype) (t : valtype) : Prop := match o with Some u => t = u | None => True end.
Definition den (s : opnds) (ts : list valtype) : Prop :=
  exists a b, ts = a ++ b /\ Forall2 fits_op (fst s) a /\ (snd s = false -> b = []).
Definition known_st (ts : list valtype) : opnds := (map Some ts, false).
Lemma den_known ts us : den (known_st ts) us -> us = ts.
Proof.
  intros (a & b & -> & F & N). cbn [known_st fst snd] in *. rewrite (N eq_refl), app_nil_r. clear N b.
  revert a F. induction ts as [|t ts IH]; intros a F; inversion F as [|? x ? a' F1 F2]; subst; auto. cbn in F1. subst. f_equal. auto.
Qed.
Lemma den_dead ts : den ([], true) ts.
Proof. exists [], ts. split; [reflexivity|]. split; [constructor|]. cbn. discriminate. Qed.
Lemma den_push s o t ts : den s ts -> fits_op o t -> den (o :: fst s, snd s) (t :: ts).
Proof. intros (a & b & -> & F & N) H. exists (t :: a), b. repeat split; auto. constructor; auto. Qed.
Lemma den_pushed s o us : den (o :: fst s, snd s) us -> exists t ts, us = t :: ts /\ fits_op o t /\ den s ts.
Proof.
  intros (a & b & -> & F & N). cbn [fst snd] in *. inversion F as [|? x ? a' F1 F2]; subst. exists x, (a' ++ b). repeat split; auto. exists a', b. auto.
Qed.
(** any operand *)
Definition pop_any (s : opnds) : option (option valtype * opnds) :=
  match s with
  | (o :: l, d) => Some (o, (l, d))
  | ([], true) => Some (None, ([], true))
  | ([], false) => None
  end.
Lemma pop_any_ok s o s' : pop_any s = Some (o, s') -> forall t ts, fits_op o t -> den s' ts -> den s (t :: ts).
Proof.
  destruct s as [[|x l] [|]]; cbn; intros H t ts FO D; try discriminate; injection H as <- <-.
  - apply den_dead.
  - exact (den_push (l, true) x t ts D FO).
  - exact (den_push (l, false) x t ts D FO).
Qed.
(** an operand of the given type *)
Definition pop (t : valtype) (s : opnds) : option opnds :=
  match pop_any s with
  | Some (Some u, s) => if vt_eqb t u then Some s else None
  | Some (None, s) => Some s
  | None => None
  end.
Lemma pop_ok t s s' : pop t s = Some s' -> forall ts, den s' ts -> den s (t :: ts).
Proof.
  unfold pop. destruct (pop_any s) as [[[u|] s0]|] eqn:P; intros H ts D; try discriminate.
  - destruct (vt_eqb t u) eqn:E; [|discriminate]. injection H as <-. apply vt_eqb_eq in E. subst. eapply pop_any_ok; eauto. reflexivity.
  - injection H as <-. eapply pop_any_ok; eauto. exact Logic.I.
Qed.
Fixpoint pops (l : list valtype) (s : opnds) : option opnds :=
  match l with [] => Some s | t :: l => match pop t s with Some s => pops l s | None => None end end.
Lemma pops_ok l : forall s s', pops l s = Some s' -> forall ts, den s' ts -> den s (l ++ ts).
Proof.
  induction l as [|t l IH]; intros s s' H ts D; cbn [pops app] in *.
  - now injection H as <-.
  - destruct (pop t s) as [s1|] eqn:P; [|discriminate]. eapply pop_ok; eauto.
Qed.
Definition push (t : valtype) (s : opnds) : opnds := (Some t :: fst s, snd s).
Definition pushes (l : list valtype) (s : opnds) : opnds := (map Some l ++ fst s, snd s).
Lemma pushed t s us : den (push t s) us -> exists ts, us = t :: ts /\ den s ts.
Proof. intros H. apply den_pushed in H as (u & ts & -> & -> & D). eauto. Qed.
Lemma pushed_all l s : forall us, den (pushes l s) us -> exists ts, us = l ++ ts /\ den s ts.
Proof.
  induction l as [|t l IH]; intros us H; cbn [app] in *.
  - exists us. destruct s; auto.
  - change (pushes (t :: l) s) with (push t (pushes l s)) in H. apply pushed in H as (us' & -> & H). apply IH in H as (ts & -> & D). exists ts. auto.
Qed.
(** the end of a sequence: the stack must be [ts] *)
Fixpoint ends (l : list (option valtype)) (d : bool) (ts : list valtype) : bool :=
  match l, ts with
  | [], [] => true
  | [], _ :: _ => d
  | o :: l, t :: ts => match o with Some u => vt_eqb t u | None => true end && ends l d ts
  | _ :: _, [] => false
  end.
Lemma ends_ok d : forall l ts, ends l d ts = true -> den (l, d) ts.
Proof.
  induction l as [|o l IH]; intros [|t ts] H; cbn [ends] in H; try discriminate.
  - exists [], []. split; [reflexivity|]. split; [constructor|auto].
  - subst. apply den_dead.
  - apply andb_prop in H as [H1 H2]. apply (den_push (l, d)); auto. destruct o as [u|]; cbn; auto. now apply vt_eqb_eq.
Qed.
Definition is_isnull (o : sop) : bool := match o with SRefIsNull => true | _ => false end.

Section V.
  Variable F : fctx.
  Definition vbasic (s : opnds) (b : basic) : option opnds :=
    match b with
    | BConst v => match const_type v with Some t => Some (push t s) | None => None end
    | BGet n => match nth_error (f_locals F) n with Some t => Some (push t s) | None => None end
    | BSet n => match nth_error (f_locals F) n with Some t => pop t s | None => None end
    | BTee n => match nth_error (f_locals F) n with Some t => match pop t s with Some s => Some (push t s) | None => None end | None => None end
    | BDrop => match pop_any s with Some (_, s) => Some s | None => None end
    | BNop => Some s
    | BSelect None =>
        match pop TI32 s with
        | Some s => match pop_any s with
                    | Some (Some t, s) => if is_vec_or_num t then match pop t s with Some s => Some (push t s) | None => None end else None
                    | Some (None, s) => match pop_any s with
                                        | Some (Some t, s) => if is_vec_or_num t then Some (push t s) else None
                                        | Some (None, s) => Some (push TI32 s)
                                        | None => None
                                        end
                    | None => None
                    end
        | None => None
        end
    | BSelect (Some t) => match pops [TI32; t; t] s with Some s => Some (push t s) | None => None end
    | BOp o =>
        if is_isnull o then match pop_any s with
                            | Some (Some t, s) => if is_ref t then Some (push TI32 s) else None
                            | Some (None, s) => Some (push TI32 s)
                            | None => None
                            end
        else if exists_op o then match pops (on_stack (sop_args o)) s with
                                 | Some s => Some (match sop_res o with Some t => push t s | None => s end)
                                 | None => None
                                 end
        else None
    end.
  Lemma vbasic_ok s b s' : vbasic s b = Some s' -> forall us, den s' us -> exists ts, den s ts /\ basic_typed F ts b us.
  Proof.
    destruct b as [v|n|n|n| | |[t|]|o]; cbn [vbasic]; intros H us D.
    - destruct (const_type v) as [t|] eqn:C; [|discriminate]. injection H as <-. apply pushed in D as (ts & -> & D). exists ts. split; auto. now constructor.
    - destruct (nth_error (f_locals F) n) as [t|] eqn:C; [|discriminate]. injection H as <-. apply pushed in D as (ts & -> & D). exists ts. split; auto. now constructor.
    - destruct (nth_error (f_locals F) n) as [t|] eqn:C; [|discriminate]. exists (t :: us). split; [eapply pop_ok; eauto|now constructor].
    - destruct (nth_error (f_locals F) n) as [t|] eqn:C; [|discriminate]. destruct (pop t s) as [s1|] eqn:P; [|discriminate]. injection H as <-.
      apply pushed in D as (ts & -> & D). exists (t :: ts). split; [eapply pop_ok; eauto|now constructor].
    - destruct (pop_any s) as [[o s1]|] eqn:P; [|discriminate]. injection H as <-.
      set (t := match o with Some t => t | None => TI32 end). exists (t :: us). split; [|constructor]. eapply pop_any_ok; eauto. unfold t. destruct o; cbn; auto.
    - injection H as <-. exists us. split; auto. constructor.
    - destruct (pops [TI32; t; t] s) as [s1|] eqn:P; [|discriminate]. injection H as <-. apply pushed in D as (ts & -> & D).
      exists ([TI32; t; t] ++ ts). split; [eapply pops_ok; eauto|constructor].
    - destruct (pop TI32 s) as [s1|] eqn:P1; [|discriminate]. destruct (pop_any s1) as [[[t|] s2]|] eqn:P2; try discriminate.
      + destruct (is_vec_or_num t) eqn:V; [|discriminate]. destruct (pop t s2) as [s3|] eqn:P3; [|discriminate]. injection H as <-. apply pushed in D as (ts & -> & D).
        exists (TI32 :: t :: t :: ts). split; [|now constructor]. eapply pop_ok; eauto. eapply pop_any_ok; eauto; [reflexivity|]. eapply pop_ok; eauto.
      + destruct (pop_any s2) as [[[t|] s3]|] eqn:P3; try discriminate.
        * destruct (is_vec_or_num t) eqn:V; [|discriminate]. injection H as <-. apply pushed in D as (ts & -> & D).
          exists (TI32 :: t :: t :: ts). split; [|now constructor]. eapply pop_ok; eauto. eapply pop_any_ok; eauto; [exact Logic.I|]. eapply pop_any_ok; eauto. reflexivity.
        * injection H as <-. apply pushed in D as (ts & -> & D).
          exists (TI32 :: TI32 :: TI32 :: ts). split; [|now constructor]. eapply pop_ok; eauto. eapply pop_any_ok; eauto; [exact Logic.I|]. eapply pop_any_ok; eauto. exact Logic.I.
    - destruct (is_isnull o) eqn:IN.
      + destruct o; try discriminate IN. destruct (pop_any s) as [[[t|] s1]|] eqn:P; try discriminate.
        * destruct (is_ref t) eqn:R; [|discriminate]. injection H as <-. apply pushed in D as (ts & -> & D).
          exists (t :: ts). split; [eapply pop_any_ok; eauto; reflexivity|now constructor].
        * injection H as <-. apply pushed in D as (ts & -> & D).
          exists (TFuncRef :: ts). split; [eapply pop_any_ok; eauto; exact Logic.I|now constructor].
      + destruct (exists_op o) eqn:EX; [|discriminate]. destruct (pops (on_stack (sop_args o)) s) as [s1|] eqn:P; [|discriminate]. injection H as <-.
        assert (exists ts, us = match sop_res o with Some t => t :: ts | None => ts end /\ den s1 ts) as (ts & -> & D1).
        { destruct (sop_res o); [apply pushed in D as (ts & -> & D)|]; eauto. }
        exists (on_stack (sop_args o) ++ ts). split; [eapply pops_ok; eauto|]. constructor; auto. intros ->. discriminate IN.
  Qed.

  Fixpoint vcode (ls : list (list valtype)) (s : opnds) (c : code) (ts' : list valtype) : bool :=
    let inside l ps body rs := vcode (l :: ls) (known_st (on_stack ps)) body (on_stack rs) in
    let next ps rs s k := match pops (on_stack ps) s with Some s => vcode ls (pushes (on_stack rs) s) k ts' | None => false end in
    match c with
    | CNil => ends (fst s) (snd s) ts'
    | CBasic b k => match vbasic s b with Some s => vcode ls s k ts' | None => false end
    | CBlock false ps rs body k => inside (on_stack rs) ps body rs && next ps rs s k
    | CBlock true ps rs body k => inside (on_stack ps) ps body rs && next ps rs s k
    | CIf ps rs th k => match pop TI32 s with Some s => vts_eqb ps rs && inside (on_stack rs) ps th rs && next ps rs s k | None => false end
    | CIfElse ps rs th el k => match pop TI32 s with Some s => inside (on_stack rs) ps th rs && inside (on_stack rs) ps el rs && next ps rs s k | None => false end
    | CBr d k => match nth_error ls d with Some l => match pops l s with Some _ => vcode ls ([], true) k ts' | None => false end | None => false end
    | CBrIf d k => match pop TI32 s with
                   | Some s => match nth_error ls d with Some l => match pops l s with Some s => vcode ls (pushes l s) k ts' | None => false end | None => false end
                   | None => false
                   end
    | CBrTable ds d k => match pop TI32 s with
                         | Some s => match nth_error ls d with
                                     | Some l => match pops l s with
                                                 | Some _ => forallb (fun e => match nth_error ls e with Some l' => vts_eqb l' l | None => false end) ds && vcode ls ([], true) k ts'
                                                 | None => false
                                                 end
                                     | None => false
                                     end
                         | None => false
                         end
    | CReturn k => match pops (on_stack (f_results F)) s with Some _ => vcode ls ([], true) k ts' | None => false end
    | CUnreachable k => vcode ls ([], true) k ts'
    | CCall f k => match nth_error (sm_funcs (f_mod F)) f with Some fn => next (fst (sfunc_type fn)) (snd (sfunc_type fn)) s k | None => false end
    | CCallInd ty tb k => match nth_error (sm_types (f_mod F)) ty with
                          | Some t => match pop TI32 s with Some s => next (fst t) (snd t) s k | None => false end
                          | None => false
                          end
    end.
  (** some stack of the described form is left by popping *)
  Lemma den_some s : exists ts, den s ts.
  Proof.
    destruct s as [l d]. exists (map (fun o => match o with Some t => t | None => TI32 end) l), (map (fun o => match o with Some t => t | None => TI32 end) l), [].
    rewrite app_nil_r. repeat split; auto. cbn [fst]. induction l as [|o l IH]; constructor; auto. destruct o; cbn; auto.
  Qed.
  Lemma vcode_ok c : forall ls s ts', vcode ls s c ts' = true -> exists ts, den s ts /\ typed F ls ts c ts'.
  Proof.
    induction c as [|b k IH|lp ps rs body IHb k IH|ps rs th IHt k IH|ps rs th IHt el IHe k IH|d k IH|d k IH|ds d k IH|k IH|k IH|f k IH|ty tb k IH];
      intros ls s ts' H; cbn [vcode] in H.
    - exists ts'. split; [destruct s; now apply ends_ok|constructor].
    - destruct (vbasic s b) as [s1|] eqn:B; [|discriminate]. apply IH in H as (us & D & T). destruct (vbasic_ok _ _ _ B us D) as (ts & D1 & T1). exists ts. split; auto. econstructor; eauto.
    - assert (exists l, l = (if lp then on_stack ps else on_stack rs) /\ vcode (l :: ls) (known_st (on_stack ps)) body (on_stack rs) = true /\
        match pops (on_stack ps) s with Some s => vcode ls (pushes (on_stack rs) s) k ts' | None => false end = true) as (l & EL & H1 & H2).
      { destruct lp; apply andb_prop in H as [H1 H2]; eauto. }
      destruct (pops (on_stack ps) s) as [s1|] eqn:P; [|discriminate]. apply IH in H2 as (us & D & T). apply pushed_all in D as (ts & -> & D).
      apply IHb in H1 as (bs & DB & TB). apply den_known in DB. subst bs. exists (on_stack ps ++ ts). split; [eapply pops_ok; eauto|].
      subst l. destruct lp; econstructor; eauto.
    - destruct (pop TI32 s) as [s0|] eqn:P0; [|discriminate]. apply andb_prop in H as [H H2]. apply andb_prop in H as [H0 H1]. apply vts_eqb_eq in H0.
      destruct (pops (on_stack ps) s0) as [s1|] eqn:P; [|discriminate]. apply IH in H2 as (us & D & T). apply pushed_all in D as (ts & -> & D).
      apply IHt in H1 as (bs & DB & TB). apply den_known in DB. subst bs. exists (TI32 :: on_stack ps ++ ts). split; [eapply pop_ok; eauto; eapply pops_ok; eauto|]. econstructor; eauto.
    - destruct (pop TI32 s) as [s0|] eqn:P0; [|discriminate]. apply andb_prop in H as [H H2]. apply andb_prop in H as [H0 H1].
      destruct (pops (on_stack ps) s0) as [s1|] eqn:P; [|discriminate]. apply IH in H2 as (us & D & T). apply pushed_all in D as (ts & -> & D).
      apply IHt in H0 as (bs & DB & TB). apply den_known in DB. subst bs. apply IHe in H1 as (bs & DB & TB'). apply den_known in DB. subst bs.
      exists (TI32 :: on_stack ps ++ ts). split; [eapply pop_ok; eauto; eapply pops_ok; eauto|]. econstructor; eauto.
    - destruct (nth_error ls d) as [l|] eqn:N; [|discriminate]. destruct (pops l s) as [s1|] eqn:P; [|discriminate]. apply IH in H as (us & _ & T).
      destruct (den_some s1) as (ts & D). exists (l ++ ts). split; [eapply pops_ok; eauto|]. econstructor; eauto.
    - destruct (pop TI32 s) as [s0|] eqn:P0; [|discriminate]. destruct (nth_error ls d) as [l|] eqn:N; [|discriminate]. destruct (pops l s0) as [s1|] eqn:P; [|discriminate].
      apply IH in H as (us & D & T). apply pushed_all in D as (ts & -> & D). exists (TI32 :: l ++ ts). split; [eapply pop_ok; eauto; eapply pops_ok; eauto|]. econstructor; eauto.
    - destruct (pop TI32 s) as [s0|] eqn:P0; [|discriminate]. destruct (nth_error ls d) as [l|] eqn:N; [|discriminate]. destruct (pops l s0) as [s1|] eqn:P; [|discriminate].
      apply andb_prop in H as [H1 H]. apply IH in H as (us & _ & T). destruct (den_some s1) as (ts & D). exists (TI32 :: l ++ ts).
      split; [eapply pop_ok; eauto; eapply pops_ok; eauto|]. econstructor; eauto. intros e I. rewrite forallb_forall in H1. specialize (H1 e I).
      destruct (nth_error ls e) as [l'|]; [|discriminate]. f_equal. now apply vts_eqb_eq.
    - destruct (pops (on_stack (f_results F)) s) as [s1|] eqn:P; [|discriminate]. apply IH in H as (us & _ & T). destruct (den_some s1) as (ts & D).
      exists (on_stack (f_results F) ++ ts). split; [eapply pops_ok; eauto|]. econstructor; eauto.
    - apply IH in H as (us & _ & T). destruct (den_some s) as (ts & D). exists ts. split; auto. econstructor; eauto.
    - destruct (nth_error (sm_funcs (f_mod F)) f) as [fn|] eqn:N; [|discriminate]. destruct (pops (on_stack (fst (sfunc_type fn))) s) as [s1|] eqn:P; [|discriminate].
      apply IH in H as (us & D & T). apply pushed_all in D as (ts & -> & D). exists (on_stack (fst (sfunc_type fn)) ++ ts). split; [eapply pops_ok; eauto|]. econstructor; eauto.
    - destruct (nth_error (sm_types (f_mod F)) ty) as [[ps rs]|] eqn:N; [|discriminate]. destruct (pop TI32 s) as [s0|] eqn:P0; [|discriminate]. cbn [fst snd] in H.
      destruct (pops (on_stack ps) s0) as [s1|] eqn:P; [|discriminate].
      apply IH in H as (us & D & T). apply pushed_all in D as (ts & -> & D). exists (TI32 :: on_stack ps ++ ts). split; [eapply pop_ok; eauto; eapply pops_ok; eauto|]. econstructor; eauto.
  Qed.
End V.
Definition vfunc (SM : smodule) (f : sfunc) : bool :=
  match f with
  | SWasi _ _ => true
  | SWasm d => vcode {| f_mod := SM; f_locals := fst (sf_type d) ++ sf_locals d; f_results := snd (sf_type d) |}
                     [on_stack (snd (sf_type d))] (known_st []) (sf_body d) (on_stack (snd (sf_type d)))
  end.
Definition is_wasi (f : sfunc) : bool := match f with SWasi _ _ => true | SWasm _ => false end.
(** a module with the imports [imps] and the functions [defs] *)
Definition validates (SM : smodule) (imps defs : list sfunc) : bool :=
  forallb (vfunc SM) (sm_funcs SM) && forallb is_wasi imps && forallb (fun f => negb (is_wasi f)) defs.
Lemma validates_ok SM imps defs : sm_funcs SM = imps ++ defs -> validates SM imps defs = true -> WasmTyping.valid SM.
Proof.
  intros E H. apply andb_prop in H as [H H3]. apply andb_prop in H as [H1 H2]. rewrite forallb_forall in *. split.
  - apply Forall_forall. intros f I. specialize (H1 f I). destruct f as [d|w t]; cbn [valid_func vfunc] in *; auto.
    apply vcode_ok in H1 as (ts & D & T). apply (den_known []) in D. now subst.
  - exists imps, defs. split; auto. split; apply Forall_forall; intros f I; [specialize (H2 f I)|specialize (H3 f I)]; destruct f; cbn in *; try discriminate; auto.
Qed.

(** ** structured code from the operators of a body *)
(** [true]: ended by else *)
Fixpoint parse (n : nat) (ops : list fop) : option (code * list fop * bool) :=
  match n with
  | O => None
  | Datatypes.S n =>
      let then_ (k : code -> code) rest := match parse n rest with Some (c, r, e) => Some (k c, r, e) | None => None end in
      match ops with
      | [] => None
      | FEnd :: r => Some (CNil, r, false)
      | FElse :: r => Some (CNil, r, true)
      | FBasic b :: r => then_ (CBasic b) r
      | FBlock l ps rs :: r => match parse n r with Some (b, r, false) => then_ (CBlock l ps rs b) r | _ => None end
      | FIf ps rs :: r =>
          match parse n r with
          | Some (t, r, false) => then_ (CIf ps rs t) r
          | Some (t, r, true) => match parse n r with Some (e, r, false) => then_ (CIfElse ps rs t e) r | _ => None end
          | None => None
          end
      | FBr d :: r => then_ (CBr d) r
      | FBrIf d :: r => then_ (CBrIf d) r
      | FBrTable ds d :: r => then_ (CBrTable ds d) r
      | FReturn :: r => then_ CReturn r
      | FUnreachable :: r => then_ CUnreachable r
      | FCall f :: r => then_ (CCall f) r
      | FCallInd t b :: r => then_ (CCallInd t b) r
      end
  end.
Lemma parse_ok n : forall ops c r e, parse n ops = Some (c, r, e) -> ops = flatten c ++ (if e then FElse else FEnd) :: r.
Proof.
  induction n as [|n IH]; intros ops c r e H; [discriminate|]. cbn [parse] in H.
  destruct ops as [|o ops]; [discriminate|].
  destruct o as [b|lp ps rs|ps rs| | |d|d|ds d| | |f|ty tb].
  2: { destruct (parse n ops) as [[[b1 r1] [|]]|] eqn:P1; try discriminate. destruct (parse n r1) as [[[k r2] e2]|] eqn:P2; [|discriminate]. injection H as <- <- <-.
       apply IH in P1, P2. subst. cbn [flatten app]. repeat (rewrite <- app_assoc; cbn [app]). reflexivity. }
  2: { destruct (parse n ops) as [[[b1 r1] [|]]|] eqn:P1; try discriminate.
       - destruct (parse n r1) as [[[b2 r2] [|]]|] eqn:P2; try discriminate. destruct (parse n r2) as [[[k r3] e3]|] eqn:P3; [|discriminate]. injection H as <- <- <-.
         apply IH in P1, P2, P3. subst. cbn [flatten app]. repeat (rewrite <- app_assoc; cbn [app]). reflexivity.
       - destruct (parse n r1) as [[[k r2] e2]|] eqn:P2; [|discriminate]. injection H as <- <- <-.
         apply IH in P1, P2. subst. cbn [flatten app]. repeat (rewrite <- app_assoc; cbn [app]). reflexivity. }
  2: now injection H as <- <- <-.
  2: now injection H as <- <- <-.
  all: destruct (parse n ops) as [[[k r1] e1]|] eqn:P1; [|discriminate]; injection H as <- <- <-; apply IH in P1; subst; reflexivity.
Qed.
Definition structured (ops : list fop) : option code := match parse (Datatypes.S (List.length ops)) ops with Some (c, [], false) => Some c | _ => None end.
Lemma structured_ok ops c : structured ops = Some c -> ops = flatten c ++ [FEnd].
Proof.
  unfold structured. destruct (parse _ ops) as [[[c' [|]] [|]]|] eqn:P; try discriminate. intros [= <-]. exact (parse_ok _ _ _ _ _ P).
Qed.

(** ** the sections in order *)
Fixpoint all_some {A} (l : list (option A)) : option (list A) :=
  match l with [] => Some [] | Some a :: l => option_map (cons a) (all_some l) | None :: _ => None end.
Lemma all_some_ok {A} (l : list (option A)) : forall k, all_some l = Some k -> l = items k.
Proof. induction l as [|[a|] l IH]; intros k H; cbn in H.
  - now injection H as <-.
  - destruct (all_some l) as [k'|]; [|discriminate]. injection H as <-. rewrite (IH k' eq_refl). reflexivity.
  - discriminate.
Qed.
(** the items of the section [G] begins with, if it is the wanted one *)
Definition take {A} (get : payload -> option (list (option A))) (G : list payload) : option (list A * list payload) :=
  match G with
  | p :: G' => match get p with Some l => match all_some l with Some k => Some (k, G') | None => None end | None => Some ([], G) end
  | [] => Some ([], [])
  end.
Definition quiet_ (G : list payload) : Prop := Forall (fun p => noise p = false) G.
Lemma take_ok {A} (sec : list A -> list payload) get G k G' :
  sec [] = [] -> (forall p l k, get p = Some l -> all_some l = Some k -> noise p = false -> sec k = [p]) ->
  quiet_ G -> take get G = Some (k, G') -> G = sec k ++ G' /\ quiet_ G'.
Proof.
  intros S0 S1 Q H. unfold take in H. destruct G as [|p G].
  - injection H as <- <-. rewrite S0. auto.
  - destruct (get p) as [l|] eqn:E.
    + destruct (all_some l) as [k'|] eqn:AS; [|discriminate]. injection H as <- <-. inversion Q as [|? ? Q1 Q2]; subst. rewrite (S1 p l k' E AS Q1). auto.
    + injection H as <- <-. rewrite S0. auto.
Qed.
Fixpoint codes (G : list payload) : list pbody * list payload :=
  match G with PCode b :: G => let (bs, r) := codes G in (b :: bs, r) | _ => ([], G) end.
Lemma codes_ok G : forall bs r, codes G = (bs, r) -> G = map PCode bs ++ r.
Proof.
  induction G as [|p G IH]; intros bs r H; cbn in H; [now injection H as <- <-|]. destruct p; try (now injection H as <- <-).
  destruct (codes G) as [bs' r']. injection H as <- <-. cbn. f_equal. auto.
Qed.
Lemma quiet_app a b : quiet_ (a ++ b) -> quiet_ b.
Proof. intros H. apply Forall_app in H. tauto. Qed.
Definition ft_eqb (a b : ftype) : bool := vts_eqb (fst a) (fst b) && vts_eqb (snd a) (snd b).
Lemma ft_eqb_eq a b : ft_eqb a b = true -> a = b.
Proof. intros H. apply andb_prop in H as [H1 H2]. destruct a, b. cbn in *. f_equal; now apply vts_eqb_eq. Qed.
Definition read_import (sg : nat -> ftype) (types : list ftype) (i : wimport) : option sfunc :=
  match i with
  | WiFunc (Some w) ty => match nth_error types ty with Some t => if ft_eqb t (sg w) then Some (SWasi w t) else None | None => None end
  | _ => None
  end.
Definition read_body (types : list ftype) (p : nat * pbody) : option sfunc :=
  match nth_error types (fst p), structured (b_ops (snd p)) with
  | Some t, Some c => if b_badlocals (snd p) || b_bad (snd p) then None else Some (SWasm {| sf_type := t; sf_locals := b_locals (snd p); sf_body := c |})
  | _, _ => None
  end.
Record parts := { p_mod : wmodule; p_imps : list sfunc; p_defs : list sfunc }.
Definition read (sg : nat -> ftype) (F : list payload) : option parts :=
  match LoadSpec.proper F with
  | PVersion 1 :: G =>
      match take (fun p => match p with PTypes l => Some l | _ => None end) G with None => None | Some (types, G) =>
      match take (fun p => match p with PImports (i :: l) => Some (i :: l) | _ => None end) G with None => None | Some (is, G) =>
      match take (fun p => match p with PFuncs l => Some l | _ => None end) G with None => None | Some (tys, G) =>
      match take (fun p => match p with PTables l => Some l | _ => None end) G with None => None | Some (tables, G) =>
      match take (fun p => match p with PMems l => Some l | _ => None end) G with None => None | Some (mems, G) =>
      match take (fun p => match p with PGlobals l => Some l | _ => None end) G with None => None | Some (globals, G) =>
      match take (fun p => match p with PExports l => Some l | _ => None end) G with None => None | Some (exports, G) =>
      match take (fun p => match p with PElems l => Some l | _ => None end) G with None => None | Some (elems, G) =>
      let (bodies, G) := codes G in
      match take (fun p => match p with PDatas l => Some l | _ => None end) G with
      | Some (datas, []) =>
          if negb (Nat.eqb (List.length tys) (List.length bodies)) then None else
          match map_opt (read_import sg types) is, map_opt (read_body types) (combine tys bodies), mems with
          | Some imps, Some defs, ([] | [_]) =>
              Some {| p_mod := {| w_code := {| sm_types := types; sm_funcs := imps ++ defs |}; w_tables := tables;
                                  w_mem := match mems with m :: _ => Some m | [] => None end; w_globals := globals; w_elems := elems;
                                  w_datas := datas; w_exports := exports; w_start := None |};
                      p_imps := imps; p_defs := defs |}
          | _, _, _ => None
          end
      | _ => None
      end end end end end end end end end
  | _ => None
  end.
Lemma map_opt_F2 {A B} (f : A -> option B) l : forall k, map_opt f l = Some k -> Forall2 (fun a b => f a = Some b) l k.
Proof.
  induction l as [|a l IH]; intros k H; cbn [map_opt] in H; [injection H as <-; constructor|].
  destruct (f a) as [b|] eqn:E; [|discriminate]. destruct (map_opt f l) as [k'|]; [|discriminate]. injection H as <-. constructor; auto.
Qed.
Lemma proper_app a b : LoadSpec.proper (a ++ b) = LoadSpec.proper a ++ LoadSpec.proper b.
Proof. apply filter_app. Qed.
Lemma proper_quiet G : quiet_ G -> LoadSpec.proper G = G.
Proof. intros Q. induction Q as [|p G Q1 Q2 IH]; auto. unfold LoadSpec.proper in *. cbn [filter]. rewrite Q1. cbn [negb]. now f_equal. Qed.
Lemma quiet_proper F : quiet_ (LoadSpec.proper F).
Proof. apply Forall_forall. intros p I. apply filter_In in I as [_ I]. now destruct (noise p). Qed.
Lemma quiet_codes bs : quiet_ (map PCode bs).
Proof. apply Forall_forall. intros p I. apply in_map_iff in I as (b & <- & _). reflexivity. Qed.
Lemma F2_impl {A B} (R R' : A -> B -> Prop) l k : (forall a b, R a b -> R' a b) -> Forall2 R l k -> Forall2 R' l k.
Proof. induction 2; constructor; auto. Qed.
Lemma F2_flip {A B} (R : A -> B -> Prop) l k : Forall2 R l k -> Forall2 (fun b a => R a b) k l.
Proof. induction 1; constructor; auto. Qed.

Lemma read_presents sg F P : read sg F = Some P -> LoadSpec.presents sg (p_mod P) F /\ sm_funcs (w_code (p_mod P)) = p_imps P ++ p_defs P.
Proof.
  intros H. unfold read in H. pose proof (quiet_proper F) as Q0.
  destruct (LoadSpec.proper F) as [|[z| | | | | | | | | | | | |] G0] eqn:EF; try discriminate.
  destruct z as [|[p|p|]|p]; try discriminate. assert (Q : quiet_ G0) by now inversion Q0.
  destruct (take (fun p => match p with PTypes l => Some l | _ => None end) G0) as [[types G1]|] eqn:E1; [|discriminate].
  apply (take_ok (fun l => LoadSpec.proper [PTypes (items l)])) in E1; [destruct E1 as [-> Q1]|reflexivity| |exact Q].
  2: { intros p l k X AS N. destruct p; try discriminate. injection X as <-. apply all_some_ok in AS. subst. unfold LoadSpec.proper. cbn [filter]. now rewrite N. }
  destruct (take (fun p => match p with PImports (i :: l) => Some (i :: l) | _ => None end) G1) as [[is G2]|] eqn:E2; [|discriminate].
  apply (take_ok (fun l => match l with [] => [] | _ => [PImports (items l)] end)) in E2; [destruct E2 as [-> Q2]|reflexivity| |exact Q1].
  2: { intros p l k X AS N. destruct p as [| |[|i l']| | | | | | | | | | |]; try discriminate. injection X as <-. apply all_some_ok in AS. rewrite AS. destruct k; [discriminate AS|reflexivity]. }
  destruct (take (fun p => match p with PFuncs l => Some l | _ => None end) G2) as [[tys G3]|] eqn:E3; [|discriminate].
  apply (take_ok (fun l => LoadSpec.proper [PFuncs (items l)])) in E3; [destruct E3 as [-> Q3]|reflexivity| |exact Q2].
  2: { intros p l k X AS N. destruct p; try discriminate. injection X as <-. apply all_some_ok in AS. subst. unfold LoadSpec.proper. cbn [filter]. now rewrite N. }
  destruct (take (fun p => match p with PTables l => Some l | _ => None end) G3) as [[tables G4]|] eqn:E4; [|discriminate].
  apply (take_ok (fun l => LoadSpec.proper [PTables (items l)])) in E4; [destruct E4 as [-> Q4]|reflexivity| |exact Q3].
  2: { intros p l k X AS N. destruct p; try discriminate. injection X as <-. apply all_some_ok in AS. subst. unfold LoadSpec.proper. cbn [filter]. now rewrite N. }
  destruct (take (fun p => match p with PMems l => Some l | _ => None end) G4) as [[mems G5]|] eqn:E5; [|discriminate].
  apply (take_ok (fun l => LoadSpec.proper [PMems (items l)])) in E5; [destruct E5 as [-> Q5]|reflexivity| |exact Q4].
  2: { intros p l k X AS N. destruct p; try discriminate. injection X as <-. apply all_some_ok in AS. subst. unfold LoadSpec.proper. cbn [filter]. now rewrite N. }
  destruct (take (fun p => match p with PGlobals l => Some l | _ => None end) G5) as [[globals G6]|] eqn:E6; [|discriminate].
  apply (take_ok (fun l => LoadSpec.proper [PGlobals (items l)])) in E6; [destruct E6 as [-> Q6]|reflexivity| |exact Q5].
  2: { intros p l k X AS N. destruct p; try discriminate. injection X as <-. apply all_some_ok in AS. subst. unfold LoadSpec.proper. cbn [filter]. now rewrite N. }
  destruct (take (fun p => match p with PExports l => Some l | _ => None end) G6) as [[exports G7]|] eqn:E7; [|discriminate].
  apply (take_ok (fun l => LoadSpec.proper [PExports (items l)])) in E7; [destruct E7 as [-> Q7]|reflexivity| |exact Q6].
  2: { intros p l k X AS N. destruct p; try discriminate. injection X as <-. apply all_some_ok in AS. subst. unfold LoadSpec.proper. cbn [filter]. now rewrite N. }
  destruct (take (fun p => match p with PElems l => Some l | _ => None end) G7) as [[elems G8]|] eqn:E8; [|discriminate].
  apply (take_ok (fun l => LoadSpec.proper [PElems (items l)])) in E8; [destruct E8 as [-> Q8]|reflexivity| |exact Q7].
  2: { intros p l k X AS N. destruct p; try discriminate. injection X as <-. apply all_some_ok in AS. subst. unfold LoadSpec.proper. cbn [filter]. now rewrite N. }
  destruct (codes G8) as [bodies G9] eqn:E9. apply codes_ok in E9. subst G8. pose proof (quiet_app _ _ Q8) as Q9.
  destruct (take (fun p => match p with PDatas l => Some l | _ => None end) G9) as [[datas [|]]|] eqn:EA; try discriminate.
  apply (take_ok (fun l => LoadSpec.proper [PDatas (items l)])) in EA; [destruct EA as [-> QA]|reflexivity| |exact Q9].
  2: { intros p l k X AS N. destruct p; try discriminate. injection X as <-. apply all_some_ok in AS. subst. unfold LoadSpec.proper. cbn [filter]. now rewrite N. }
  destruct (Nat.eqb (List.length tys) (List.length bodies)) eqn:EL; [|discriminate]. apply Nat.eqb_eq in EL. cbn [negb] in H.
  destruct (map_opt (read_import sg types) is) as [imps|] eqn:EI; [|discriminate].
  destruct (map_opt (read_body types) (combine tys bodies)) as [defs|] eqn:ED; [|discriminate].
  assert (HH : exists m, P = {| p_mod := {| w_code := {| sm_types := types; sm_funcs := imps ++ defs |}; w_tables := tables;
                                  w_mem := m; w_globals := globals; w_elems := elems;
                                  w_datas := datas; w_exports := exports; w_start := None |};
                      p_imps := imps; p_defs := defs |} /\ mems = match m with Some m => [m] | None => [] end).
  { destruct mems as [|m [|]]; try discriminate; injection H as <-; [exists None|exists (Some m)]; auto. }
  clear H. destruct HH as (m & -> & ->). cbn [p_mod p_imps p_defs w_code sm_funcs]. split; [|reflexivity].
  apply map_opt_F2 in EI, ED. exists imps, defs, is, tys, (map PCode bodies). cbn [w_code sm_funcs sm_types w_tables w_mem w_globals w_exports w_start w_elems w_datas].
  split; [reflexivity|]. split.
  { apply F2_flip. eapply F2_impl; [|exact EI]. intros i f X. destruct i as [[w|] ty|]; cbn [read_import] in X; try discriminate.
    destruct (nth_error types ty) as [t|] eqn:N; [|discriminate]. destruct (ft_eqb t (sg w)) eqn:T; [|discriminate]. injection X as <-. apply ft_eqb_eq in T. cbn. split; auto. eauto. }
  assert (FD : Forall2 (func_entry types) defs tys /\ Forall2 code_entry defs (map PCode bodies)).
  { clear - EL ED. revert bodies EL defs ED. induction tys as [|ty tys IH]; intros [|b bodies] EL defs ED; try discriminate; cbn [combine] in ED; inversion ED as [|? f ? l X Y]; subst.
    - split; constructor.
    - injection EL as EL. destruct (IH bodies EL l Y) as [A B]. unfold read_body in X. cbn [fst snd] in X. destruct (nth_error types ty) as [t|] eqn:N; [|discriminate].
      destruct (structured (b_ops b)) as [c|] eqn:SC; [|discriminate]. apply structured_ok in SC. destruct b as [bl bb bo bx]. cbn [b_ops b_badlocals b_bad b_locals] in *.
      destruct bb; [discriminate|]. destruct bx; [discriminate|]. cbn [orb] in X. injection X as <-. split; constructor; auto. cbn. now rewrite SC. }
  split; [apply FD|]. split; [apply FD|]. rewrite EF.
  rewrite !app_nil_l. rewrite !proper_app. rewrite (proper_quiet (map PCode bodies) (quiet_codes bodies)).
  assert (PI : LoadSpec.proper match is with [] => [] | _ :: _ => [PImports (items is)] end = match is with [] => [] | _ :: _ => [PImports (items is)] end) by (destruct is; reflexivity).
  rewrite PI. clear. change (PVersion 1 :: ?x) with ([PVersion 1] ++ x).
  change [PVersion 1; PTypes (items types)] with ([PVersion 1] ++ [PTypes (items types)]).
  match goal with |- context [LoadSpec.proper [PFuncs ?a; PTables ?b; PMems ?c; PGlobals ?d; PExports ?e]] =>
    change [PFuncs a; PTables b; PMems c; PGlobals d; PExports e] with ([PFuncs a] ++ [PTables b] ++ [PMems c] ++ [PGlobals d] ++ [PExports e]) end.
  rewrite !proper_app, <- !app_assoc, ?app_nil_r. change (LoadSpec.proper []) with (@nil payload). reflexivity.
Qed.

(** ** the rest of the module *)
Definition ceval (gs : list val) (e : cexpr) : option val :=
  match e with
  | [CVal v] => Some v
  | [CNull] => Some (VRef RNull)
  | [CRefFunc f] => Some (VRef (RFunc f))
  | [CGlobal i] => nth_error gs i
  | _ => None
  end.
Lemma ceval_ok gs e v : ceval gs e = Some v <-> evaluates gs e v.
Proof.
  split.
  - destruct e as [|[u| |f|i] [|]]; cbn; intros H; try discriminate; try (injection H as <-); now constructor.
  - intros [ | | | ]; auto.
Qed.
Fixpoint geval (gs : list val) (es : list cexpr) : option (list val) :=
  match es with [] => Some gs | e :: es => match ceval gs e with Some v => geval (gs ++ [v]) es | None => None end end.
Lemma geval_ok es : forall ds gs gs', globals_of ds gs -> geval gs es = Some gs' -> globals_of (ds ++ es) gs'.
Proof.
  induction es as [|e es IH]; intros ds gs gs' G H; cbn [geval] in H.
  - injection H as <-. now rewrite app_nil_r.
  - destruct (ceval gs e) as [v|] eqn:C; [|discriminate]. change (e :: es) with ([e] ++ es). rewrite app_assoc. eapply IH; eauto. constructor; auto. now apply ceval_ok.
Qed.
Definition offset (gs : list val) (e : cexpr) : option Z := match ceval gs e with Some (VI32 z) => Some (z mod 2 ^ 32)%Z | _ => None end.
Definition export_ok (W : wmodule) (x : string * extern) : bool :=
  match snd x with
  | ExFunc i => Nat.ltb i (List.length (sm_funcs (w_code W))) | ExTable i => Nat.ltb i (List.length (w_tables W))
  | ExMem i => Nat.eqb i 0 && match w_mem W with Some _ => true | None => false end | ExGlobal i => Nat.ltb i (List.length (w_globals W))
  end.
Definition mem_ok (W : wmodule) : bool := match w_mem W with Some (min, _) => (0 <=? min)%Z && (min <? 2 ^ 15)%Z | None => true end.
Definition elem_ok (W : wmodule) (gs : list val) (e : elem) : bool :=
  negb (e_extern e) &&
  match e_idxes e with
  | None => false
  | Some l => forallb (fun f => Nat.ltb f (List.length (sm_funcs (w_code W)))) l &&
      match e_mode e with
      | MActive t x => match nth_error (w_tables W) t, offset gs x with Some n, Some o => (o + ModuleSpec.len l <=? n)%Z | _, _ => false end
      | _ => true
      end
  end.
Definition byteb (b : Z) : bool := (0 <=? b)%Z && (b <? 256)%Z.
Definition data_ok (W : wmodule) (gs : list val) (d : dseg) : bool :=
  forallb byteb (ds_bytes d) &&
  match ds_mode d with
  | MActive t x => Nat.eqb t 0 && match w_mem W, offset gs x with Some (min, _), Some o => (o + ModuleSpec.len (ds_bytes d) <=? min * 65536)%Z | _, _ => false end
  | _ => true
  end.
Definition global_ok (e : cexpr) : bool := match e with [CRefFunc _] => false | _ => true end.
Fixpoint distinct (l : list string) : bool := match l with [] => true | s :: l => negb (existsb (String.eqb s) l) && distinct l end.
Lemma distinct_ok l : distinct l = true -> NoDup l.
Proof.
  induction l as [|s l IH]; intros H; constructor; cbn in H; apply andb_prop in H as [H1 H2]; auto.
  intros I. apply negb_true_iff in H1. assert (existsb (String.eqb s) l = true); [|congruence]. apply existsb_exists. exists s. split; auto. apply String.eqb_refl.
Qed.
Definition u32b (n : nat) : bool := (Z.of_nat n <? 2 ^ 32)%Z.
(** conditions on a function: fewer than two results of a host function; 65536 locals and operands; constants in range; size *)
Definition func_ok (SM : smodule) (f : sfunc) : bool :=
  match f with SWasi _ t => Nat.leb (List.length (snd t)) 1 | SWasm d => u32b (Datatypes.S (List.length (flatten (sf_body d)))) && u32b (List.length (snd (sf_type d))) end
  && modest SM f && oksrc (fun _ => true) val_okb f.
Definition numberb (v : val) : bool := match v with VRef RNull => true | VRef _ => false | _ => true end.
(** [admit sg F]: the module the file [F] presents and the initial values of its globals, if it meets all conditions *)
Definition admit (sg : nat -> ftype) (F : list payload) : option (wmodule * list val) :=
  match read sg F with
  | Some P =>
      let W := p_mod P in
      match geval [] (w_globals W) with
      | Some gs =>
          if validates (w_code W) (p_imps P) (p_defs P) && Restrict.within (w_code W)
             && forallb (func_ok (w_code W)) (sm_funcs (w_code W)) && u32b (List.length (sm_funcs (w_code W)))
             && forallb (export_ok W) (w_exports W) && distinct (map fst (w_exports W))
             && forallb (fun n => (0 <=? n)%Z && (n <? 2 ^ 32)%Z) (w_tables W) && mem_ok W
             && forallb global_ok (w_globals W) && forallb val_okb gs
             && forallb (elem_ok W gs) (w_elems W) && forallb (data_ok W gs) (w_datas W)
          then Some (W, gs) else None
      | None => None
      end
  | None => None
  end.
(** and can be moved between processes *)
Definition admit_moved (sg : nat -> ftype) (F : list payload) : option (wmodule * list val) :=
  match admit sg F with
  | Some (W, gs) => if forallb (oksrc op_movable (fun _ => true)) (sm_funcs (w_code W)) && forallb numberb gs then Some (W, gs) else None
  | None => None
  end.

Lemma active_in {A} gs idx (l : list (mode * list A)) ps : ModuleSpec.active gs idx l ps ->
  forall p, In p ps -> exists off z, In (MActive idx off, snd p) l /\ evaluates gs off (VI32 z) /\ fst p = (z mod 2 ^ 32)%Z.
Proof.
  induction 1 as [|off z x l ps EV AC IH|i off z x l ps NE EV AC IH|x l ps AC IH|x l ps AC IH]; intros p I.
  - destruct I.
  - destruct I as [<-|I]; [exists off, z; repeat split; auto; now left|]. destruct (IH p I) as (o & y & A1 & B1). exists o, y. split; auto. now right.
  - destruct (IH p I) as (o & y & A1 & B1). exists o, y. split; auto. now right.
  - destruct (IH p I) as (o & y & A1 & B1). exists o, y. split; auto. now right.
  - destruct (IH p I) as (o & y & A1 & B1). exists o, y. split; auto. now right.
Qed.
Lemma offset_of gs x z : evaluates gs x (VI32 z) -> offset gs x = Some (z mod 2 ^ 32)%Z.
Proof. intros H. apply ceval_ok in H. unfold offset. now rewrite H. Qed.
Lemma offset_ev gs x o : offset gs x = Some o -> exists z, evaluates gs x (VI32 z).
Proof. unfold offset. destruct (ceval gs x) as [[z| | | | |]|] eqn:C; try discriminate. intros _. exists z. now apply ceval_ok. Qed.

Record admitted (sg : nat -> ftype) (W : wmodule) (gs : list val) (F : list payload) : Prop := {
  ad_presents : LoadSpec.presents sg W F; ad_sound : LoadSpec.sound W gs; ad_handled : handled W;
  ad_one : Forall one_result (sm_funcs (w_code W)); ad_within : Restrict.within (w_code W) = true;
  ad_modest : forallb (modest (w_code W)) (sm_funcs (w_code W)) = true; ad_range : in_range W gs }.
Theorem admit_sound sg F W gs : admit sg F = Some (W, gs) -> admitted sg W gs F.
Proof.
  unfold admit. destruct (read sg F) as [P|] eqn:R; [|discriminate]. destruct (read_presents _ _ _ R) as [PR FU]. destruct (geval [] (w_globals (p_mod P))) as [gs'|] eqn:GE; [|discriminate].
  match goal with |- (if ?b then _ else _) = _ -> _ => destruct b eqn:B; [|discriminate] end. intros X. injection X as <- <-. rename gs' into gs.
  apply andb_prop in B as [B Bdata]. apply andb_prop in B as [B Belem]. apply andb_prop in B as [B Bgs]. apply andb_prop in B as [B Bglob]. apply andb_prop in B as [B Bmem].
  apply andb_prop in B as [B Btab]. apply andb_prop in B as [B Bnames]. apply andb_prop in B as [B Bexp]. apply andb_prop in B as [B Bn]. apply andb_prop in B as [B Bfun]. apply andb_prop in B as [Bval Bwithin].
  assert (ST : w_start (p_mod P) = None).
  { clear - R. unfold read in R. repeat match type of R with match ?x with _ => _ end = _ => destruct x; try discriminate R | (if ?x then _ else _) = _ => destruct x; try discriminate R | (let (_, _) := ?x in _) = _ => destruct x end; injection R as <-; reflexivity. }
  set (W := p_mod P) in *. rewrite forallb_forall in Bfun, Bdata, Belem, Btab, Bexp, Bglob.
  assert (IMP : forallb is_wasi (p_imps P) = true /\ forallb (fun f => negb (is_wasi f)) (p_defs P) = true).
  { unfold validates in Bval. apply andb_prop in Bval as [Bval B2]. apply andb_prop in Bval as [_ B1]. auto. }
  assert (DATA : forall d t x, In d (w_datas W) -> ds_mode d = MActive t x -> t = 0 /\ exists min max o, w_mem W = Some (min, max) /\ offset gs x = Some o /\ (o + ModuleSpec.len (ds_bytes d) <= min * 65536)%Z).
  { intros d t x I M. specialize (Bdata d I). unfold data_ok in Bdata. rewrite M in Bdata. apply andb_prop in Bdata as [_ Bd]. apply andb_prop in Bd as [B1 B2]. apply Nat.eqb_eq in B1. split; auto.
    destruct (w_mem W) as [[min max]|]; [|discriminate]. destruct (offset gs x) as [o|]; [|discriminate]. apply Z.leb_le in B2. exists min, max, o. auto. }
  assert (ELEM : forall e, In e (w_elems W) -> e_extern e = false /\ exists l, e_idxes e = Some l /\ Forall (fun f => f < List.length (sm_funcs (w_code W))) l /\
    forall t x, e_mode e = MActive t x -> exists n o, nth_error (w_tables W) t = Some n /\ offset gs x = Some o /\ (o + ModuleSpec.len l <= n)%Z).
  { intros e I. specialize (Belem e I). unfold elem_ok in Belem. apply andb_prop in Belem as [B1 B2]. split; [now destruct (e_extern e)|].
    destruct (e_idxes e) as [l|]; [|discriminate]. apply andb_prop in B2 as [B2 B3]. exists l. split; auto. split.
    - rewrite forallb_forall in B2. apply Forall_forall. intros f If. specialize (B2 f If). now apply Nat.ltb_lt.
    - intros t x M. rewrite M in B3. destruct (nth_error (w_tables W) t) as [n|]; [|discriminate]. destruct (offset gs x) as [o|]; [|discriminate]. apply Z.leb_le in B3. exists n, o. auto. }
  split; auto.
  - split.
    + eapply validates_ok; eauto.
    + assert (LEN : List.length (map stub (sm_funcs (w_code W))) = List.length (sm_funcs (w_code W))) by apply map_length.
      split; cbn [with_code s_globals s_exports s_start s_tables s_mem s_elems s_datas].
      * exists (map stub (p_imps P)). unfold functions, wasi_only. cbn [with_code s_imports s_funcs]. rewrite FU. destruct IMP as [I1 I2]. split.
        -- rewrite flat_map_app. assert (D0 : flat_map (fun f => match f with SWasm _ => [] | SWasi w t => [ImWasi w t] end) (p_defs P) = []).
           { clear - I2. induction (p_defs P) as [|[d|w t] l IH]; cbn in *; auto. discriminate. }
           rewrite D0, app_nil_r. clear - I1. induction (p_imps P) as [|[d|w t] l IH]; cbn in *; try discriminate; constructor; auto.
        -- rewrite map_app. f_equal. unfold stubs. rewrite flat_map_app.
           assert (D0 : flat_map (fun f => match stub f with FWasm d => [d] | FWasi _ _ => [] end) (p_imps P) = []).
           { clear - I1. induction (p_imps P) as [|[d|w t] l IH]; cbn in *; auto. discriminate. }
           rewrite D0. cbn [app]. clear - I2. induction (p_defs P) as [|[d|w t] l IH]; cbn in *; try discriminate; auto. f_equal. auto.
      * exact (geval_ok _ [] [] gs g_nil GE).
      * intros n x I. rewrite LEN. specialize (Bexp (n, x) I). unfold export_ok in Bexp. cbn [snd] in Bexp. destruct x as [i|i|i|i]; try (now apply Nat.ltb_lt).
        apply andb_prop in Bexp as [B1 B2]. apply Nat.eqb_eq in B1. split; auto. cbn [with_code s_mem]. destruct (w_mem W); [discriminate|discriminate B2].
      * rewrite ST. discriminate.
      * apply Forall_forall. intros n I. specialize (Btab n I). apply andb_prop in Btab as [B1 B2]. apply Z.leb_le in B1. apply Z.ltb_lt in B2. lia.
      * intros min max M. unfold mem_ok in Bmem. rewrite M in Bmem. apply andb_prop in Bmem as [B1 B2]. apply Z.leb_le in B1. apply Z.ltb_lt in B2. lia.
      * intros e l I EI. rewrite LEN. destruct (ELEM e I) as (_ & l' & EI' & FI & _). assert (l' = l) by congruence. now subst.
      * intros e t x I M. destruct (ELEM e I) as (_ & l & _ & _ & AC). destruct (AC t x M) as (n & o & N & O & _). split; [apply nth_error_Some; congruence|eapply offset_ev; eauto].
      * intros d t x I M. destruct (DATA d t x I M) as (-> & min & max & o & EM & O & _). split; auto. split; [congruence|eapply offset_ev; eauto].
    + split; cbn [with_code s_mem s_tables].
      * intros min max ps M AC. apply Forall_forall. intros p I. destruct (active_in _ _ _ _ AC p I) as (off & z & I2 & EV & E). unfold data_segments in I2. apply in_map_iff in I2 as (d & ED & ID).
        cbn [with_code s_datas] in ID. injection ED as EM EB. destruct (DATA d _ _ ID EM) as (_ & min' & max' & o & EM' & O & LE). rewrite (offset_of _ _ _ EV) in O. injection O as <-.
        rewrite M in EM'. injection EM' as <- <-. rewrite E, <- EB. exact LE.
      * intros t n l ps N ES AC. apply Forall_forall. intros p I. destruct (active_in _ _ _ _ AC p I) as (off & z & I2 & EV & E).
        assert (exists e, In e (w_elems W) /\ e_mode e = MActive t off /\ refs gs e (snd p)) as (e & Ie & Me & Re).
        { unfold elem_segments in ES. cbn [with_code s_elems] in ES. clear - ES I2. induction ES as [|e q es qs [A B] ES IH]; [destruct I2|]. destruct I2 as [->|I2].
          - exists e. repeat split; auto. now left.
          - destruct (IH I2) as (e' & J & K). exists e'. split; auto. now right. }
        destruct (ELEM e Ie) as (_ & l' & El & _ & ACT). destruct (ACT t off Me) as (n' & o & N' & O & LE). rewrite (offset_of _ _ _ EV) in O. injection O as <-.
        assert (n' = n) by (cbn [with_code s_tables] in N; congruence). subst n'. unfold refs in Re. rewrite El in Re. rewrite Re, E. unfold ModuleSpec.len in *. now rewrite map_length.
    + now apply distinct_ok.
  - split; auto.
    + apply Forall_forall. intros e I. specialize (Bglob e I). destruct e as [|[v| |f|i] [|]]; cbn in *; auto. discriminate.
    + apply Forall_forall. intros e I. destruct (ELEM e I) as (A & l & B & _). split; eauto.
    + intros min max M. unfold mem_ok in Bmem. rewrite M in Bmem. apply andb_prop in Bmem as [_ B2]. now apply Z.ltb_lt in B2.
  - apply Forall_forall. intros f I. specialize (Bfun f I). apply andb_prop in Bfun as [Bfun _]. apply andb_prop in Bfun as [Bfun _]. destruct f; cbn; auto. now apply Nat.leb_le.
  - apply forallb_forall. intros f I. specialize (Bfun f I). apply andb_prop in Bfun as [Bfun _]. now apply andb_prop in Bfun as [_ Bfun].
  - split.
    + apply forallb_forall. intros f I. specialize (Bfun f I). now apply andb_prop in Bfun as [_ Bfun].
    + rewrite forallb_forall in Bgs. apply Forall_forall. intros v I. apply val_okb_ok. auto.
    + apply Forall_forall. intros d I. specialize (Bdata d I). apply andb_prop in Bdata as [Bd _]. rewrite forallb_forall in Bd. apply Forall_forall. intros b Ib. specialize (Bd b Ib).
      apply andb_prop in Bd as [B1 B2]. apply Z.leb_le in B1. apply Z.ltb_lt in B2. split; auto.
    + now apply Z.ltb_lt in Bn.
    + intros d I. specialize (Bfun _ I). apply andb_prop in Bfun as [Bfun _]. apply andb_prop in Bfun as [Bfun _]. cbn in Bfun. apply andb_prop in Bfun as [B1 B2].
      apply Z.ltb_lt in B1, B2. split; auto.
Qed.
Theorem admit_moved_sound sg F W gs : admit_moved sg F = Some (W, gs) -> admitted sg W gs F /\ code_movable (w_code W) /\ Forall no_reference gs.
Proof.
  unfold admit_moved. destruct (admit sg F) as [[W' gs']|] eqn:A; [|discriminate]. match goal with |- (if ?b then _ else _) = _ -> _ => destruct b eqn:B; [|discriminate] end.
  intros X. injection X as <- <-. apply andb_prop in B as [B1 B2]. split; [now apply admit_sound|]. split; auto.
  rewrite forallb_forall in B2. apply Forall_forall. intros v I r ->. specialize (B2 _ I). destruct r; cbn in B2; auto; discriminate.
Qed.
