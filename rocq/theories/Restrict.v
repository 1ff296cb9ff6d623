(** The programs the correctness theorems speak about: valid WebAssembly ([WasmTyping.valid])
    within the restrictions below.  Each restriction is forced by the code: Properties_Exec.v has a
    [_refuted] theorem for a program that violates only it.
    Restrictions hold for live code only; code after an unconditional branch is arbitrary. *)
From Coq Require Import ZArith List Bool Lia.
From Verif Require Import Word Value Numeric Float Mem Store Regs IR Machine Wasm Decoder Check WasmTyping MemProofs StoreProofs RegsProofs Loc DecodeProofs BasicSim Sim.
Import ListNotations.

Section R.
  Variable SM : smodule.
  Variable E : denv.
  Definition num_type (t : valtype) : bool := is_num (class_of t).
  (** constants of number types; globals of number types; select on numbers; locals by 16 bits *)
  Definition r_basic (b : basic) : bool :=
    match b with
    | BConst v => is_num (val_cls v)
    | BSelect (Some t) => num_type t
    | BSelect None => true
    | BOp o => sop_ok o
    | BGet n | BSet n | BTee n => negb (cls_eqb (class_of (ltype E n)) CV128)
    | _ => true
    end.
  (** the classes of the operands after an instruction, given those before it (top first) *)
  Definition after (ts : list cls) (b : basic) : list cls :=
    match b with
    | BConst v => val_cls v :: ts
    | BGet n => class_of (ltype E n) :: ts
    | BSet _ | BDrop => skipn 1 ts
    | BTee _ | BNop => ts
    | BSelect _ => skipn 2 ts
    | BOp o => match sop_res o with Some t => [class_of t] | None => [] end ++ skipn (length (sop_args o)) ts
    end.
  (** [ls] the enclosing labels, [ts] the classes of the current block's operands, top first; branches
      as [br_ok] and [tbl_ok] of Check.v allow *)
  Fixpoint restricted (ls : list lab) (ts : list cls) (c : code) : bool :=
    let inside ts ps rs body :=
      no_v128 rs && restricted ({| lb_kind := KBlock; lb_types := tops rs; lb_under := skipn (length ps) ts |} :: ls) (tops ps) body in
    match c with
    | CNil => true
    | CBasic b k => r_basic b && fold_safe E b k && restricted ls (after ts b) k
    | CBlock true ps rs body k =>
        no_v128 rs && restricted ({| lb_kind := KLoop; lb_types := tops ps; lb_under := skipn (length ps) ts |} :: ls) (tops ps) body
        && restricted ls (tops rs ++ skipn (length ps) ts) k
    | CBlock false ps rs body k => inside ts ps rs body && restricted ls (tops rs ++ skipn (length ps) ts) k
    | CIf ps rs th k => let ts := skipn 1 ts in inside ts ps rs th && restricted ls (tops rs ++ skipn (length ps) ts) k
    | CIfElse ps rs th el k =>
        let ts := skipn 1 ts in inside ts ps rs th && inside ts ps rs el && restricted ls (tops rs ++ skipn (length ps) ts) k
    | CBr d _ => match nth_error ls d with Some l => br_ok E ls d l (skipn (length (lb_types l)) ts) | None => false end
    | CBrIf d k =>
        let ts := skipn 1 ts in
        match nth_error ls d with Some l => br_ok E ls d l (skipn (length (lb_types l)) ts) | None => false end && restricted ls ts k
    | CBrTable ds d _ =>
        match nth_error ls d with
        | Some l0 => forallb (fun e => match nth_error ls e with
                                       | Some l => tbl_ok E ls l0 e l (skipn (length (lb_types l0)) (skipn 1 ts))
                                       | None => false
                                       end) (d :: ds)
        | None => false
        end
    | CReturn _ | CUnreachable _ => true
    | CCall f k =>
        match nth_error (sm_funcs SM) f with
        | Some fn => no_v128 (snd (sfunc_type fn)) && Nat.leb (length (snd (sfunc_type fn))) (match fn with SWasm _ => 8 | SWasi _ _ => 1 end)
                     && restricted ls (tops (snd (sfunc_type fn)) ++ skipn (length (fst (sfunc_type fn))) ts) k
        | None => false
        end
    | CCallInd ty tb k =>
        match nth_error (sm_types SM) ty with
        | Some t => no_v128 (snd t) && Nat.leb (length (snd t)) 8
                    && restricted ls (tops (snd t) ++ skipn (length (fst t)) (skipn 1 ts)) k
        | None => false
        end
    end.
End R.
Definition restricted_func (SM : smodule) (f : sfunc) : bool :=
  match f with
  | SWasi _ _ => true
  | SWasm d => restricted SM (env_of SM d) [{| lb_kind := KFunc; lb_types := tops (snd (sf_type d)); lb_under := [] |}] [] (sf_body d)
               && no_v128 (snd (sf_type d)) && Nat.leb (length (snd (sf_type d))) 8
  end.
Definition within (SM : smodule) : bool := forallb (restricted_func SM) (sm_funcs SM).

(** Proof device: valid and within the restrictions implies accepted by [chk]. *)
Lemma pop_ts_app a b : pop_ts a (a ++ b) = Some b.
Proof. induction a as [|c a IH]; cbn; auto. destruct c; cbn; auto. Qed.
Lemma cls_list_eqb_refl a : cls_list_eqb a a = true.
Proof. unfold cls_list_eqb. rewrite <- (app_nil_r a) at 2. now rewrite pop_ts_app. Qed.
Lemma tops_on rs : map class_of (on_stack rs) = tops rs.
Proof. unfold on_stack, tops. now rewrite map_rev. Qed.
Lemma is_ref_cls t : is_ref t = true -> class_of t = CRef.
Proof. destruct t; cbn; congruence. Qed.

Section P.
  Variable SM : smodule.
  Variable d0 : sfdef.
  Notation E := (env_of SM d0).
  Notation F := {| f_mod := SM; f_locals := fst (sf_type d0) ++ sf_locals d0; f_results := snd (sf_type d0) |}.
  Lemma loc_type n t : nth_error (f_locals F) n = Some t -> n < nlocals E /\ ltype E n = t.
  Proof.
    intros H. split; [apply nth_error_Some; cbn in H; unfold nlocals; cbn; congruence|].
    unfold ltype. cbn in *. now apply nth_error_nth.
  Qed.
  Lemma nv_app a b : no_v128 (a ++ b) = no_v128 a && no_v128 b.
  Proof. apply forallb_app. Qed.
  Lemma nv_rev a : no_v128 (on_stack a) = no_v128 a.
  Proof.
    unfold on_stack. induction a as [|t a IH]; [reflexivity|]. cbn [rev]. rewrite nv_app, IH.
    change (no_v128 [t]) with (negb (cls_eqb (class_of t) CV128) && true). rewrite andb_true_r. cbn. apply andb_comm.
  Qed.
  Lemma nv_cons t a : no_v128 (t :: a) = negb (cls_eqb (class_of t) CV128) && no_v128 a.
  Proof. reflexivity. Qed.
  Lemma sop_res_nv o t : sop_res o = Some t -> sop_ok o = true -> negb (cls_eqb (class_of t) CV128) = true.
  Proof.
    destruct o; cbn; intros H K; inversion H; subst; auto; repeat match goal with
      | x : op1 |- _ => destruct x | x : op2 |- _ => destruct x | x : cvt |- _ => destruct x | x : iw |- _ => destruct x | x : fty |- _ => destruct x
      | x : loadop |- _ => destruct x end; cbn; auto.
    all: try (destruct t; cbn in *; congruence).
  Qed.

  Lemma chk_basic_ok ts b ts1 : basic_typed F ts b ts1 -> r_basic E b = true -> no_v128 ts = true ->
    chk_basic E (map class_of ts) b = Some (map class_of ts1) /\ no_v128 ts1 = true.
  Proof.
    intros H R NV. destruct H; cbn [chk_basic map].
    - cbn in R. rewrite R. destruct v; cbn in *; inversion H; subst; try discriminate; split; auto.
    - cbn [r_basic] in R. apply loc_type in H as [A B]. apply Nat.ltb_lt in A. rewrite B in *. rewrite A, nv_cons, R, NV. auto.
    - apply loc_type in H as [A B]. apply Nat.ltb_lt in A. rewrite A, B. cbn. rewrite cls_eqb_refl. rewrite nv_cons in NV. apply andb_prop in NV as [_ NV]. auto.
    - apply loc_type in H as [A B]. apply Nat.ltb_lt in A. rewrite A, B. cbn [pop_ts]. rewrite cls_eqb_refl. auto.
    - rewrite nv_cons in NV. apply andb_prop in NV as [_ NV]. auto.
    - auto.
    - cbn [class_of]. rewrite cls_eqb_refl. unfold is_vec_or_num, is_ref in H. cbn [andb]. rewrite !nv_cons in NV.
      destruct t; cbn in *; try discriminate; auto.
    - cbn [class_of]. rewrite !cls_eqb_refl. cbn [r_basic] in R. unfold num_type in R. rewrite R. rewrite !nv_cons in *.
      destruct t; cbn in *; try discriminate; auto.
    - rewrite (is_ref_cls _ H). cbn. rewrite nv_cons in NV. apply andb_prop in NV as [_ NV]. auto.
    - cbn [r_basic] in R. rewrite R. rewrite map_app, tops_on, pop_ts_app. rewrite nv_app in NV. apply andb_prop in NV as [_ NV].
      destruct (sop_res o) eqn:SR; cbn [map]; auto. rewrite nv_cons, NV. erewrite sop_res_nv by eauto. auto.
  Qed.

  (** labels: classes of the standard's label types *)
  Definition labs (ls : list lab) (tls : list (list valtype)) : Prop := map lb_types ls = map (map class_of) tls.
  Lemma labs_nth ls tls d l : labs ls tls -> nth_error tls d = Some l -> exists b, nth_error ls d = Some b /\ lb_types b = map class_of l.
  Proof.
    unfold labs. intros H N. assert (K : nth_error (map lb_types ls) d = Some (map class_of l)) by (rewrite H, nth_error_map, N; reflexivity).
    rewrite nth_error_map in K. destruct (nth_error ls d) as [b|]; cbn in K; inversion K. eauto.
  Qed.
  Lemma labs_cons b ls l tls : labs ls tls -> lb_types b = map class_of l -> labs (b :: ls) (l :: tls).
  Proof. unfold labs. cbn. congruence. Qed.
  Definition fine (r : option (option (list cls))) (ts : list valtype) : Prop :=
    r = Some None \/ (r = Some (Some (map class_of ts)) /\ no_v128 ts = true).
  Lemma fine_end r rs : fine r (on_stack rs) ->
    match r with None => false | Some None => true | Some (Some ts) => cls_list_eqb ts (tops rs) end = true.
  Proof. intros [->|[-> _]]; auto. rewrite tops_on. apply cls_list_eqb_refl. Qed.

  Lemma skipn_app' {A} (a b : list A) n : n = length a -> skipn n (a ++ b) = b.
  Proof. intros ->. rewrite skipn_app, skipn_all, Nat.sub_diag. reflexivity. Qed.
  Lemma len_on (a : list valtype) : length (on_stack a) = length a.
  Proof. unfold on_stack. apply rev_length. Qed.
  Lemma skip_on {A} (f : valtype -> A) ps b : skipn (length ps) (map f (on_stack ps ++ b)) = map f b.
  Proof. rewrite map_app. apply skipn_app'. now rewrite map_length, len_on. Qed.
  Lemma after_ok ts b ts1 : basic_typed F ts b ts1 -> after E (map class_of ts) b = map class_of ts1.
  Proof.
    intros H. destruct H; cbn [after map skipn]; auto.
    - destruct v; cbn in *; inversion H; reflexivity.
    - apply loc_type in H as [_ ->]. reflexivity.
    - rewrite skip_on. destruct (sop_res o); reflexivity.
  Qed.

  Lemma chk_ok : forall tls ts c ts', typed F tls ts c ts' -> forall ls, labs ls tls ->
    restricted SM E ls (map class_of ts) c = true -> no_v128 ts = true -> fine (chk SM E ls (map class_of ts) c) ts'.
  Proof.
    induction 1; intros lbs HL R NV; cbn [restricted] in R; cbn [chk].
    - right. auto.
    - apply andb_prop in R as [R R3]. apply andb_prop in R as [R1 R2]. rewrite R2.
      rewrite (after_ok _ _ _ H) in R3.
      destruct (chk_basic_ok _ _ _ H R1 NV) as [-> NV']. eauto.
    - rewrite skip_on in R. apply andb_prop in R as [R1 R3]. apply andb_prop in R1 as [R1 R2]. rewrite nv_app in NV. apply andb_prop in NV as [N1 N2].
      rewrite map_app, tops_on, pop_ts_app. rewrite <- (tops_on ps) in R2. match type of R2 with restricted _ _ (?q :: _) _ _ = _ => pose proof (IHtyped1 (q :: lbs) ltac:(apply labs_cons; [exact HL|cbn [lb_types]; now rewrite ?tops_on]) R2 N1) as B end. rewrite !tops_on in B.
      apply fine_end in B. rewrite B. rewrite <- tops_on, <- map_app. apply IHtyped2; auto. 2: now rewrite nv_app, nv_rev, R1, N2.
      now rewrite map_app, tops_on.
    - rewrite skip_on in R. apply andb_prop in R as [R1 R3]. apply andb_prop in R1 as [R1 R2]. rewrite nv_app in NV. apply andb_prop in NV as [N1 N2].
      rewrite map_app, tops_on, pop_ts_app. rewrite <- (tops_on ps) in R2. match type of R2 with restricted _ _ (?q :: _) _ _ = _ => pose proof (IHtyped1 (q :: lbs) ltac:(apply labs_cons; [exact HL|cbn [lb_types]; now rewrite ?tops_on]) R2 N1) as B end. rewrite !tops_on in B.
      apply fine_end in B. rewrite B. rewrite <- tops_on, <- map_app. apply IHtyped2; auto. 2: now rewrite nv_app, nv_rev, R1, N2.
      now rewrite map_app, tops_on.
    - subst rs. cbn [map skipn] in R. rewrite skip_on in R. apply andb_prop in R as [R1 R3]. apply andb_prop in R1 as [R1 R2]. rewrite nv_cons, nv_app in NV. apply andb_prop in NV as [_ NV]. apply andb_prop in NV as [N1 N2].
      cbn [map class_of]. rewrite map_app, tops_on, pop_ts_app, cls_list_eqb_refl. rewrite <- (tops_on ps) in R2. match type of R2 with restricted _ _ (?q :: _) _ _ = _ => pose proof (IHtyped1 (q :: lbs) ltac:(apply labs_cons; [exact HL|cbn [lb_types]; now rewrite ?tops_on]) R2 N1) as B end. rewrite !tops_on in B.
      apply fine_end in B. rewrite B. cbn [andb]. rewrite <- tops_on, <- map_app. apply IHtyped2; auto. 2: now rewrite nv_app, nv_rev, R1, N2.
      now rewrite map_app, tops_on.
    - cbn [map skipn] in R. rewrite skip_on in R. apply andb_prop in R as [R1 R4]. apply andb_prop in R1 as [R1 R3]. apply andb_prop in R1 as [R1 R2]. apply andb_prop in R3 as [_ R3].
      rewrite nv_cons, nv_app in NV. apply andb_prop in NV as [_ NV]. apply andb_prop in NV as [N1 N2].
      cbn [map class_of]. rewrite map_app, tops_on, pop_ts_app. rewrite <- (tops_on ps) in R2, R3. match type of R2 with restricted _ _ (?q :: _) _ _ = _ => pose proof (IHtyped1 (q :: lbs) ltac:(apply labs_cons; [exact HL|cbn [lb_types]; now rewrite ?tops_on]) R2 N1) as B1 end. match type of R3 with restricted _ _ (?q :: _) _ _ = _ => pose proof (IHtyped2 (q :: lbs) ltac:(apply labs_cons; [exact HL|cbn [lb_types]; now rewrite ?tops_on]) R3 N1) as B2 end. rewrite !tops_on in B1, B2.
      apply fine_end in B1. apply fine_end in B2. rewrite B1, B2. cbn [andb]. rewrite <- tops_on, <- map_app. apply IHtyped3; auto. 2: now rewrite nv_app, nv_rev, R1, N2.
      now rewrite map_app, tops_on.
    - destruct (labs_nth _ _ _ _ HL H) as (b & NB & TB). rewrite NB in *. rewrite TB, map_app, pop_ts_app in *.
      rewrite skipn_app' in R by reflexivity. rewrite R. now left.
    - destruct (labs_nth _ _ _ _ HL H) as (b & NB & TB). rewrite NB in *. cbn [map skipn] in R. apply andb_prop in R as [R1 R2]. cbn [map class_of].
      rewrite TB in *. rewrite map_app in R1 |- *. rewrite pop_ts_app. rewrite skipn_app' in R1 by reflexivity. rewrite R1, <- map_app. rewrite nv_cons in NV. apply andb_prop in NV as [_ NV]. auto.
    - destruct (labs_nth _ _ _ _ HL H) as (b & NB & TB). cbn [map skipn class_of] in *. rewrite NB in *. rewrite TB in R. rewrite map_app in R.
      rewrite skipn_app' in R by reflexivity. rewrite TB, map_app, pop_ts_app.
      match goal with |- fine (if ?q then _ else _) _ => assert (Q : q = true) end.
      { rewrite forallb_forall in *. intros e He. specialize (R e He).
        assert (TT : nth_error ls e = Some l) by (destruct He as [<-|He]; auto).
        destruct (labs_nth _ _ _ _ HL TT) as (b' & NB' & TB'). rewrite NB' in *. rewrite R, TB'. apply cls_list_eqb_refl. }
      rewrite Q. now left.
    - change (e_results E) with (snd (sf_type d0)). cbn [f_results]. rewrite map_app, tops_on, pop_ts_app. now left.
    - now left.
    - cbn [f_mod] in H. rewrite H in *. apply andb_prop in R as [R1 R2]. rewrite nv_app in NV. apply andb_prop in NV as [N1 N2].
      destruct (sfunc_type fn) as [ps rs] eqn:FT. cbn [fst snd] in *. rewrite skip_on in R2. rewrite map_app, tops_on, pop_ts_app.
      rewrite R1. apply andb_prop in R1 as [Q1 _]. rewrite <- tops_on, <- map_app. apply IHtyped; auto. 2: now rewrite nv_app, nv_rev, Q1, N2.
      now rewrite map_app, tops_on.
    - cbn [f_mod] in H. rewrite H in *. cbn [map skipn fst snd] in R. rewrite skip_on in R. apply andb_prop in R as [R1 R2]. rewrite nv_cons, nv_app in NV. apply andb_prop in NV as [_ NV]. apply andb_prop in NV as [N1 N2].
      cbn [map class_of]. rewrite map_app, tops_on, pop_ts_app. rewrite R1. apply andb_prop in R1 as [Q1 _].
      rewrite <- tops_on, <- map_app. apply IHtyped; auto. 2: now rewrite nv_app, nv_rev, Q1, N2.
      now rewrite map_app, tops_on.
  Qed.
End P.

Lemma valid_supported SM : valid SM -> within SM = true -> supported SM = true.
Proof.
  intros [V (imps & defs & EQ & FI & FD)] Wn. unfold supported. apply andb_true_intro. split.
  - rewrite EQ. clear -FI FD. induction FI as [|[d|w t] imps H FI IH]; cbn [app imports_first]; try tauto.
    destruct FD as [|[d|w t] defs H FD]; cbn; auto; try tauto. rewrite forallb_forall. intros x Hx. rewrite Forall_forall in FD. specialize (FD x Hx). destruct x; tauto.
  - unfold within in Wn. rewrite forallb_forall in *. rewrite Forall_forall in V. intros f Hf. specialize (V f Hf). specialize (Wn f Hf).
    destruct f as [d|w t]; [|reflexivity]. cbn [chk_func restricted_func valid_func] in *. apply andb_prop in Wn as [Wn W3]. apply andb_prop in Wn as [W1 W2].
    rewrite W2, W3, !andb_true_r. unfold chk_body.
    pose proof (chk_ok SM d _ _ _ _ V [{| lb_kind := KFunc; lb_types := tops (snd (sf_type d)); lb_under := [] |}] ltac:(unfold labs; cbn; now rewrite tops_on) W1 eq_refl) as K.
    apply fine_end in K. exact K.
Qed.
