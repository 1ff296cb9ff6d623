(** Validation is sound for the semantics of Wasm.v (Core 2.0 appendix 7.3, preservation and
    progress), for any primitives that are the standard's: a valid function applies operators only
    to operands of the declared types on well-formed instances, is never stuck, and gives results of
    its result type.  Hence the outcome depends on the primitives only where [wasm_conforming]
    speaks about them. *)
From Coq Require Import ZArith List Bool Lia.
From Verif Require Import Word Value Numeric Float Mem Store Regs IR Machine Wasm WasmTyping WasmPrims PrimFacts WasmMem MemProofs StoreProofs RegsProofs Decoder Check BasicSim Sim.
Import ListNotations.
Open Scope nat_scope.

(** the payload of a constant fits its type *)
Definition val_okb (v : val) : bool :=
  match v with
  | VI32 z => (- 2 ^ 31 <=? z)%Z && (z <? 2 ^ 31)%Z | VI64 z => (- 2 ^ 63 <=? z)%Z && (z <? 2 ^ 63)%Z
  | VF32 b => (0 <=? b)%Z && (b <? 2 ^ 32)%Z | VF64 b => (0 <=? b)%Z && (b <? 2 ^ 64)%Z
  | VV128 z => (0 <=? z)%Z && (z <? 2 ^ 128)%Z
  | VRef _ => true
  end.
Lemma val_okb_ok v : val_okb v = true -> val_ok v.
Proof.
  destruct v; cbn [val_okb val_ok]; intros H; auto; apply andb_prop in H as [H1 H2]; apply Z.leb_le in H1; apply Z.ltb_lt in H2;
    unfold in_s, in_u; (split; [exact H1|exact H2]).
Qed.
(** all objects a body refers to exist (3.3: the context lookups) *)
Fixpoint refs_in (h : shape) (c : code) : bool :=
  match c with
  | CNil => true
  | CBasic (BOp o) k => op_in h o && refs_in h k
  | CBasic (BConst v) k => val_okb v && refs_in h k
  | CBasic _ k => refs_in h k
  | CBlock _ _ _ body k | CIf _ _ body k => refs_in h body && refs_in h k
  | CIfElse _ _ th el k => refs_in h th && refs_in h el && refs_in h k
  | CBr _ k | CBrIf _ k | CBrTable _ _ k | CReturn k | CUnreachable k | CCall _ k => refs_in h k
  | CCallInd _ tb k => Nat.ltb tb (sh_tables h) && refs_in h k
  end.

(** what the host may do: return proper values, write bytes *)
Definition host_ok (host : hostfn) : Prop := forall log o ws, host log = HoRet o ws ->
  (forall v, o = Some v -> val_ok v) /\ Forall (fun w => is_byte (snd w)) ws.

Lemma f2_app_inv {A B} (R : A -> B -> Prop) a b l : Forall2 R (a ++ b) l ->
  exists x y, l = x ++ y /\ Forall2 R a x /\ Forall2 R b y /\ length x = length a.
Proof.
  intros H. apply Forall2_app_inv_l in H as (x & y & H1 & H2 & ->). exists x, y. repeat split; auto. symmetry. clear -H1. now apply F2_len in H1.
Qed.
Lemma f2_rev {A B} (R : A -> B -> Prop) a b : Forall2 R a b -> Forall2 R (rev a) (rev b).
Proof. induction 1; cbn; auto. apply Forall2_app; auto. Qed.
Lemma f2_upd {A B} (R : A -> B -> Prop) a b : Forall2 R a b -> forall n t v, nth_error a n = Some t -> R t v -> Forall2 R a (upd b n v).
Proof.
  induction 1 as [|x y a b H1 H2 IH]; intros n t v Hn Hr; [destruct n; discriminate|]. destruct n as [|n]; cbn in Hn |- *.
  - injection Hn as ->. constructor; auto.
  - constructor; eauto.
Qed.
Lemma f2_nth {A B} (R : A -> B -> Prop) a b : Forall2 R a b -> forall n t, nth_error a n = Some t -> exists v, nth_error b n = Some v /\ R t v.
Proof.
  induction 1 as [|x y a b H1 H2 IH]; intros n t Hn; [destruct n; discriminate|]. destruct n as [|n]; cbn in Hn |- *; eauto.
  injection Hn as ->. eauto.
Qed.

Lemma vts_eqb_eq a b : vts_eqb a b = true -> a = b.
Proof.
  unfold vts_eqb. revert b. induction a as [|u a IHa]; intros [|w b]; cbn; try discriminate; auto. intros H. apply andb_prop in H as [H1 H2]. apply andb_prop in H2 as [H2 H3].
  f_equal; [destruct u, w; try discriminate; reflexivity|]. apply IHa. now rewrite H1.
Qed.
Lemma ftype_eqb_eq a b : ftype_eqb a b = true -> a = b.
Proof.
  destruct a, b. unfold ftype_eqb. cbn. intros H. apply andb_prop in H as [H1 H2]. apply vts_eqb_eq in H1, H2. congruence.
Qed.

Lemma writes_ok h s ws : inst_ok h s -> Forall (fun w => is_byte (snd w)) ws -> inst_ok h (apply_writes s ws).
Proof.
  intros HI W. unfold apply_writes. destruct (i_mem s) as [m|] eqn:EM; auto.
  assert (MO : mem_ok m). { pose proof (io_mem h s HI) as K. destruct (sh_mem h); [destruct K as (m' & E1 & E2); congruence|congruence]. }
  assert (K : forall ws d, Forall (fun w => is_byte (snd w)) ws -> bytes_ok d ->
              bytes_ok (fold_left (fun d w => upd d (fst w) (snd w)) ws d) /\ length (fold_left (fun d w => upd d (fst w) (snd w)) ws d) = length d).
  { clear. induction ws as [|[a b] ws IH]; cbn [fold_left]; intros d W B; [auto|]. inversion W; subst.
    destruct (IH (upd d a b)) as [K1 K2]; auto.
    - cbn in *. unfold bytes_ok in *. clear -B H1. revert a. induction B; intros [|a]; cbn; constructor; auto.
    - split; auto. etransitivity; [exact K2|apply upd_length]. }
  destruct (K ws (m_data m) W (proj1 MO)) as [K1 K2]. eapply inst_with_mem; eauto.
Qed.

(** the same for any test of operators and of tables *)
Fixpoint refs_by (okop : sop -> bool) (oktab : nat -> bool) (c : code) : bool :=
  match c with
  | CNil => true
  | CBasic (BOp o) k => okop o && refs_by okop oktab k
  | CBasic (BConst v) k => val_okb v && refs_by okop oktab k
  | CBasic _ k => refs_by okop oktab k
  | CBlock _ _ _ body k | CIf _ _ body k => refs_by okop oktab body && refs_by okop oktab k
  | CIfElse _ _ th el k => refs_by okop oktab th && refs_by okop oktab el && refs_by okop oktab k
  | CBr _ k | CBrIf _ k | CBrTable _ _ k | CReturn k | CUnreachable k | CCall _ k => refs_by okop oktab k
  | CCallInd _ tb k => oktab tb && refs_by okop oktab k
  end.
Lemma refs_in_by h c : refs_in h c = refs_by (op_in h) (fun tb => Nat.ltb tb (sh_tables h)) c.
Proof. induction c as [|b k IHk|lp ps rs body IHb k IHk|ps rs th IHt k IHk|ps rs th IHt el IHe k IHk|d k IHk|d k IHk|ds d k IHk|k IHk|k IHk|f k IHk|ty tb k IHk]; cbn [refs_in refs_by]; try congruence. destruct b; congruence. Qed.

Section S.
  (** an invariant of instances that the primitives keep *)
  Variable Inv : inst -> Prop.
  Variable okop : sop -> bool.
  Variable oktab : nat -> bool.
  Variables P P' : prims.
  Variable host : hostfn.
  Variable SM : smodule.
  Hypothesis I_op : forall o s args s' v, Inv s -> okop o = true -> exists_op o = true -> Forall2 has_type (sop_args o) args ->
    p_op P o s args = Ok (s', v) -> Inv s' /\ match sop_res o, v with Some t, Some v => has_type t v | None, None => True | _, _ => False end.
  Hypothesis I_writes : forall s ws, Inv s -> Forall (fun w => is_byte (snd w)) ws -> Inv (apply_writes s ws).
  Hypothesis I_default : forall t, p_default P t = Ok (default_of (class_of t)).
  Hypothesis I_host : p_ind_host P = true.
  Hypothesis I_null : okop SRefIsNull = true.
  Hypothesis HH : host_ok host.
  Hypothesis HV : valid SM.
  Hypothesis HR : forall d, In (SWasm d) (sm_funcs SM) -> refs_by okop oktab (sf_body d) = true.
  (** [P'] is [P] at well-typed operands *)
  Hypothesis E_op : forall o s args, Inv s -> okop o = true -> exists_op o = true ->
    Forall2 has_type (sop_args o) args -> p_op P' o s args = p_op P o s args.
  Hypothesis E_func : forall s t i, Inv s -> oktab t = true -> in_s 32 i ->
    p_func P' (i_tables s) t i = p_func P (i_tables s) t i.
  Hypothesis E_default : forall t, p_default P' t = p_default P t.
  Hypothesis E_host : p_ind_host P' = p_ind_host P.

  Definition st_ok (F : fctx) (x : sst) : Prop := Inv (x_inst x) /\ Forall2 has_type (f_locals F) (x_loc x).
  Definition good (F : fctx) (ls : list (list valtype)) (ts' : list valtype) (o : out) : Prop :=
    match o with
    | ONorm stk x => Forall2 has_type ts' stk /\ st_ok F x
    | OBr d vs x => exists l, nth_error ls d = Some l /\ Forall2 has_type l vs /\ st_ok F x
    | ORet vs x => Forall2 has_type (on_stack (f_results F)) vs /\ st_ok F x
    | OStuck => False
    | _ => True
    end.
  Definition res_ok (F : fctx) ls ts' (o o' : out) : Prop := good F ls ts' o /\ o' = o.

  Lemma more {A} (r x : A) ls : (exists l0, ls = l0 ++ [r]) -> exists l0, x :: ls = l0 ++ [r].
  Proof. intros [l0 ->]. now exists (x :: l0). Qed.
  Lemma truth v : has_type TI32 v -> exists z, v = VI32 z /\ in_s 32 z.
  Proof. intros [C K]. destruct v; try discriminate. eauto. Qed.
  Lemma len_on ts : length (on_stack ts) = length ts. Proof. apply rev_length. Qed.

  Lemma defaults_ok ts : p_defaults P' ts = p_defaults P ts /\ exists ds, p_defaults P ts = Ok ds /\ Forall2 has_type ts ds.
  Proof.
    induction ts as [|t ts (IH1 & ds & IH2 & IH3)]; cbn [p_defaults]; [split; [auto|exists []; auto]|].
    rewrite E_default, IH1, I_default, IH2. cbn [bind]. split; auto. eexists. split; [reflexivity|]. constructor; auto.
    destruct t; (split; [reflexivity|]); cbn; unfold in_s, in_u; lia.
  Qed.

  Lemma basic_sound F ts b ts1 stk x : basic_typed F ts b ts1 ->
    match b with BOp o => okop o | BConst v => val_okb v | _ => true end = true ->
    Forall2 has_type ts stk -> st_ok F x ->
    bexec P' b stk x = bexec P b stk x /\
    exists r, bexec P b stk x = Some r /\
      match r with Ok (stk', x') => Forall2 has_type ts1 stk' /\ st_ok F x' | _ => True end.
  Proof.
    intros T OI FS [SI SL]. destruct T as [ts v t C|ts n t N|ts n t N|ts n t N|ts t|ts|ts t N|ts t|ts t N|ts o EX NN]; cbn [bexec].
    - split; auto. eexists. split; [reflexivity|]. split; [|now split]. constructor; auto. split; [destruct v; cbn in C; inversion C; reflexivity|now apply val_okb_ok].
    - destruct (f2_nth _ _ _ SL _ _ N) as (v & Nv & Tv). rewrite Nv. split; auto. eexists. split; [reflexivity|]. split; [now constructor|now split].
    - inversion FS as [|? v ? stk' Tv FS']; subst. assert (L : n < length (x_loc x)) by (rewrite <- (F2_len _ _ _ SL); apply nth_error_Some; congruence).
      apply Nat.ltb_lt in L as ->. split; auto. eexists. split; [reflexivity|]. split; auto. split; auto. cbn. eapply f2_upd; eauto.
    - inversion FS as [|? v ? stk' Tv FS']; subst. assert (L : n < length (x_loc x)) by (rewrite <- (F2_len _ _ _ SL); apply nth_error_Some; congruence).
      apply Nat.ltb_lt in L as ->. split; auto. eexists. split; [reflexivity|]. split; auto. split; auto. cbn. eapply f2_upd; eauto.
    - inversion FS; subst. split; auto. eexists. split; [reflexivity|]. split; auto. now split.
    - split; auto. eexists. split; [reflexivity|]. split; auto. now split.
    - inversion FS as [|? c ? s1 Tc F1]; subst. inversion F1 as [|? v2 ? s2 T2 F2]; subst. inversion F2 as [|? v1 ? s3 T1 F3]; subst.
      destruct (truth c Tc) as (z & -> & _). cbn [is_true]. split; auto. eexists. split; [reflexivity|]. split; [|now split]. constructor; auto. now destruct (negb _).
    - inversion FS as [|? c ? s1 Tc F1]; subst. inversion F1 as [|? v2 ? s2 T2 F2]; subst. inversion F2 as [|? v1 ? s3 T1 F3]; subst.
      destruct (truth c Tc) as (z & -> & _). cbn [is_true]. split; auto. eexists. split; [reflexivity|]. split; [|now split]. constructor; auto. now destruct (negb _).
    - inversion FS as [|? v ? s1 Tv F1]; subst. cbn [sop_args length]. change (v :: s1) with ([v] ++ s1). rewrite take_app by reflexivity. cbn [rev app].
      assert (A : Forall2 has_type (sop_args SRefIsNull) [v]).
      { constructor; auto. destruct Tv as [C K]. split; auto. rewrite C. destruct t; try discriminate; reflexivity. }
      rewrite E_op by auto. split; auto.
      eexists. split; [reflexivity|]. destruct (p_op P SRefIsNull (x_inst x) [v]) as [[s' o]| |] eqn:EV; cbn [bind fst snd]; auto.
      destruct (I_op SRefIsNull _ _ _ _ SI I_null eq_refl A EV) as [I1 T1]. destruct o; cbn in T1; [|tauto]. split; [now constructor|now split].
    - apply f2_app_inv in FS as (args & rest & -> & FA & FR & La). rewrite take_app by (now rewrite La, len_on).
      assert (A : Forall2 has_type (sop_args o) (rev args)) by (apply f2_rev in FA; unfold on_stack in FA; now rewrite rev_involutive in FA).
      rewrite E_op by auto. split; auto.
      eexists. split; [reflexivity|]. destruct (p_op P o (x_inst x) (rev args)) as [[s' v]| |] eqn:EV; cbn [bind fst snd]; auto.
      destruct (I_op o _ _ _ _ SI OI EX A EV) as [I1 T1].
      destruct (sop_res o), v; try tauto; (split; [|now split]); auto.
  Qed.

  Lemma host_sound F ls ts' w t args x k k' : st_ok F x ->
    (forall vs y, Forall2 has_type (on_stack (snd t)) vs -> st_ok F y -> res_ok F ls ts' (k vs y) (k' vs y)) ->
    res_ok F ls ts' (do_host host w t args x k) (do_host host w t args x k').
  Proof.
    intros [SI SL] K. unfold do_host. cbv zeta. destruct (host _) as [| | |z|o ws] eqn:E; try (split; cbn; auto; fail).
    destruct (HH _ _ _ E) as [H1 H2]. destruct (host_vals (snd t) o) as [vs|] eqn:HVs; [|split; cbn; auto].
    apply K; [|split; auto; now apply I_writes]. destruct (snd t) as [|u [|]]; cbn in HVs.
    - injection HVs as <-. constructor.
    - destruct o as [v|]; [|discriminate]. destruct (cls_eqb (val_cls v) (class_of u)) eqn:C; [|discriminate]. injection HVs as <-.
      constructor; auto. split; [now apply cls_eqb_eq|auto].
    - destruct o; discriminate.
  Qed.

  Definition sound_at (n : nat) : Prop := forall F c ls ts ts', typed F ls ts c ts' -> f_mod F = SM -> refs_by okop oktab c = true ->
    (exists l0, ls = l0 ++ [on_stack (f_results F)]) -> forall stk x, Forall2 has_type ts stk -> st_ok F x ->
    res_ok F ls ts' (exec P host SM n (map (@length valtype) ls) c stk x) (exec P' host SM n (map (@length valtype) ls) c stk x).

  Lemma call_sound n F ls ts' d args x k k' : match n with O => True | S n => sound_at n end -> In (SWasm d) (sm_funcs SM) ->
    Forall2 has_type (fst (sf_type d)) args -> st_ok F x ->
    (forall vs y, Forall2 has_type (on_stack (snd (sf_type d))) vs -> st_ok F y -> res_ok F ls ts' (k vs y) (k' vs y)) ->
    res_ok F ls ts' (callf P host SM n d args x k) (callf P' host SM n d args x k').
  Proof.
    intros Sn Hd FA [SI SL] K. unfold callf. destruct n as [|n]; [split; cbn; auto|].
    destruct (defaults_ok (sf_locals d)) as (-> & ds & -> & TD).
    pose proof (proj1 HV) as VF. rewrite Forall_forall in VF. specialize (VF _ Hd). cbn in VF.
    set (G := {| f_mod := SM; f_locals := fst (sf_type d) ++ sf_locals d; f_results := snd (sf_type d) |}) in *.
    destruct (Sn G _ _ _ _ VF eq_refl (HR _ Hd) (ex_intro _ [] eq_refl) [] (with_loc x (args ++ ds))) as [G1 G2]; [constructor|split; auto; cbn; apply Forall2_app; auto|].
    cbn [map] in G1, G2. rewrite len_on in G1, G2. rewrite G2.
    destruct (exec P host SM n [length (snd (sf_type d))] (sf_body d) [] _) as [vs y|[|e] vs y|vs y|t l|z l| | | ]; cbn in G1 |- *; try (split; cbn; auto; fail); try tauto.
    - destruct G1 as [G1 [G3 G4]]. apply K; auto. split; auto.
    - destruct G1 as (l & G1 & G3 & G4 & G5). injection G1 as <-. apply K; auto. split; auto.
    - destruct G1 as (l & G1 & _). destruct e; discriminate.
    - destruct G1 as [G1 [G3 G4]]. apply K; auto. split; auto.
  Qed.

  Lemma sound n : sound_at n.
  Proof.
    induction n as [n IHn] using lt_wf_ind.
    assert (IH1 : match n with O => True | S n => sound_at n end) by (destruct n; auto). clear IHn.
    unfold sound_at. intros F c ls ts ts' T.
    induction T as [ls ts|ls ts ts1 ts' b k Tb T IH|ls ts ts' ps rs body k Tb IHb Tk IHk|ls ts ts' ps rs body k Tb IHb Tk IHk
      |ls ts ts' ps rs th k E Tb IHb Tk IHk|ls ts ts' ps rs th el k Tb IHb Te IHe Tk IHk|ls ts any ts' d l k N T IH|ls ts ts' d l k N T IH
      |ls ts any ts' ds d l k N ND T IH|ls ts any ts' k T IH|ls ts any ts' k T IH|ls ts ts' f fn k N T IH|ls ts ts' ty tb ps rs k N T IH];
      intros HM RI LL stk x FS SX.
    - destruct n; (split; [split; auto|reflexivity]).
    - rewrite !exec_basic.
      assert (RI' : match b with BOp o => okop o | BConst v => val_okb v | _ => true end = true /\ refs_by okop oktab k = true).
      { destruct b; cbn [refs_by] in RI; try (now split); now apply andb_prop in RI. }
      destruct RI' as [R1 R2]. destruct (basic_sound _ _ _ _ _ _ Tb R1 FS SX) as (EQ & r & E & G). rewrite EQ, E.
      destruct r as [[stk' x']| |]; cbn [lift]; [|split; cbn; auto|split; cbn; auto]. destruct G. now apply IH.
    - cbn [refs_by] in RI. apply andb_prop in RI as [R1 R2]. apply f2_app_inv in FS as (args & rest & -> & FA & FR & La).
      rewrite !exec_block, take_app by (now rewrite La, len_on).
      destruct (IHb HM R1 (more _ _ _ LL) args x FA SX) as [G1 G2]. cbn [map] in G1, G2. rewrite len_on in G1, G2. rewrite G2.
      destruct (exec P host SM n _ body args x) as [vs y|[|e] vs y|vs y|t l|z l| | | ]; cbn in G1; try (split; cbn; auto; fail); try tauto.
      + destruct G1. apply IHk; auto. apply Forall2_app; auto.
      + destruct G1 as (l & E & G1 & G3). injection E as <-. apply IHk; auto. apply Forall2_app; auto.
    - pose proof RI as RI0. cbn [refs_by] in RI. apply andb_prop in RI as [R1 R2]. apply f2_app_inv in FS as (args & rest & -> & FA & FR & La).
      rewrite !exec_block, take_app by (now rewrite La, len_on).
      destruct (IHb HM R1 (more _ _ _ LL) args x FA SX) as [G1 G2]. cbn [map] in G1, G2. rewrite len_on in G1, G2. rewrite G2.
      destruct (exec P host SM n _ body args x) as [vs y|[|e] vs y|vs y|t l|z l| | | ]; cbn in G1; try (split; cbn; auto; fail); try tauto.
      + destruct G1. apply IHk; auto. apply Forall2_app; auto.
      + destruct G1 as (l & E & G1 & G3). injection E as <-. destruct n as [|n]; [split; cbn; auto|].
        apply (IH1 F _ ls (on_stack ps ++ ts)); auto; [now apply TLoop|]. apply Forall2_app; auto.
    - cbn [refs_by] in RI. apply andb_prop in RI as [R1 R2]. inversion FS as [|? cv ? stk1 Tc FS1]; subst. apply f2_app_inv in FS1 as (args & rest & -> & FA & FR & La).
      rewrite !exec_if. destruct (truth cv Tc) as (z & -> & _). cbn [is_true]. rewrite take_app by (now rewrite La, len_on).
      destruct (negb _); [|apply IHk; auto; apply Forall2_app; auto].
      destruct (IHb HM R1 (more _ _ _ LL) args x FA SX) as [G1 G2]. cbn [map] in G1, G2. rewrite len_on in G1, G2. rewrite G2.
      destruct (exec P host SM n _ th args x) as [vs y|[|e] vs y|vs y|t l|zz l| | | ]; cbn in G1; try (split; cbn; auto; fail); try tauto.
      + destruct G1. apply IHk; auto. apply Forall2_app; auto.
      + destruct G1 as (l & E & G1 & G3). injection E as <-. apply IHk; auto. apply Forall2_app; auto.
    - cbn [refs_by] in RI. apply andb_prop in RI as [R1 R2]. apply andb_prop in R1 as [R1 R3]. inversion FS as [|? cv ? stk1 Tc FS1]; subst.
      apply f2_app_inv in FS1 as (args & rest & -> & FA & FR & La).
      rewrite !exec_ifelse. destruct (truth cv Tc) as (z & -> & _). cbn [is_true]. rewrite take_app by (now rewrite La, len_on).
      assert (B : forall b : bool, res_ok F (on_stack rs :: ls) (on_stack rs)
         (if b then exec P host SM n (length rs :: map (@length valtype) ls) th args x else exec P host SM n (length rs :: map (@length valtype) ls) el args x)
         (if b then exec P' host SM n (length rs :: map (@length valtype) ls) th args x else exec P' host SM n (length rs :: map (@length valtype) ls) el args x)).
      { rewrite <- (len_on rs). intros [|]; [apply IHb|apply IHe]; auto; (destruct LL as [l0 ->]; now exists (on_stack rs :: l0)). }
      destruct (B (negb (Z.eqb z 0))) as [G1 G2]. rewrite G2. clear B G2.
      match goal with |- res_ok _ _ _ (match ?o with _ => _ end) _ => destruct o as [vs y|[|e] vs y|vs y|t l|zz l| | | ] end; cbn in G1; try (split; cbn; auto; fail); try tauto.
      + destruct G1. apply IHk; auto. apply Forall2_app; auto.
      + destruct G1 as (l & E & G1 & G3). injection E as <-. apply IHk; auto. apply Forall2_app; auto.
    - apply f2_app_inv in FS as (args & rest & -> & FA & FR & La).
      assert (E : forall Q, exec Q host SM n (map (@length valtype) ls) (CBr d k) (args ++ rest) x = OBr d args x).
      { intros Q. assert (E : exec Q host SM n (map (@length valtype) ls) (CBr d k) (args ++ rest) x =
            match nth_error (map (@length valtype) ls) d with Some a => OBr d (firstn a (args ++ rest)) x | None => OStuck end) by (destruct n; reflexivity).
        rewrite E, (map_nth_error (@length valtype) _ _ N), firstn_app_l; auto. }
      rewrite !E. split; auto. cbn. eauto.
    - inversion FS as [|? cv ? stk1 Tc FS1]; subst. apply f2_app_inv in FS1 as (args & rest & -> & FA & FR & La).
      rewrite !exec_brif. destruct (truth cv Tc) as (z & -> & _). cbn [is_true]. rewrite (map_nth_error (@length valtype) _ _ N). destruct (negb _).
      + rewrite firstn_app_l by auto. split; auto. cbn. eauto.
      + apply IH; auto. apply Forall2_app; auto.
    - inversion FS as [|? cv ? stk1 Tc FS1]; subst. apply f2_app_inv in FS1 as (args & rest & -> & FA & FR & La). destruct (truth cv Tc) as (z & -> & _).
      set (e := nth (Z.to_nat (z mod 2 ^ 32)) ds d). assert (Ne : nth_error ls e = Some l).
      { unfold e. destruct (Nat.lt_ge_cases (Z.to_nat (z mod 2 ^ 32)) (length ds)); [apply ND, nth_In; auto|now rewrite nth_overflow]. }
      assert (E : forall Q, exec Q host SM n (map (@length valtype) ls) (CBrTable ds d k) (VI32 z :: args ++ rest) x = OBr e args x).
      { intros Q. assert (E : exec Q host SM n (map (@length valtype) ls) (CBrTable ds d k) (VI32 z :: args ++ rest) x =
            match nth_error (map (@length valtype) ls) e with Some a => OBr e (firstn a (args ++ rest)) x | None => OStuck end) by (destruct n; reflexivity).
        rewrite E, (map_nth_error (@length valtype) _ _ Ne), firstn_app_l; auto. }
      rewrite !E. split; auto. cbn. eauto.
    - apply f2_app_inv in FS as (args & rest & -> & FA & FR & La).
      assert (E : forall Q, exec Q host SM n (map (@length valtype) ls) (CReturn k) (args ++ rest) x = ORet args x).
      { intros Q. assert (E : exec Q host SM n (map (@length valtype) ls) (CReturn k) (args ++ rest) x = ORet (firstn (last (map (@length valtype) ls) 0) (args ++ rest)) x)
          by (destruct n; reflexivity).
        rewrite E. replace (last (map (@length valtype) ls) 0) with (length args); [now rewrite firstn_app_l|].
        destruct LL as [l0 ->]. rewrite map_app. cbn [map]. now rewrite last_last, La. }
      rewrite !E. split; auto. cbn. auto.
    - destruct n; (split; [cbn; auto|reflexivity]).
    - cbn [refs_by] in RI. apply f2_app_inv in FS as (args & rest & -> & FA & FR & La). rewrite HM in N.
      rewrite !exec_call, N, take_app by (now rewrite La, len_on).
      assert (A : Forall2 has_type (fst (sfunc_type fn)) (rev args)) by (apply f2_rev in FA; unfold on_stack in FA; now rewrite rev_involutive in FA).
      destruct fn as [d|w t]; cbn [sfunc_type] in *.
      + apply call_sound; auto; [eapply nth_error_In; eauto|]. intros. apply IH; auto. apply Forall2_app; auto.
      + apply host_sound; auto. intros. apply IH; auto. apply Forall2_app; auto.
    - cbn [refs_by] in RI. apply andb_prop in RI as [R1 R2]. inversion FS as [|? cv ? stk1 Tc FS1]; subst.
      apply f2_app_inv in FS1 as (args & rest & -> & FA & FR & La). destruct (truth cv Tc) as (z & -> & Hz).
      rewrite HM in N. rewrite !exec_callind, N. cbn [fst]. rewrite take_app by (now rewrite La, len_on). rewrite E_func by (auto; apply SX).
      destruct (p_func P (i_tables (x_inst x)) tb z) as [f| |]; try (split; cbn; auto; fail).
      destruct (nth_error (sm_funcs SM) f) as [fn|] eqn:Nf; [|split; cbn; auto]. destruct (ftype_eqb (sfunc_type fn) (ps, rs)) eqn:TE; [|split; cbn; auto].
      apply ftype_eqb_eq in TE.
      assert (A : Forall2 has_type (fst (sfunc_type fn)) (rev args)) by (rewrite TE; apply f2_rev in FA; unfold on_stack in FA; now rewrite rev_involutive in FA).
      destruct fn as [d|w t]; cbn [sfunc_type] in *.
      + apply call_sound; auto; [eapply nth_error_In; eauto|]. intros. rewrite TE in *. apply IH; auto. apply Forall2_app; auto.
      + rewrite E_host, I_host. apply host_sound; auto. intros. rewrite TE in *. apply IH; auto. apply Forall2_app; auto.
  Qed.
End S.
