(** Straight-line code: the translated instructions compute what the stack semantics computes.
    Proof device for Sim.v (no modelled code). *)
From Coq Require Import ZArith List Bool Lia.
From Verif Require Import Word Value Numeric Float Mem MemProofs Store StoreProofs Regs IR Machine Wasm Decoder Check RegsProofs Loc DecodeProofs.
Import ListNotations.
Open Scope nat_scope.

(** what chiwawa's handlers compute, as primitives of the stack semantics *)
Definition chiwawa_prims (hf : hostfp) : prims :=
  {| p_op := sop_eval hf; p_func := table_func; p_default := default_local; p_ind_host := false |}.

Fixpoint dsteps (hf : hostfp) (is : list instr) (d : data) : res data :=
  match is with
  | [] => Ok d
  | i :: is => match dstep hf i d with
               | Some (Ok d) => dsteps hf is d
               | Some (Trap t) => Trap t
               | _ => UB
               end
  end.
Lemma dsteps_app hf a : forall b d d', dsteps hf a d = Ok d' -> dsteps hf (a ++ b) d = dsteps hf b d'.
Proof.
  induction a as [|i a IH]; cbn; intros b d d' H; [now inversion H|].
  destruct (dstep hf i d) as [[|t|]|]; try discriminate. now apply IH.
Qed.
Definition bcode (bl : list basic) (c : code) : code := fold_right CBasic c bl.
Fixpoint bexecs (P : prims) (bl : list basic) (stk : list val) (x : sst) : option (res (list val * sst)) :=
  match bl with
  | [] => Some (Ok (stk, x))
  | b :: bl => match bexec P b stk x with
               | Some (Ok (stk, x)) => bexecs P bl stk x
               | r => r
               end
  end.

Lemma pop_ts_inv want : forall ts rest, pop_ts want ts = Some rest -> ts = want ++ rest.
Proof.
  induction want as [|c want IH]; cbn; intros ts rest H; [now inversion H|].
  destruct ts as [|c' ts]; [discriminate|]. destruct (cls_eqb c c') eqn:E; [|discriminate].
  apply cls_eqb_eq in E. subst. f_equal. now apply IH.
Qed.
Lemma cls_list_eqb_inv a b : cls_list_eqb a b = true -> a = b.
Proof.
  unfold cls_list_eqb. destruct (pop_ts a b) as [[|]|] eqn:E; try discriminate. intros _.
  apply pop_ts_inv in E. rewrite app_nil_r in E. auto.
Qed.
Lemma class_vt c : class_of (vt_of_cls c) = c.
Proof. now destruct c. Qed.
Lemma tops_app_rev ts : map class_of (rev ts) = tops ts.
Proof. apply tops_rev. Qed.

(** ** results of the primitives *)
Lemma sop_eval_res hf o s args s' r : sop_ok o = true -> sop_eval hf o s args = Ok (s', r) ->
  match sop_res o with
  | None => r = None
  | Some t => exists v, r = Some v /\ val_cls v = class_of t
  end.
Proof.
  intros OK H.
  assert (B : forall A B (m : res A) (f : A -> res B) x, bind m f = Ok x -> exists a, m = Ok a /\ f a = Ok x).
  { intros A B m f x. destruct m; cbn; intros K; try discriminate; eauto. }
  destruct o; cbn [sop_eval] in H; destruct args as [|a1 [|a2 [|a3 [|a4 args]]]]; try discriminate; cbn [sop_res];
    repeat match goal with
           | K : bind _ _ = Ok _ |- _ => apply B in K; destruct K as (? & ? & K)
           end; inversion H; subst; try reflexivity.
  - eexists; split; [reflexivity|]. destruct o as [[]?|[]|[] [| |]]; reflexivity.
  - eexists; split; [reflexivity|]. destruct o as [w o|w o|f o|f o]; cbn in H0; try (inversion H0; subst).
    + unfold rmap in H0. apply B in H0. destruct H0 as (z & _ & Hz). inversion Hz. now destruct w.
    + reflexivity.
    + destruct o; inversion H2; now destruct f.
    + reflexivity.
  - eexists; split; [reflexivity|]. destruct c as [|s|w f s|w f s|f w s| | |w|w]; cbn in H0; try (inversion H0; subst; reflexivity).
    + destruct s; inversion H0; reflexivity.
    + destruct w; unfold rmap in H0; apply B in H0; destruct H0 as (z & _ & Hz); inversion Hz; reflexivity.
    + inversion H0. now destruct w.
    + inversion H0. now destruct f.
    + inversion H0. now destruct w.
    + inversion H0. now destruct w.
  - eexists; split; [reflexivity|]. rewrite class_vt. unfold mem_load in H1.
    apply B in H1. destruct H1 as (bs & _ & H1). inversion H1. now destruct op.
  - eexists; split; [reflexivity|]. reflexivity.
  - eexists; split; [reflexivity|]. reflexivity.
  - eexists; split; [reflexivity|]. unfold global_get in H0. destruct (nth_error _ _); inversion H0.
    destruct (cls_eqb (val_cls v) (class_of t)) eqn:Q; [now apply cls_eqb_eq in Q|now destruct (class_of t)].
  - eexists; split; [reflexivity|]. cbn in OK. apply cls_eqb_eq in OK. now rewrite OK.
  - eexists; split; reflexivity.
  - eexists; split; [reflexivity|]. cbn in OK. apply cls_eqb_eq in OK. now rewrite OK.
Qed.
Lemma sop_eval_ptr hf o s args s' r : sop_eval hf o s args = Ok (s', r) -> sets_ptr o = false -> cur_ptr s' = cur_ptr s.
Proof.
  intros H N.
  assert (B : forall A B (m : res A) (f : A -> res B) x, bind m f = Ok x -> exists a, m = Ok a /\ f a = Ok x).
  { intros A B m f x. destruct m; cbn; intros K; try discriminate; eauto. }
  assert (R : forall m, raw_mem s = Ok m -> i_mem s = Some m) by (unfold raw_mem; intros m; destruct (i_mem s); cbn; congruence).
  assert (Nd : forall m, need_mem s = Ok m -> i_mem s = Some m) by (unfold need_mem; intros m; destruct (i_mem s); cbn; congruence).
  destruct o; cbn [sop_eval] in H; destruct args as [|a1 [|a2 [|a3 [|a4 args]]]]; try discriminate;
    repeat match goal with
           | K : bind _ _ = Ok _ |- _ => apply B in K; destruct K as (? & ? & K)
           | K : raw_mem _ = Ok _ |- _ => apply R in K
           | K : need_mem _ = Ok _ |- _ => apply Nd in K
           end; inversion H; subst; try reflexivity; unfold cur_ptr; cbn [i_mem with_mem]; rewrite ?H0, ?H1; reflexivity.
Qed.

(** ** reading operands *)
Fixpoint reads (d : data) (cs : list cls) (os : list opnd) (vs : list val) : Prop :=
  match cs, os, vs with
  | [], [], [] => True
  | c :: cs, o :: os, v :: vs => read d c o = Ok v /\ reads d cs os vs
  | _, _, _ => False
  end.
Lemma reads_app d : forall cs os vs cs' os' vs', reads d cs os vs -> reads d cs' os' vs' ->
  reads d (cs ++ cs') (os ++ os') (vs ++ vs').
Proof.
  induction cs as [|c cs IH]; intros [|o os] [|v vs] cs' os' vs'; cbn; try tauto. intros [A B] C. split; auto.
Qed.
Lemma reads_rev d : forall cs os vs, reads d cs os vs -> reads d (rev cs) (rev os) (rev vs).
Proof.
  induction cs as [|c cs IH]; intros [|o os] [|v vs]; cbn; try tauto. intros [A B].
  apply reads_app; [now apply IH|]. cbn. auto.
Qed.
Lemma reads_all d : forall cs os vs, reads d cs os vs -> read_all d cs os = Ok vs.
Proof.
  induction cs as [|c cs IH]; intros [|o os] [|v vs]; cbn; try tauto. intros [-> B]. cbn. now rewrite (IH _ _ B).
Qed.
Lemma reads_length d : forall cs os vs, reads d cs os vs -> length vs = length cs.
Proof. induction cs as [|c cs IH]; intros [|o os] [|v vs]; cbn; try tauto. intros [_ B]. f_equal. eauto. Qed.

(** the sources of an operation and what is left pending (Decoder.v, dec_op) *)
Definition srcs_of (o : sop) (ns : list nat) (p : list (cls * opnd)) : list opnd * list (cls * opnd) :=
  match o with
  | SGlobalSet t _ => let (s, p) := global_src (class_of t) (hd 0 ns) p in ([s], p)
  | _ => take_all (rev (sop_args o)) (sop_takes o) ns p
  end.
Lemma srcs_plain o ns : length ns = length (sop_args o) -> srcs_of o ns [] = (map OReg ns, []).
Proof.
  intros H. destruct o; cbn in H |- *; destruct ns as [|n1 [|n2 [|n3 [|n4 ns]]]]; try discriminate; reflexivity.
Qed.

Lemma F2_len {A B} (R : A -> B -> Prop) l l' : Forall2 R l l' -> length l = length l'.
Proof. induction 1; cbn; auto. Qed.

Section Frame.
  Variable hf : hostfp.
  Variable E : denv.
  Variable W : cls -> nat.
  Variable bse : cls -> list val.
  Variable st : list (six nat).
  Definition nl (c : cls) : nat := count_cls c (e_locals E).
  Hypothesis HW : W16 W.
  Hypothesis HL : (Z.of_nat (nlocals E) <= 65536)%Z.

  (** the registers of the stack slots hold the stack *)
  Fixpoint hold (rf : regfile) (ts : list cls) (stk : list val) : Prop :=
    match ts, stk with
    | [], [] => True
    | c :: ts, v :: stk => val_cls v = c /\ rf_get rf c (nl c + cnt c ts) = Ok v /\ hold rf ts stk
    | _, _ => False
    end.
  Record dinv (d : data) (ts : list cls) (stk : list val) (x : sst) : Prop := {
    v_hold : hold (d_rf d) ts stk;
    v_rf : rfok bse st W (d_rf d);
    v_loc : d_loc d = x_loc x;
    v_typ : Forall2 (fun t v => val_cls v = class_of t) (e_params E ++ e_locals E) (x_loc x);
    v_inst : d_inst d = x_inst x;
    v_ptr : d_ptr d = cur_ptr (x_inst x)
  }.

  Lemma hold_keep c i v rf' : forall ts rf stk, hold rf ts stk -> rf_set rf c i v = Ok rf' ->
    nl c + cnt c ts <= i -> hold rf' ts stk.
  Proof.
    induction ts as [|c' ts IH]; intros rf [|w stk]; cbn [hold]; try tauto.
    intros (A & B & C) H L. split; [exact A|]. rewrite cnt_cons in L. split.
    - rewrite (get_set_other _ _ _ _ _ _ _ H); [exact B|]. intros X. inversion X; subst. rewrite cls_eqb_refl in L. lia.
    - eapply IH; eauto. lia.
  Qed.
  Lemma hold_length : forall ts rf stk, hold rf ts stk -> length stk = length ts.
  Proof. induction ts; intros rf [|v stk]; cbn; try tauto. intros (_ & _ & H). f_equal. eauto. Qed.
  Lemma hold_app rf : forall a b s t, hold rf (a ++ b) (s ++ t) -> length s = length a ->
    hold rf b t /\ rf_get_vals rf (slots nl a b) = Ok s /\ Forall2 (fun c v => val_cls v = c) a s.
  Proof.
    induction a as [|c a IH]; intros b [|v s] t H L; cbn in L; try discriminate.
    - cbn. auto.
    - cbn [app hold] in H. destruct H as (A & B & C). destruct (IH b s t C ltac:(lia)) as (D & F & G).
      cbn [slots rf_get_vals]. unfold rf_get_val. cbn [r_cls r_idx]. rewrite B. cbn [bind]. rewrite F. cbn. auto.
  Qed.
  Lemma hold_split rf a b stk : hold rf (a ++ b) stk -> exists s t, stk = s ++ t /\ length s = length a.
  Proof.
    intros H. apply hold_length in H. rewrite app_length in H. exists (firstn (length a) stk), (skipn (length a) stk).
    split; [now rewrite firstn_skipn|]. rewrite firstn_length. lia.
  Qed.
  Lemma dinv_split d a b s t x : dinv d (a ++ b) (s ++ t) x -> length s = length a -> dinv d b t x.
  Proof. intros [A1 A2 A3 A4 A5 A6] L. constructor; auto. now apply (hold_app _ _ _ _ _ A1 L). Qed.
  Lemma slots_reads d : forall a b s, rf_get_vals (d_rf d) (slots nl a b) = Ok s ->
    reads d a (map OReg (map r_idx (slots nl a b))) s.
  Proof.
    induction a as [|c a IH]; intros b s H; cbn [slots rf_get_vals map reads] in *.
    - inversion H. cbn. auto.
    - unfold rf_get_val at 1 in H. cbn [r_cls r_idx] in H.
      destruct (rf_get (d_rf d) c (nl c + cnt c (a ++ b))) eqn:G; cbn in H; try discriminate.
      destruct (rf_get_vals (d_rf d) (slots nl a b)) eqn:G2; cbn in H; try discriminate. inversion H; subst.
      split; [cbn; exact G|now apply IH].
  Qed.
  Lemma loc_at d ts stk x n : dinv d ts stk x -> n < nlocals E ->
    exists v, nth_error (x_loc x) n = Some v /\ val_cls v = class_of (ltype E n) /\ u16 n = n /\ n < length (x_loc x).
  Proof.
    intros I L. pose proof (v_typ _ _ _ _ I) as T. assert (length (x_loc x) = nlocals E) by (symmetry; eapply F2_len; eauto).
    destruct (nth_error (x_loc x) n) as [v|] eqn:N; [|apply nth_error_None in N; lia].
    exists v. split; [reflexivity|]. split; [|split; [apply u16_small; lia|lia]].
    unfold ltype. clear -T N L. unfold nlocals in L. revert n N L. induction T as [|t w ts ws]; intros [|n] N L; cbn in *; try discriminate; try lia.
    - now inversion N; subst.
    - apply IHT; auto. lia.
  Qed.
  (** writing one value: a register above the stack, or a local *)
  Lemma dinv_push d ts stk x c v i : dinv d ts stk x -> val_cls v = c -> i = nl c + cnt c ts -> i < W c ->
    exists d', write d c (DReg i) v = Ok d' /\ dinv d' (c :: ts) (v :: stk) x.
  Proof.
    intros I Cv -> L. destruct I as [A1 A2 A3 A4 A5 A6]. destruct (rfok_set _ _ _ _ c _ v A2 L) as (rf' & S & K).
    cbn [write]. rewrite S. cbn. eexists. split; [reflexivity|]. constructor; auto; cbn.
    split; [exact Cv|]. split; [eapply get_set_same; eauto|]. eapply hold_keep; eauto.
  Qed.
  Lemma dinv_local d ts stk x v n : dinv d ts stk x -> n < nlocals E -> val_cls v = class_of (ltype E n) ->
    forall c, exists d', write d c (DLoc (u16 n)) v = Ok d' /\ dinv d' ts stk (with_loc x (upd (x_loc x) n v)).
  Proof.
    intros I L Cv c. destruct (loc_at _ _ _ _ _ I L) as (w & N & Cw & U & Lx). destruct I as [A1 A2 A3 A4 A5 A6].
    cbn [write]. rewrite U, A3. destruct (Nat.ltb_spec n (length (x_loc x))); [|lia].
    eexists. split; [reflexivity|]. constructor; auto; cbn.
    clear -A4 L Cv. unfold ltype, nlocals in *. revert n L Cv. induction A4 as [|t w ts ws]; intros [|n] L Cv; cbn in *; try lia.
    - constructor; auto.
    - constructor; auto. apply IHA4; auto. lia.
  Qed.
  Lemma dinv_inst d ts stk x s : dinv d ts stk x ->
    dinv (set_ptr (set_inst d s) (cur_ptr s)) ts stk (with_inst x s).
  Proof. intros [A1 A2 A3 A4 A5 A6]. constructor; auto. Qed.

  (** *** one operation, with the local.set that may be merged into it *)
  Lemma op_macro SM ls X P Q L pc o c' k kf pf r rest outer srcs :
    loc E P Q L X k pc (CBasic (BOp o) c') kf pf ->
    ainv nl (k_al k) (tops (sop_args o) ++ rest ++ outer) ->
    (forall ns, length ns = length (sop_args o) -> srcs_of o ns (k_pend k) = (srcs ns, [])) ->
    chk SM E ls (tops (sop_args o) ++ rest) (CBasic (BOp o) c') = Some r ->
    exists bl c2 i k1 ts1,
      CBasic (BOp o) c' = bcode bl c2 /\ csize c2 < csize (CBasic (BOp o) c') /\
      P pc i /\ loc E P Q L X k1 (S pc) c2 kf pf /\ chk SM E ls ts1 c2 = Some r /\
      k_pend k1 = [] /\ ainv nl (k_al k1) (ts1 ++ outer) /\ mle (k_al k) (k_al k1) /\
      (fits W (k_al k1) -> forall d stk stko x args,
         dinv d (rest ++ outer) (stk ++ stko) x -> length stk = length rest ->
         reads d (tops (sop_args o)) (srcs (map r_idx (slots nl (tops (sop_args o)) (rest ++ outer)))) args ->
         exists rr, bexecs (chiwawa_prims hf) bl (args ++ stk) x = Some rr /\
           match rr with
           | Ok (stk', x') => exists d', dsteps hf [i] d = Ok d' /\ dinv d' (ts1 ++ outer) (stk' ++ stko) x' /\
                                         length stk' = length ts1 /\ x_log x' = x_log x
           | Trap t => dsteps hf [i] d = Trap t
           | UB => dsteps hf [i] d = UB
           end).
  Proof.
    intros HLc HA HS HC. cbn [chk] in HC. destruct (fold_safe E (BOp o) c') eqn:FS; [|discriminate]. clear FS.
    cbn [chk_basic] in HC. destruct (sop_ok o) eqn:OK; [|discriminate].
    assert (PT : forall a b, pop_ts a (a ++ b) = Some b).
    { induction a as [|x a IH]; intros b; cbn; [reflexivity|]. rewrite cls_eqb_refl. apply IH. }
    rewrite PT in HC.
    cbn [loc dec_basic] in HLc. rewrite OK in HLc. unfold dec_op in HLc.
    rewrite <- tops_app_rev in HA. destruct (pop_regs_ok nl (rev (sop_args o)) (k_al k) (rest ++ outer) HA) as (A1 & A2 & A3).
    destruct (pop_regs (k_al k) (rev (sop_args o))) as [a ns] eqn:PR. cbn [fst snd] in *.
    assert (Lns : length ns = length (sop_args o)).
    { clear -PR. rewrite <- (rev_length (sop_args o)). revert PR. generalize (k_al k) a ns. induction (rev (sop_args o)) as [|t ts IH]; cbn [pop_regs]; intros k0 a0 ns0 H.
      - now inversion H.
      - destruct (al_pop k0 t) as [b r]. destruct (pop_regs b ts) as [b2 n2] eqn:Q. inversion H; subst. cbn. f_equal. eapply IH; eauto. }
    fold (srcs_of o ns (k_pend k)) in HLc. rewrite (HS ns Lns) in HLc.
    (* dynamic core *)
    assert (Dyn : forall d x args stk0, dinv d (rest ++ outer) stk0 x -> fits W (k_al k) ->
              reads d (tops (sop_args o)) (srcs (map r_idx (slots nl (tops (sop_args o)) (rest ++ outer)))) args ->
              forall t, dstep hf (IOp o t (rev (srcs ns))) d =
                Some (let* q := sop_eval hf o (x_inst x) (rev args) in
                      write_opt (if sets_ptr o then set_ptr (set_inst d (fst q)) (cur_ptr (fst q)) else set_inst d (fst q)) (sop_res o) t (snd q))
                /\ (forall s' v, sop_eval hf o (x_inst x) (rev args) = Ok (s', v) ->
                     dinv (if sets_ptr o then set_ptr (set_inst d s') (cur_ptr s') else set_inst d s') (rest ++ outer) stk0 (with_inst x s'))).
    { intros d x args stk0 I Ft R t. rewrite tops_app_rev in A3. rewrite <- (A3 W HW Ft) in R. split.
      - cbn [dstep]. f_equal. apply reads_rev in R. unfold tops in R at 1. rewrite rev_involutive in R.
        rewrite (reads_all _ _ _ _ R). cbn [bind]. rewrite (v_inst _ _ _ _ I).
        destruct (uses_ptr o && negb (fresh_ptr d)) eqn:UP; [|reflexivity].
        apply andb_prop in UP as [UP FP]. unfold fresh_ptr in FP. rewrite (v_inst _ _ _ _ I), (v_ptr _ _ _ _ I) in FP.
        unfold cur_ptr in FP. destruct (i_mem (x_inst x)) eqn:IM; cbn in FP; [rewrite Nat.eqb_refl in FP; discriminate|].
        assert (RM : raw_mem (x_inst x) = UB) by (unfold raw_mem; now rewrite IM).
        destruct o; try discriminate; cbn [sop_eval]; destruct (rev args) as [|? [|? [|? ?]]]; rewrite ?RM; reflexivity.
      - intros s' v EV. destruct (sets_ptr o) eqn:SP; [now apply dinv_inst|].
        destruct I as [B1 B2 B3 B4 B5 B6]. constructor; auto; cbn.
        rewrite (sop_eval_ptr _ _ _ _ _ _ EV SP). exact B6. }
    assert (Tk : forall (stk : list val) args, length args = length (sop_args o) -> take (length (sop_args o)) (args ++ stk) = Some (args, stk)).
    { intros stk args <-. unfold take. rewrite app_length. destruct (Nat.leb_spec (length args) (length args + length stk)); [|lia].
      rewrite firstn_app, firstn_all, Nat.sub_diag, firstn_O, app_nil_r, skipn_app, skipn_all, Nat.sub_diag. reflexivity. }
    assert (Mle0 : forall c, sget (al_max (k_al k)) c = sget (al_max a) c) by (intros; now rewrite A2).
    destruct (sop_res o) as [t|] eqn:SR.
    - destruct (al_push_ok nl a _ t A1) as (B1 & B2 & B3). destruct (al_push a t) as [a2 rg] eqn:PU. cbn [fst snd] in *.
      destruct (if dst_foldable o then fold_dst E (class_of t) (flatten c' ++ [FEnd]) else None) as [l|] eqn:FD.
      + (* merged with local.set *)
        assert (HB : exists n c2, c' = CBasic (BSet n) c2 /\ class_of (ltype E n) = class_of t /\ l = u16 n).
        { destruct (dst_foldable o); [|discriminate]. unfold fold_dst in FD.
          destruct (flatten c' ++ [FEnd]) as [|f fl] eqn:FL; [discriminate|]. destruct f as [b| | | | | | | | | | |]; try discriminate.
          destruct (flatten_head _ _ _ _ FL) as [c2 ->]; [exists FEnd, []; split; [reflexivity|now left]|].
          destruct b; try discriminate. exists n, c2. split; [reflexivity|].
          destruct (is_num (class_of t) && cls_eqb (class_of (ltype E n)) (class_of t)) eqn:QQ; [|discriminate].
          apply andb_prop in QQ as [_ QQ]. apply cls_eqb_eq in QQ. inversion FD. auto. }
        destruct HB as (n & c2 & -> & Cl & ->). destruct HLc as [[Hi _] HLc]. cbn [length] in HLc.
        cbn [chk] in HC. destruct (fold_safe E (BSet n) c2) eqn:FS; [|discriminate]. cbn [chk_basic] in HC.
        destruct (Nat.ltb n (nlocals E)) eqn:LT; [|discriminate]. apply Nat.ltb_lt in LT.
        rewrite Cl in HC. cbn [pop_ts] in HC. rewrite cls_eqb_refl in HC.
        destruct (al_pop_ok nl a2 (rest ++ outer) t B1) as (C1 & _ & _).
        exists [BOp o; BSet n], c2. eexists. eexists. exists rest. split; [reflexivity|]. split; [cbn [csize]; lia|].
        split; [exact Hi|]. split; [rewrite Nat.add_1_r in HLc; exact HLc|]. split; [exact HC|]. split; [reflexivity|]. split; [exact C1|].
        split. { intros c. rewrite Mle0. exact (B2 c). }
        intros Ft d stk stko x args I Ls R.
        assert (Ft0 : fits W (k_al k)). { intros c. rewrite Mle0. etransitivity; [apply B2|]. exact (Ft c). }
        destruct (Dyn d x args _ I Ft0 R (Some (DLoc (u16 n)))) as [D1 D2].
        pose proof (reads_length _ _ _ _ R) as La. rewrite tops_length in La.
        cbn [bexecs bexec]. rewrite (Tk _ _ La). cbn [dsteps]. rewrite D1. cbn [chiwawa_prims p_op].
        destruct (sop_eval hf o (x_inst x) (rev args)) as [[s' v]|tr|] eqn:EV; cbn [bind fst snd].
        * pose proof (sop_eval_res _ _ _ _ _ _ OK EV) as RV. rewrite SR in RV. destruct RV as (w & -> & Cw).
          specialize (D2 _ _ eq_refl).
          assert (Ln : n < length (x_loc x)) by (destruct (loc_at _ _ _ _ _ I LT) as (_ & _ & _ & _ & ?); auto).
          cbn [x_loc with_inst]. destruct (Nat.ltb_spec n (length (x_loc x))); [|lia].
          eexists. split; [reflexivity|]. cbn [write_opt].
          destruct (dinv_local _ _ _ _ w n D2 LT ltac:(congruence) (class_of t)) as (d' & W1 & W2).
          rewrite W1. exists d'. split; [reflexivity|]. split; [exact W2|]. split; [exact Ls|reflexivity].
        * eexists. split; [reflexivity|]. reflexivity.
        * eexists. split; [reflexivity|]. reflexivity.
      + (* result in a register *)
        assert (HLc' : (P pc (IOp o (Some (DReg (r_idx rg))) (rev (srcs ns))) /\ loc E P Q L X (CS a2 []) (S pc) c' kf pf)).
        { cbn [all_at length] in HLc. rewrite Nat.add_1_r in HLc. destruct HLc as [[Hi _] HLc]. split; [exact Hi|].
          destruct c'; try (destruct HLc as [_ HLc]); exact HLc. }
        clear HLc. destruct HLc' as [Hi HLc].
        exists [BOp o], c'. eexists. eexists. exists (class_of t :: rest). split; [reflexivity|]. split; [cbn [csize]; lia|].
        split; [exact Hi|]. split; [exact HLc|]. split; [exact HC|]. split; [reflexivity|]. split; [exact B1|].
        split. { intros c. rewrite Mle0. exact (B2 c). }
        intros Ft d stk stko x args I Ls R.
        assert (Ft0 : fits W (k_al k)). { intros c. rewrite Mle0. etransitivity; [apply B2|]. exact (Ft c). }
        destruct (Dyn d x args _ I Ft0 R (Some (DReg (r_idx rg)))) as [D1 D2].
        pose proof (reads_length _ _ _ _ R) as La. rewrite tops_length in La.
        cbn [bexecs bexec]. rewrite (Tk _ _ La). cbn [dsteps]. rewrite D1. cbn [chiwawa_prims p_op].
        destruct (sop_eval hf o (x_inst x) (rev args)) as [[s' v]|tr|] eqn:EV; cbn [bind fst snd].
        * pose proof (sop_eval_res _ _ _ _ _ _ OK EV) as RV. rewrite SR in RV. destruct RV as (w & -> & Cw).
          specialize (D2 _ _ eq_refl). destruct (B3 W HW Ft) as [-> Lw]. cbn [r_idx].
          eexists. split; [reflexivity|]. cbn [write_opt].
          destruct (dinv_push _ _ _ _ (class_of t) w _ D2 Cw eq_refl Lw) as (d' & W1 & W2).
          rewrite W1. exists d'. split; [reflexivity|]. split; [exact W2|]. split; [cbn; congruence|reflexivity].
        * eexists. split; [reflexivity|]. reflexivity.
        * eexists. split; [reflexivity|]. reflexivity.
    - assert (HLc' : (P pc (IOp o None (rev (srcs ns))) /\ loc E P Q L X (CS a []) (S pc) c' kf pf)).
      { cbn [all_at length] in HLc. rewrite Nat.add_1_r in HLc. destruct HLc as [[Hi _] HLc]. split; [exact Hi|].
        destruct c'; try (destruct HLc as [_ HLc]); exact HLc. }
      clear HLc. destruct HLc' as [Hi HLc].
      exists [BOp o], c'. eexists. eexists. exists rest. split; [reflexivity|]. split; [cbn [csize]; lia|].
      split; [exact Hi|]. split; [exact HLc|]. split; [exact HC|]. split; [reflexivity|]. split; [exact A1|].
      split. { intros c. rewrite Mle0. apply le_n. }
      intros Ft d stk stko x args I Ls R.
      assert (Ft0 : fits W (k_al k)). { intros c. rewrite Mle0. exact (Ft c). }
      destruct (Dyn d x args _ I Ft0 R None) as [D1 D2].
      pose proof (reads_length _ _ _ _ R) as La. rewrite tops_length in La.
      cbn [bexecs bexec]. rewrite (Tk _ _ La). cbn [dsteps]. rewrite D1. cbn [chiwawa_prims p_op].
      destruct (sop_eval hf o (x_inst x) (rev args)) as [[s' v]|tr|] eqn:EV; cbn [bind fst snd].
      + pose proof (sop_eval_res _ _ _ _ _ _ OK EV) as RV. rewrite SR in RV. subst v.
        specialize (D2 _ _ eq_refl). eexists. split; [reflexivity|]. cbn [write_opt].
        eexists. split; [reflexivity|]. split; [exact D2|]. split; [exact Ls|reflexivity].
      + eexists. split; [reflexivity|]. reflexivity.
      + eexists. split; [reflexivity|]. reflexivity.
  Qed.

  Definition run_ok (bl : list basic) (is : list instr) (ts ts1 outer : list cls) : Prop :=
    forall d stk stko x, dinv d (ts ++ outer) (stk ++ stko) x -> length stk = length ts ->
      exists rr, bexecs (chiwawa_prims hf) bl stk x = Some rr /\
        match rr with
        | Ok (stk', x') => exists d', dsteps hf is d = Ok d' /\ dinv d' (ts1 ++ outer) (stk' ++ stko) x' /\
                                      length stk' = length ts1 /\ x_log x' = x_log x
        | Trap t => dsteps hf is d = Trap t
        | UB => dsteps hf is d = UB
        end.
  (** a group of operators translated together *)
  Definition macro SM ls X P Q L pc c k kf pf r ts outer : Prop :=
    exists bl c2 is k1 ts1,
      c = bcode bl c2 /\ csize c2 < csize c /\
      all_at P pc is /\ loc E P Q L X k1 (pc + length is) c2 kf pf /\ chk SM E ls ts1 c2 = Some r /\
      k_pend k1 = [] /\ ainv nl (k_al k1) (ts1 ++ outer) /\ mle (k_al k) (k_al k1) /\
      (fits W (k_al k1) -> run_ok bl is ts ts1 outer).

  Lemma all_at_app P a : forall pc b, all_at P pc a -> all_at P (pc + length a) b -> all_at P pc (a ++ b).
  Proof.
    induction a as [|i a IH]; intros pc b; cbn [all_at app length]; [now rewrite Nat.add_0_r|].
    intros [A B] C. split; auto. apply IH; auto. now rewrite Nat.add_succ_comm.
  Qed.
  Lemma bexecs_app Pr a : forall b stk x stk' x', bexecs Pr a stk x = Some (Ok (stk', x')) ->
    bexecs Pr (a ++ b) stk x = bexecs Pr b stk' x'.
  Proof.
    induction a as [|i a IH]; cbn; intros b stk x stk' x' H; [now inversion H|].
    destruct (bexec Pr i stk x) as [[[s y]|t|]|]; try discriminate. now apply IH.
  Qed.

  (** operand producers, then an operation *)
  Lemma op_after SM ls X P Q L pc o c' c k0 bl0 is0 k kf pf r ts rest outer srcs :
    c = bcode bl0 (CBasic (BOp o) c') -> all_at P pc is0 -> mle (k_al k0) (k_al k) ->
    loc E P Q L X k (pc + length is0) (CBasic (BOp o) c') kf pf ->
    ainv nl (k_al k) (tops (sop_args o) ++ rest ++ outer) ->
    (forall ns, length ns = length (sop_args o) -> srcs_of o ns (k_pend k) = (srcs ns, [])) ->
    chk SM E ls (tops (sop_args o) ++ rest) (CBasic (BOp o) c') = Some r ->
    (fits W (k_al k) -> forall d stk stko x, dinv d (ts ++ outer) (stk ++ stko) x -> length stk = length ts ->
       exists d0 args stkr, bexecs (chiwawa_prims hf) bl0 stk x = Some (Ok (args ++ stkr, x)) /\ dsteps hf is0 d = Ok d0 /\
         dinv d0 (rest ++ outer) (stkr ++ stko) x /\ length stkr = length rest /\
         reads d0 (tops (sop_args o)) (srcs (map r_idx (slots nl (tops (sop_args o)) (rest ++ outer)))) args) ->
    macro SM ls X P Q L pc c k0 kf pf r ts outer.
  Proof.
    intros -> A0 M0 Lc I HS HC Pre.
    destruct (op_macro SM ls X P Q L _ _ _ _ _ _ _ _ _ _ Lc I HS HC)
      as (bl & c2 & i & k1 & ts1 & E1 & E2 & E3 & E4 & E5 & E6 & E7 & E8 & E9).
    exists (bl0 ++ bl), c2, (is0 ++ [i]), k1, ts1. split.
    { unfold bcode in *. now rewrite fold_right_app, <- E1. }
    split.
    { eapply Nat.lt_le_trans; [exact E2|]. clear. generalize (CBasic (BOp o) c'). intros z. induction bl0 as [|b0 l IH]; [apply le_n|]. change (csize (bcode (b0 :: l) z)) with (S (csize (bcode l z))). lia. }
    split. { apply all_at_app; [exact A0|]. cbn. auto. }
    split. { rewrite app_length. cbn [length]. replace (pc + (length is0 + 1)) with (S (pc + length is0)) by lia. exact E4. }
    split; [exact E5|]. split; [exact E6|]. split; [exact E7|]. split; [eapply mle_trans; eauto|].
    intros Ft d stk stko x D Ls. destruct (Pre (fits_mle _ _ _ E8 Ft) d stk stko x D Ls) as (d0 & args & stkr & B1 & B2 & B3 & B4 & B5).
    destruct (E9 Ft d0 stkr stko x args B3 B4 B5) as (rr & C1 & C2). exists rr. split.
    { now rewrite (bexecs_app _ _ _ _ _ _ _ B1). }
    rewrite (dsteps_app _ _ _ _ _ B2). exact C2.
  Qed.

  (** *** constants and local.get *)
  Inductive valb : basic -> valtype -> opnd -> Prop :=
  | VBc v : is_num (val_cls v) = true -> valb (BConst v) (vt_of_cls (val_cls v)) (OConst v)
  | VBg n : is_num (class_of (ltype E n)) = true -> n < nlocals E -> valb (BGet n) (ltype E n) (OLoc (u16 n)).
  Lemma valb_dec b t ov nxt k : valb b t ov ->
    dec_basic E b nxt k = Some (fst (dec_value t ov nxt k), snd (dec_value t ov nxt k), false).
  Proof.
    intros [v H|n H L]; cbn [dec_basic].
    - rewrite H. now destruct (dec_value _ _ _ _).
    - destruct (dec_value (ltype E n) (OLoc (u16 n)) nxt k). destruct (class_of (ltype E n)); try discriminate; reflexivity.
  Qed.
  Lemma valb_chk b t ov ts : valb b t ov -> chk_basic E ts b = Some (class_of t :: ts).
  Proof.
    intros [v H|n H L]; cbn [chk_basic].
    - now rewrite H, class_vt.
    - apply Nat.ltb_lt in L. now rewrite L.
  Qed.
  Lemma valb_num b t ov : valb b t ov -> is_num (class_of t) = true.
  Proof. intros [v H|n H L]; [now rewrite class_vt|exact H]. Qed.
  Lemma valb_cls b t ov : valb b t ov -> value_cls E b = Some (class_of t).
  Proof. intros [v H|n H L]; cbn; [now rewrite class_vt|reflexivity]. Qed.
  Lemma valb_sem b t ov d ts stk x : valb b t ov -> dinv d ts stk x ->
    exists v, read d (class_of t) ov = Ok v /\ val_cls v = class_of t /\
              forall s, bexec (chiwawa_prims hf) b s x = Some (Ok (v :: s, x)).
  Proof.
    intros [v H|n H L] I; cbn [bexec read].
    - exists v. rewrite class_vt. auto.
    - destruct (loc_at _ _ _ _ _ I L) as (v & N & Cv & U & _). exists v. rewrite U, (v_loc _ _ _ _ I), N, Cv, cls_eqb_refl. auto.
  Qed.
  Lemma valb_read_keep b t ov d d' : valb b t ov -> d_loc d' = d_loc d -> read d' (class_of t) ov = read d (class_of t) ov.
  Proof. intros [v H|n H L] K; cbn; [reflexivity|now rewrite K]. Qed.
  Lemma dinv_above d ts stk x c v i : dinv d ts stk x -> nl c + cnt c ts <= i -> i < W c ->
    exists d', write d c (DReg i) v = Ok d' /\ dinv d' ts stk x /\ read d' c (OReg i) = Ok v /\ d_loc d' = d_loc d.
  Proof.
    intros I L L2. destruct I as [A1 A2 A3 A4 A5 A6]. destruct (rfok_set _ _ _ _ c _ v A2 L2) as (rf' & S & K).
    cbn [write]. rewrite S. cbn. eexists. split; [reflexivity|]. split; [|split; [eapply get_set_same; eauto|reflexivity]].
    constructor; auto; cbn. eapply hold_keep; eauto.
  Qed.

  (** what follows an operand that is folded *)
  Lemma consumer_inv c o : consumer c (FBasic (BOp o)) = true ->
    (exists o1, o = SNum1 o1 /\ class_of (op1_arg o1) = c) \/ (exists o2, o = SNum2 o2 /\ class_of (op2_arg o2) = c).
  Proof.
    cbn. destruct o; try discriminate.
    - intros H. left. exists o. split; [reflexivity|]. destruct o as [w []|w|f o]; try discriminate; now apply cls_eqb_eq in H.
    - intros H. right. exists o. split; [reflexivity|]. now apply cls_eqb_eq in H.
  Qed.
  Lemma consumer_op c f : consumer c f = true -> exists o, f = FBasic (BOp o).
  Proof. destruct f as [[]| | | | | | | | | | |]; try discriminate. eauto. Qed.
  Lemma code_head c' f fl : flatten c' ++ [FEnd] = f :: fl -> f <> FEnd -> forall b, f = FBasic b -> exists c2, c' = CBasic b c2 /\ fl = flatten c2 ++ [FEnd].
  Proof.
    intros H N b ->. destruct (flatten_head _ _ _ _ H) as [c2 ->]; [exists FEnd, []; split; [reflexivity|now left]|].
    cbn in H. inversion H. eauto.
  Qed.
  Lemma folds_inv c c' : folds c (flatten c' ++ [FEnd]) = true ->
    (exists o k, c' = CBasic (BOp o) k /\ (consumer c (FBasic (BOp o)) = true \/ (c = CI32 /\ is_load (FBasic (BOp o)) = true))) \/
    (exists b2 o k, c' = CBasic b2 (CBasic (BOp o) k) /\ ((exists v, b2 = BConst v) \/ exists n, b2 = BGet n) /\
       (consumer c (FBasic (BOp o)) = true \/ (c = CI32 /\ is_store (FBasic (BOp o)) = true))).
  Proof.
    intros H. unfold folds in H.
    assert (VB : forall o, ((match is_const o with Some c' => cls_eqb c' c | None => is_get o end) = true \/
                       (match is_const o with Some c => is_num c | None => is_get o end) = true) ->
               exists b2, o = FBasic b2 /\ ((exists v, b2 = BConst v) \/ exists n, b2 = BGet n)).
    { intros o K. destruct o as [b| | | | | | | | | | |]; cbn in K; try (destruct K; discriminate).
      destruct b; cbn in K; try (destruct K; discriminate); eauto. }
    assert (TW : forall o rest, flatten c' ++ [FEnd] = o :: rest ->
               ((match is_const o with Some c' => cls_eqb c' c | None => is_get o end) = true \/
                       (match is_const o with Some c => is_num c | None => is_get o end) = true) ->
               forall p, hd_is p rest = true -> (forall f, p f = true -> exists o, f = FBasic (BOp o)) ->
               exists b2 o k, c' = CBasic b2 (CBasic (BOp o) k) /\ ((exists v, b2 = BConst v) \/ exists n, b2 = BGet n) /\ p (FBasic (BOp o)) = true).
    { intros o rest Fl K p Hp Kp. destruct (VB _ K) as (b2 & -> & K2).
      destruct (code_head _ _ _ Fl ltac:(discriminate) _ eq_refl) as (c2 & -> & ->).
      destruct (flatten c2 ++ [FEnd]) as [|f fl] eqn:F2; [discriminate|]. cbn [hd_is] in Hp.
      destruct (Kp _ Hp) as [o ->]. destruct (code_head _ _ _ F2 ltac:(discriminate) _ eq_refl) as (c3 & -> & ->).
      exists b2, o, c3. auto. }
    destruct (flatten c' ++ [FEnd]) as [|f fl] eqn:FL; [now destruct c'|].
    apply orb_prop in H as [H|H].
    - cbn [can_fold] in H. apply orb_prop in H as [H|H].
      + left. destruct (consumer_op _ _ H) as [o ->]. destruct (code_head _ _ _ FL ltac:(discriminate) _ eq_refl) as (c2 & -> & ->). eauto 6.
      + apply andb_prop in H as [H1 H2]. right.
        destruct (TW f fl eq_refl (or_introl H1) (consumer c) H2 (consumer_op c)) as (b2 & o & k & E1 & E2 & E3). exists b2, o, k. auto.
    - apply andb_prop in H as [H1 H2]. apply cls_eqb_eq in H1. subst c. apply orb_prop in H2 as [H|H].
      + left. cbn in H. destruct f as [[]| | | | | | | | | | |]; try discriminate.
        destruct (code_head _ _ _ FL ltac:(discriminate) _ eq_refl) as (c2 & -> & ->). eauto 6.
      + cbn [can_fold_for_store] in H. apply andb_prop in H as [H1 H2]. right.
        destruct (TW f fl eq_refl (or_intror H1) is_store H2) as (b2 & o & k & E1 & E2 & E3).
        { intros g. destruct g as [[]| | | | | | | | | | |]; try discriminate. eauto. }
        exists b2, o, k. auto.
  Qed.

  Lemma chk_op SM ls ts o c' r : chk SM E ls ts (CBasic (BOp o) c') = Some r ->
    exists rest, ts = tops (sop_args o) ++ rest.
  Proof.
    cbn [chk chk_basic]. destruct (fold_safe _ _ _); [|discriminate]. destruct (sop_ok o); [|discriminate].
    destruct (pop_ts (tops (sop_args o)) ts) eqn:K; [|discriminate]. intros _. apply pop_ts_inv in K. eauto.
  Qed.
  Lemma valb_of b2 ts ts' : ((exists v, b2 = BConst v) \/ exists n, b2 = BGet n) -> chk_basic E ts b2 = Some ts' ->
    exists c2, ts' = c2 :: ts /\ (is_num c2 = true -> exists t2 ov2, valb b2 t2 ov2 /\ class_of t2 = c2).
  Proof.
    intros [[v ->]|[n ->]] H; cbn [chk_basic] in H.
    - destruct (is_num (val_cls v)) eqn:N; inversion H. eexists. split; [reflexivity|]. intros _.
      exists (vt_of_cls (val_cls v)), (OConst v). rewrite class_vt. split; [now constructor|reflexivity].
    - destruct (Nat.ltb n (nlocals E)) eqn:LT; inversion H. apply Nat.ltb_lt in LT. eexists. split; [reflexivity|]. intros N.
      exists (ltype E n), (OLoc (u16 n)). split; [now constructor|reflexivity].
  Qed.

  Lemma val_macro SM ls X P Q L pc b t ov c' k kf pf r ts outer : valb b t ov ->
    loc E P Q L X k pc (CBasic b c') kf pf -> k_pend k = [] -> ainv nl (k_al k) (ts ++ outer) ->
    chk SM E ls ts (CBasic b c') = Some r -> macro SM ls X P Q L pc (CBasic b c') k kf pf r ts outer.
  Proof.
    intros V Lc Pd HI HC. cbn [chk] in HC. destruct (fold_safe E b c') eqn:FS; [|discriminate].
    rewrite (valb_chk _ _ _ _ V) in HC. cbn [loc] in Lc. rewrite (valb_dec _ _ _ _ _ V) in Lc.
    unfold dec_value in Lc. destruct (al_push_ok nl _ _ t HI) as (B1 & B2 & B3).
    destruct (al_push (k_al k) t) as [a rg] eqn:PU. cbn [fst snd] in *. rewrite Pd in Lc.
    destruct (folds (class_of t) (flatten c' ++ [FEnd])) eqn:FO.
    - cbn [fst snd all_at length] in Lc. rewrite Nat.add_0_r in Lc. destruct Lc as [_ Lc].
      destruct (folds_inv _ _ FO) as [(o & k2 & -> & K)|(b2 & o & k2 & -> & K1 & K2)].
      + (* the next operator takes it *)
        destruct (chk_op _ _ _ _ _ _ HC) as [rest HT].
        assert (S : exists w, tops (sop_args o) = class_of t :: w /\
                  forall ns, length ns = length (sop_args o) -> srcs_of o ns [(class_of t, ov)] = (ov :: map OReg (tl ns), [])).
        { destruct K as [K|[K1 K2]].
          - apply consumer_inv in K as [(o1 & -> & Co)|(o2 & -> & Co)].
            + exists []. cbn. rewrite Co. split; [reflexivity|]. intros [|n1 [|]]; cbn; try discriminate. now rewrite cls_eqb_refl.
            + exists [class_of t]. cbn. rewrite Co. split; [reflexivity|]. intros [|n1 [|n2 [|]]]; cbn; try discriminate.
              now rewrite cls_eqb_refl.
          - destruct o; try discriminate. exists []. cbn. rewrite K1. split; [reflexivity|].
            intros [|n1 [|]]; cbn; try discriminate. reflexivity. }
        destruct S as (w & Sw & HS). rewrite Sw in HT. cbn [app] in HT. inversion HT; subst ts.
        assert (HT2 : class_of t :: w ++ rest = tops (sop_args o) ++ rest) by (rewrite Sw; reflexivity).
        rewrite HT2 in HC. rewrite app_comm_cons, HT2, <- app_assoc in B1.
        eapply (op_after SM ls X P Q L pc o k2 _ k [b] [] (CS a [(class_of t, ov)]) kf pf r (w ++ rest) rest outer
                  (fun ns => ov :: map OReg (tl ns))); eauto.
        * exact I.
        * cbn [length]. rewrite Nat.add_0_r. exact Lc.
        * cbn [k_al]. intros Ft d stk stko x D Ls. rewrite app_length in Ls.
          destruct (valb_sem _ _ _ _ _ _ _ V D) as (v & R1 & R2 & R3).
          set (s1 := firstn (length w) stk). set (s2 := skipn (length w) stk).
          assert (Es : stk = s1 ++ s2) by (unfold s1, s2; now rewrite firstn_skipn).
          assert (L1 : length s1 = length w) by (unfold s1; rewrite firstn_length; lia).
          rewrite Es, <- !app_assoc in D.
          exists d, (v :: s1), s2. split; [cbn [bexecs]; rewrite R3, Es; reflexivity|]. split; [reflexivity|].
          split; [eapply dinv_split; eauto|]. split; [rewrite Es, app_length in Ls; lia|].
          rewrite Sw. cbn [slots map tl reads]. split; [exact R1|]. apply slots_reads.
          exact (proj1 (proj2 (hold_app _ _ _ _ _ (v_hold _ _ _ _ D) L1))).
      + (* another operand first *)
        cbn [chk] in HC. destruct (fold_safe E b2 (CBasic (BOp o) k2)) eqn:FS2; [|discriminate].
        destruct (chk_basic E (class_of t :: ts) b2) as [ts'|] eqn:CB; [|discriminate].
        destruct (valb_of _ _ _ K1 CB) as (c2 & -> & VB).
        fold (chk SM E ls (c2 :: class_of t :: ts) (CBasic (BOp o) k2)) in HC.
        destruct (chk_op _ _ _ _ _ _ HC) as [rest HT].
        destruct K2 as [K2|[K2 K3]].
        * (* binary operation *)
          apply consumer_inv in K2 as [(o1 & -> & Co)|(o2 & -> & Co)].
          { exfalso. unfold fold_safe in FS. rewrite (valb_cls _ _ _ V) in FS.
            assert (value_cls E b2 <> None) by (destruct K1 as [[? ->]|[? ->]]; discriminate).
            destruct (value_cls E b2); [|congruence].
            unfold folds in FO. cbn [flatten app can_fold consumer] in FO.
            assert (CN : consumer (class_of t) (FBasic (BOp (SNum1 o1))) = false) by (destruct (consumer (class_of t) (FBasic (BOp (SNum1 o1)))); [discriminate|reflexivity]).
            (* the fold must come from the unary operator *)
            rewrite Bool.negb_true_iff in FS. clear CN.
            destruct K1 as [[v0 ->]|[n0 ->]]; cbn [flatten app hd_is is_const is_get consumer can_fold can_fold_for_load can_fold_for_store is_load is_store] in FO;
              unfold consumer in FS; rewrite FS in FO; rewrite ?andb_false_r in FO; discriminate. }
          cbn [sop_args] in HT. unfold tops in HT. cbn [map rev app] in HT. rewrite Co in HT. inversion HT; subst c2 ts. clear HT.
          destruct VB as (t2 & ov2 & V2 & Ct2). { eapply valb_num; eauto. }
          cbn [loc] in Lc. rewrite (valb_dec _ _ _ _ _ V2) in Lc. unfold dec_value in Lc.
          destruct (al_push_ok nl _ _ t2 B1) as (D1 & D2 & D3). cbn [k_al k_pend] in Lc.
          destruct (al_push a t2) as [a2 rg2] eqn:PU2. cbn [fst snd] in *. rewrite Ct2 in Lc.
          assert (FT : folds (class_of t) (flatten (CBasic (BOp (SNum2 o2)) k2) ++ [FEnd]) = true).
          { unfold folds. cbn [flatten app can_fold consumer]. now rewrite Co, cls_eqb_refl. }
          rewrite FT in Lc. cbn [fst snd all_at length] in Lc. rewrite Nat.add_0_r in Lc. destruct Lc as [_ Lc].
          rewrite Ct2 in D1.
          assert (TP : tops (sop_args (SNum2 o2)) = [class_of t; class_of t]) by (unfold tops; cbn; now rewrite Co).
          eapply (op_after SM ls X P Q L pc (SNum2 o2) k2 _ k [b; b2] [] (CS a2 [(class_of t, ov2); (class_of t, ov)]) kf pf r rest rest outer
                  (fun ns => [ov2; ov])); eauto.
          -- exact I.
          -- cbn [k_al]. eapply mle_trans; eauto.
          -- cbn [length]. rewrite Nat.add_0_r. exact Lc.
          -- rewrite TP. exact D1.
          -- cbn [k_pend]. intros [|n1 [|n2 [|]]]; cbn; try discriminate. rewrite Co, cls_eqb_refl. cbn. now rewrite cls_eqb_refl.
          -- rewrite TP. exact HC.
          -- cbn [k_al]. intros Ft d stk stko x D Ls.
             destruct (valb_sem _ _ _ _ _ _ _ V D) as (v & R1 & R2 & R3).
             destruct (valb_sem _ _ _ _ _ _ _ V2 D) as (v2 & S1 & S2 & S3). rewrite Ct2 in S1.
             exists d, [v2; v], stk. split; [cbn [bexecs]; rewrite R3, S3; reflexivity|]. split; [reflexivity|].
             split; [exact D|]. split; [exact Ls|]. rewrite TP. cbn [reads]. auto.
        * (* store *)
          destruct o; try discriminate. rewrite K2 in *.
          assert (TP : tops (sop_args (SStore op off)) = [store_cls op; CI32]) by (unfold tops; cbn; now rewrite class_vt).
          rewrite TP in HT. cbn [app] in HT. inversion HT; subst c2 ts. clear HT.
          destruct VB as (t2 & ov2 & V2 & Ct2). { now destruct op. }
          cbn [loc] in Lc. rewrite (valb_dec _ _ _ _ _ V2) in Lc. unfold dec_value in Lc.
          destruct (al_push_ok nl _ _ t2 B1) as (D1 & D2 & D3). cbn [k_al k_pend] in Lc.
          destruct (al_push a t2) as [a2 rg2] eqn:PU2. cbn [fst snd] in *. rewrite Ct2 in *.
          assert (FT : folds (store_cls op) (flatten (CBasic (BOp (SStore op off)) k2) ++ [FEnd]) = false).
          { unfold folds. cbn. now rewrite andb_false_r. }
          rewrite FT in Lc. cbn [fst snd all_at length] in Lc. destruct Lc as [[Li _] Lc].
          eapply (op_after SM ls X P Q L pc (SStore op off) k2 _ k [b; b2] [IMov (store_cls op) (DReg (r_idx rg2)) ov2] (CS a2 [(CI32, ov)]) kf pf r rest rest outer
                  (fun ns => [OReg (hd 0 ns); ov])); eauto.
          -- cbn. auto.
          -- cbn [k_al]. eapply mle_trans; eauto.
          -- rewrite TP. exact D1.
          -- cbn [k_pend]. intros [|n1 [|n2 [|]]]; cbn; try discriminate. reflexivity.
          -- rewrite TP. exact HC.
          -- cbn [k_al]. intros Ft d stk stko x D Ls.
             destruct (valb_sem _ _ _ _ _ _ _ V D) as (v & R1 & R2 & R3). rewrite K2 in R1.
             destruct (valb_sem _ _ _ _ _ _ _ V2 D) as (v2 & S1 & S2 & S3). rewrite Ct2 in S1, S2.
             destruct (D3 W HW Ft) as [-> Lt]. cbn [r_idx] in *.
             destruct (dinv_above d _ _ _ (store_cls op) v2 (nl (store_cls op) + cnt (store_cls op) (CI32 :: rest ++ outer)) D) as (d' & W1 & W2 & W3 & W4).
             { rewrite cnt_cons. lia. }
             { exact Lt. }
             exists d', [v2; v], stk. split; [cbn [bexecs]; rewrite R3, S3; reflexivity|].
             split; [cbn [dsteps dstep]; rewrite S1; cbn [bind]; rewrite W1; reflexivity|].
             split; [exact W2|]. split; [exact Ls|]. rewrite TP. cbn [slots map hd reads r_idx]. split; [exact W3|]. split; [|exact I].
             rewrite <- R1, <- K2. eapply valb_read_keep; eauto.
    - cbn [fst snd all_at length] in Lc. destruct Lc as [[Li _] Lc].
      exists [b], c', [IMov (class_of t) (DReg (r_idx rg)) ov], (CS a []), (class_of t :: ts).
      split; [reflexivity|]. split; [cbn [csize]; lia|]. split; [cbn; auto|]. split.
      { cbn [length]. destruct c'; try (destruct Lc as [_ Lc]); exact Lc. }
      split; [exact HC|]. split; [reflexivity|]. split; [exact B1|]. split; [exact B2|].
      intros Ft d stk stko x D Ls. destruct (valb_sem _ _ _ _ _ _ _ V D) as (v & R1 & R2 & R3).
      destruct (B3 W HW Ft) as [-> Lt]. cbn [r_idx].
      destruct (dinv_push _ _ _ _ (class_of t) v _ D R2 eq_refl Lt) as (d' & W1 & W2).
      exists (Ok (v :: stk, x)). split; [cbn [bexecs]; now rewrite R3|].
      exists d'. split; [cbn [dsteps dstep]; rewrite R1; cbn [bind]; rewrite W1; reflexivity|].
      split; [exact W2|]. split; [cbn; congruence|reflexivity].
  Qed.

  Lemma single SM ls X P Q L pc b c' k kf pf r ts outer is k1 ts1 :
    loc E P Q L X k pc (CBasic b c') kf pf -> chk SM E ls ts (CBasic b c') = Some r ->
    dec_basic E b (flatten c' ++ [FEnd]) k = Some (is, k1, false) ->
    chk_basic E ts b = Some ts1 -> k_pend k1 = [] -> ainv nl (k_al k1) (ts1 ++ outer) -> mle (k_al k) (k_al k1) ->
    (fits W (k_al k1) -> run_ok [b] is ts ts1 outer) ->
    macro SM ls X P Q L pc (CBasic b c') k kf pf r ts outer.
  Proof.
    intros Lc HC D CB P1 A1 M R. cbn [chk] in HC. destruct (fold_safe E b c'); [|discriminate]. rewrite CB in HC.
    cbn [loc] in Lc. rewrite D in Lc. destruct Lc as [A Lc].
    exists [b], c', is, k1, ts1. split; [reflexivity|]. split; [cbn [csize]; lia|]. split; [exact A|].
    split; [destruct c'; try (destruct Lc as [_ Lc]); exact Lc|]. auto 10.
  Qed.

  Theorem basic_macro SM ls X P Q L pc b c' k kf pf r ts outer :
    loc E P Q L X k pc (CBasic b c') kf pf -> k_pend k = [] -> ainv nl (k_al k) (ts ++ outer) ->
    chk SM E ls ts (CBasic b c') = Some r -> macro SM ls X P Q L pc (CBasic b c') k kf pf r ts outer.
  Proof.
    intros Lc Pd HI HC.
    destruct (chk_basic E ts b) as [ts1|] eqn:CB.
    2:{ cbn [chk] in HC. rewrite CB in HC. destruct (fold_safe E b c'); discriminate. }
    destruct (dec_basic E b (flatten c' ++ [FEnd]) k) as [[[is k1] sk]|] eqn:DB.
    2:{ cbn [loc] in Lc. rewrite DB in Lc. tauto. }
    destruct b.
    - (* const *)
      cbn in CB. destruct (is_num (val_cls v)) eqn:N; [|discriminate].
      eapply val_macro; eauto. now constructor.
    - (* get *)
      cbn [chk_basic] in CB. destruct (Nat.ltb n (nlocals E)) eqn:LT; [|discriminate]. pose proof LT as LT'. apply Nat.ltb_lt in LT.
      destruct (is_num (class_of (ltype E n))) eqn:N.
      { eapply val_macro; eauto. now constructor. }
      pose proof DB as DB0. cbn [dec_basic] in DB. destruct (class_of (ltype E n)) eqn:CE; try discriminate.
      inversion CB; subst ts1. destruct (al_push_ok nl _ _ (ltype E n) HI) as (B1 & B2 & B3).
      destruct (al_push (k_al k) (ltype E n)) as [a rg]. cbn [fst snd] in *. inversion DB; subst is k1 sk. rewrite CE in *.
      eapply single; [exact Lc|exact HC|exact DB0|cbn [chk_basic]; rewrite LT', CE; reflexivity|exact Pd|exact B1|exact B2|].
      intros Ft d stk stko x D Ls. destruct (loc_at _ _ _ _ _ D LT) as (v & Nv & Cv & U & Lx).
      destruct (B3 W HW Ft) as [-> Lw]. cbn [r_idx]. rewrite CE in Cv. destruct v as [| | | |rf|]; try discriminate.
      destruct (dinv_push _ _ _ _ CRef (VRef rf) _ D eq_refl eq_refl Lw) as (d' & W1 & W2).
      exists (Ok (VRef rf :: stk, x)). split; [cbn [bexecs bexec]; now rewrite Nv|].
      exists d'. split; [cbn [dsteps dstep]; rewrite U, (v_loc _ _ _ _ D), Nv, W1; reflexivity|].
      split; [exact W2|]. split; [cbn; congruence|reflexivity].
    - (* set *)
      pose proof CB as CB0. cbn [chk_basic] in CB. destruct (Nat.ltb n (nlocals E)) eqn:LT; [|discriminate]. apply Nat.ltb_lt in LT.
      apply pop_ts_inv in CB. subst ts. cbn [app] in HI.
      destruct (al_pop_ok nl _ _ _ HI) as (B1 & B2 & _). pose proof DB as DB0. cbn [dec_basic] in DB.
      pose proof (al_pop_max (k_al k) (ltype E n)) as MX.
      destruct (al_pop (k_al k) (ltype E n)) as [a rg] eqn:PO. cbn [fst snd] in *.
      assert (M : mle (k_al k) a) by (intros c; rewrite MX; apply le_n).
      assert (Ft0 : fits W a -> fits W (k_al k)) by (intros F c; rewrite <- MX; apply F).
      assert (Dy : forall i, fits W a ->
                (forall d v, rf_get (d_rf d) (class_of (ltype E n)) (r_idx rg) = Ok v ->
                   dstep hf i d = Some (write d (class_of (ltype E n)) (DLoc (u16 n)) v)) ->
                run_ok [BSet n] [i] (class_of (ltype E n) :: ts1) ts1 outer).
      { intros i Ft Hi d [|v stk] stko x D Ls; [discriminate|]. cbn [app] in D.
        pose proof (v_hold _ _ _ _ D) as (Cv & G & _). pose proof (dinv_split d [_] _ [_] _ _ D eq_refl) as D'.
        destruct (loc_at _ _ _ _ _ D LT) as (w & Nw & Cw & U & Lx).
        destruct (dinv_local _ _ _ _ v n D' LT Cv (class_of (ltype E n))) as (d' & W1 & W2).
        eexists. split; [cbn [bexecs bexec]; destruct (Nat.ltb_spec n (length (x_loc x))); [reflexivity|lia]|].
        exists d'. split; [cbn [dsteps]; erewrite Hi; [rewrite W1; reflexivity|]|].
        { rewrite (B2 W HW (Ft0 Ft)). cbn [r_idx]. exact G. }
        split; [exact W2|]. split; [cbn in Ls; congruence|reflexivity]. }
      destruct (class_of (ltype E n)) eqn:CE; try discriminate; inversion DB; subst is k1 sk;
        (eapply single; [exact Lc|exact HC|exact DB0|exact CB0|exact Pd|exact B1|exact M|]); intros Ft; apply Dy; auto;
        intros d v G; cbn [dstep read]; rewrite G; reflexivity.
    - (* tee *)
      pose proof CB as CB0. cbn [chk_basic] in CB. destruct (Nat.ltb n (nlocals E)) eqn:LT; [|discriminate]. apply Nat.ltb_lt in LT.
      destruct (pop_ts [class_of (ltype E n)] ts) as [ts2|] eqn:PT; [|discriminate]. inversion CB; subst ts1; clear CB.
      apply pop_ts_inv in PT. subst ts. cbn [app] in HI |- *.
      destruct (al_pop_ok nl _ _ _ HI) as (B1 & B2 & B4). pose proof DB as DB0. cbn [dec_basic] in DB.
      rewrite B4 in DB. set (rg := snd (al_pop (k_al k) (ltype E n))) in *. clearbody rg.
      assert (Dy : forall i, fits W (k_al k) ->
                (forall d v, rf_get (d_rf d) (class_of (ltype E n)) (r_idx rg) = Ok v ->
                   dstep hf i d = Some (write d (class_of (ltype E n)) (DLoc (u16 n)) v)) ->
                run_ok [BTee n] [i] (class_of (ltype E n) :: ts2) (class_of (ltype E n) :: ts2) outer).
      { intros i Ft Hi d [|v stk] stko x D Ls; [discriminate|].
        pose proof (v_hold _ _ _ _ D) as (Cv & G & _).
        destruct (loc_at _ _ _ _ _ D LT) as (w & Nw & Cw & U & Lx).
        destruct (dinv_local _ _ _ _ v n D LT Cv (class_of (ltype E n))) as (d' & W1 & W2).
        eexists. split; [cbn [bexecs bexec]; destruct (Nat.ltb_spec n (length (x_loc x))); [reflexivity|lia]|].
        exists d'. split; [cbn [dsteps]; erewrite Hi; [rewrite W1; reflexivity|]|].
        { rewrite (B2 W HW Ft). cbn [r_idx]. exact G. }
        split; [exact W2|]. split; [exact Ls|reflexivity]. }
      destruct (class_of (ltype E n)) eqn:CE; try discriminate; inversion DB; subst is k1 sk;
        (eapply single; [exact Lc|exact HC|exact DB0|exact CB0|exact Pd|exact HI|apply mle_refl|]); intros Ft; apply Dy; auto;
        intros d v G; cbn [dstep read]; rewrite G; reflexivity.
    - (* drop *)
      pose proof CB as CB0. cbn [chk_basic] in CB. destruct ts as [|c ts]; [discriminate|]. inversion CB; subst ts1; clear CB.
      cbn [app] in HI. destruct (al_pop_any_ok nl _ _ _ HI) as (B1 & B2). pose proof DB as DB0. cbn in DB. inversion DB; subst is k1 sk.
      eapply single; [exact Lc|exact HC|exact DB0|exact CB0|exact Pd|exact B1|intros c'0; cbn [k_al]; rewrite B2; apply le_n|].
      intros Ft d [|v stk] stko x D Ls; [discriminate|]. cbn [app] in D.
      eexists. split; [reflexivity|]. exists d. split; [reflexivity|]. split; [exact (dinv_split d [_] _ [_] _ _ D eq_refl)|].
      split; [cbn in Ls; congruence|reflexivity].
    - (* nop *)
      pose proof CB as CB0. cbn in CB. inversion CB; subst ts1. pose proof DB as DB0. cbn in DB. inversion DB; subst is k1 sk.
      eapply single; [exact Lc|exact HC|exact DB0|exact CB0|exact Pd|exact HI|apply mle_refl|].
      intros Ft d stk stko x D Ls. eexists. split; [reflexivity|]. exists d. split; [reflexivity|]. auto.
    - (* select *)
      pose proof CB as CB0. cbn [chk_basic] in CB. destruct ts as [|[] [|c [|c2 ts]]]; try discriminate.
      destruct (cls_eqb c c2 && is_num c && match t with Some u => cls_eqb (class_of u) c | None => true end) eqn:K; [|discriminate].
      inversion CB; subst ts1; clear CB. apply andb_prop in K as [K K3]. apply andb_prop in K as [K1 K2]. apply cls_eqb_eq in K1. subst c2.
      cbn [app] in HI. destruct (al_pop_ok nl _ _ TI32 HI) as (B1 & B2 & _). pose proof DB as DB0. cbn [dec_basic] in DB.
      pose proof (al_pop_max (k_al k) TI32) as MX1.
      destruct (al_pop (k_al k) TI32) as [a1 rc] eqn:PO. cbn [fst snd] in *.
      assert (CU : class_of (select_type a1 t) = c).
      { unfold select_type. destruct t as [u|]; [now apply cls_eqb_eq in K3|].
        unfold al_peek_type. destruct B1 as (B1 & _). destruct (al_ts a1) as [|u us]; [discriminate|]. cbn in *. congruence. }
      assert (SC : select_cls t (select_type a1 t) = Some c).
      { unfold select_cls. rewrite CU. destruct c; try discriminate; reflexivity. }
      rewrite SC in DB. set (u := select_type a1 t) in *. rewrite <- CU in B1.
      destruct (al_pop_ok nl _ _ u B1) as (C1 & C2 & _). pose proof (al_pop_max a1 u) as MX2.
      destruct (al_pop a1 u) as [a2 r2] eqn:PO2. cbn [fst snd] in *.
      destruct (al_pop_ok nl _ _ u C1) as (D1 & D2 & _). pose proof (al_pop_max a2 u) as MX3.
      destruct (al_pop a2 u) as [a3 r1] eqn:PO3. cbn [fst snd] in *.
      destruct (al_push_ok nl _ _ u D1) as (F1 & F2 & F3). destruct (al_push a3 u) as [a4 rd] eqn:PU. cbn [fst snd] in *.
      inversion DB; subst is k1 sk. rewrite CU in *.
      eapply single; [exact Lc|exact HC|exact DB0|exact CB0|exact Pd|exact F1| |].
      { intros c0. cbn [k_al]. rewrite <- MX1, <- MX2, <- MX3. apply F2. }
      intros Ft d [|vc [|v2 [|v1 stk]]] stko x D Ls; try discriminate. cbn [app] in D.
      cbn [k_al] in Ft.
      assert (Ft3 : fits W a3) by (eapply fits_mle; eauto).
      assert (Ft2 : fits W a2) by (intros c0; rewrite <- MX3; apply Ft3).
      assert (Ft1 : fits W a1) by (intros c0; rewrite <- MX2; apply Ft2).
      assert (Ft0 : fits W (k_al k)) by (intros c0; rewrite <- MX1; apply Ft1).
      pose proof (v_hold _ _ _ _ D) as (X1 & X2 & Y1 & Y2 & Z1 & Z2 & _).
      destruct vc; try discriminate. rewrite (B2 W HW Ft0), (C2 W HW Ft1), (D2 W HW Ft2), (proj1 (F3 W HW Ft)). cbn [r_idx].
      pose proof (dinv_split d [_; _; _] _ [_; _; _] _ _ D eq_refl) as D'.
      set (v := if negb (Z.eqb z 0) then v1 else v2).
      destruct (dinv_push _ _ _ _ c v _ D' ltac:(unfold v; now destruct (negb _)) eq_refl (proj2 (F3 W HW Ft))) as (d' & W1 & W2).
      exists (Ok (v :: stk, x)). split; [reflexivity|]. exists d'. split.
      { cbn [dsteps dstep]. unfold do_select. cbn [class_of] in *. rewrite X2. cbn [bind payload].
        replace (rf_get (d_rf d) c (if Z.eqb z 0 then nl c + cnt c (c :: ts ++ outer) else nl c + cnt c (ts ++ outer))) with (Ok v).
        - cbn [bind]. cbn [write] in W1. destruct (rf_set _ _ _ _); cbn in *; try discriminate. inversion W1; subst d'. reflexivity.
        - unfold v. destruct (Z.eqb z 0); cbn [negb]; auto. }
      split; [exact W2|]. split; [cbn in Ls |- *; congruence|reflexivity].
    - (* operation *)
      destruct (chk_op _ _ _ _ _ _ HC) as [rest ->].
      eapply (op_after SM ls X P Q L pc o c' _ k [] [] k kf pf r _ rest outer (map OReg)); eauto.
      + exact I.
      + apply mle_refl.
      + cbn [length]. now rewrite Nat.add_0_r.
      + now rewrite <- app_assoc in HI.
      + intros ns Ln. rewrite Pd. now apply srcs_plain.
      + intros Ft d stk stko x D Ls. rewrite app_length in Ls.
        set (n := length (tops (sop_args o))) in *.
        assert (Es : stk = firstn n stk ++ skipn n stk) by now rewrite firstn_skipn.
        assert (L1 : length (firstn n stk) = length (tops (sop_args o))) by (rewrite firstn_length; fold n; lia).
        rewrite Es, <- !app_assoc in D.
        exists d, (firstn n stk), (skipn n stk). split; [cbn [bexecs]; now rewrite <- Es|]. split; [reflexivity|].
        split; [eapply dinv_split; eauto|]. split; [rewrite skipn_length; lia|].
        apply slots_reads. exact (proj1 (proj2 (hold_app _ _ _ _ _ (v_hold _ _ _ _ D) L1))).
  Qed.
End Frame.
