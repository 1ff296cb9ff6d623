(** The translated code, run by the machine, does what the stack semantics says.
    Proof device for Properties_Exec.v (no modelled code). *)
From Coq Require Import ZArith List Bool Lia.
From Verif Require Import Word Value Numeric Float Mem MemProofs Store StoreProofs Regs IR Machine Wasm Decoder Check RegsProofs Loc DecodeProofs BasicSim.
Import ListNotations.
Open Scope nat_scope.

(** ** how a call finds its callee's type *)
Lemma call_info_aux fs : imports_first fs = true -> forall f,
  match nth_error fs f with
  | Some (SWasi w t) => nth_error (wasi_imports fs) f = Some (ImWasi w t)
  | Some (SWasm d) => length (wasi_imports fs) <= f /\ nth (f - length (wasi_imports fs)) (defined_types fs) ([], []) = sf_type d
  | None => True
  end.
Proof.
  induction fs as [|g fs IH]; intros H [|f]; cbn [nth_error]; try exact I.
  - destruct g; cbn; [|reflexivity]. cbn in H.
    assert (W : wasi_imports fs = []).
    { clear IH. induction fs as [|[] fs IH]; cbn in *; try discriminate; auto. }
    unfold wasi_imports in W. rewrite W. cbn. auto.
  - destruct g as [d0|w0 t0].
    + cbn [imports_first] in H. change (forallb (fun f0 => match f0 with SWasi _ _ => false | SWasm _ => true end) fs = true) in H.
      assert (IF : imports_first fs = true).
      { clear IH. destruct fs as [|[] fs]; cbn in *; try discriminate; auto. }
      assert (W : wasi_imports fs = []).
      { clear IH IF. induction fs as [|[] fs IH]; cbn in *; try discriminate; auto. }
      specialize (IH IF f). cbn [wasi_imports flat_map app]. fold (wasi_imports fs). rewrite W in *. cbn [length] in *.
      destruct (nth_error fs f) as [[d|w t]|]; auto.
      * rewrite Nat.sub_0_r in *. cbn. split; [lia|apply IH].
      * now destruct f.
    + cbn [imports_first] in H. specialize (IH H f). destruct (nth_error fs f) as [[d|w t]|]; auto.
      cbn. fold (wasi_imports fs). fold (defined_types fs). destruct IH. split; [lia|auto].
Qed.
Lemma call_info_ok SM f fn : imports_first (sm_funcs SM) = true -> nth_error (sm_funcs SM) f = Some fn ->
  call_info (src_of SM) f = match fn with SWasi w t => CIWasi w t | SWasm d => CIFunc (sf_type d) end.
Proof.
  intros H N. pose proof (call_info_aux _ H f) as A. rewrite N in A. unfold call_info. cbn [ms_nimp src_of ms_imports ms_functys].
  destruct fn as [d|w t].
  - destruct A as [A B]. destruct (Nat.ltb_spec f (length (wasi_imports (sm_funcs SM)))); [lia|]. now rewrite B.
  - destruct (Nat.ltb_spec f (length (wasi_imports (sm_funcs SM)))) as [_|C]; [now rewrite A|].
    apply nth_error_None in C. congruence.
Qed.

(** ** opening and closing a block *)
Lemma open_ok nl a lp ps rs rest : ainv nl a (tops ps ++ rest) ->
  let '(a1, s, b) := open_block a lp ps rs in
  ainv nl a1 (tops ps ++ rest) /\ mle a a1 /\ cb_loop b = lp /\
  (forall a2 ts, mle a1 a2 -> (exists j, map class_of (al_ts a2) = j ++ rest) ->
     let a3 := fst (al_pushes (al_restore a2 s) ts) in ainv nl a3 (tops ts ++ rest) /\ mle a2 a3) /\
  (forall W, W16 W -> (forall c, nl c + cnt c (tops rs ++ rest) <= W c) -> cb_regs b = rev (slots nl (tops rs) rest)).
Proof.
  intros H. unfold open_block. rewrite <- tops_rev in H. destruct (al_pops_ok _ _ _ _ H) as [A1 A2].
  set (a0 := al_pops a (rev ps)) in *. destruct (al_pushes_ok nl ps a0 rest A1) as [B1 _]. pose proof (al_pushes_mle ps a0) as M.
  split; [exact B1|]. split; [intros c; rewrite <- A2; apply M|]. split; [reflexivity|]. split.
  - intros a2 ts M2 (j & J). pose proof A1 as (E1 & E2 & E3).
    assert (R : ainv nl (al_restore a2 (al_save a0)) rest).
    { eapply al_restore_ok; [exact J| | |]; cbn [al_save as_d as_len].
      - now rewrite <- E1, map_length.
      - exact E2.
      - intros c. specialize (E3 c). specialize (M c). specialize (M2 c). lia. }
    cbn zeta. split; [exact (proj1 (al_pushes_ok nl ts _ _ R))|].
    intros c. change (sget (al_max a2) c) with (sget (al_max (al_restore a2 (al_save a0))) c). apply al_pushes_mle.
  - intros W K F. cbn [cb_regs]. eapply number_regs_ok; [exact K| |exact F]. apply A1.
Qed.

Section Static.
  Variable SM : smodule.
  Variable fd0 : sfdef.
  Notation E := (env_of SM fd0).
  Notation nl := (nl E).
  Hypothesis HL : (Z.of_nat (nlocals E) <= 65536)%Z.
  Hypothesis HI : imports_first (sm_funcs SM) = true.
  Variable P : nat -> instr -> Prop.
  Variable Q : nat -> nat -> option nat -> Prop.
  Variable L : nat.

  Definition ends (a : alloc) (r : option (list cls)) (outer : list cls) : Prop :=
    match r with
    | Some ts => ainv nl a (ts ++ outer)
    | None => exists j, map class_of (al_ts a) = j ++ outer
    end.
  Lemma ends_j a r outer : ends a r outer -> exists j, map class_of (al_ts a) = j ++ outer.
  Proof. destruct r; cbn; auto. intros (H & _). eauto. Qed.
  Lemma block_end_inv (r : option (option (list cls))) rs :
    match r with None => false | Some None => true | Some (Some ts) => cls_list_eqb ts rs end = true ->
    exists r', r = Some r' /\ (r' = None \/ r' = Some rs).
  Proof. destruct r as [[ts|]|]; try discriminate; intros H; eexists; split; eauto. right. now rewrite (cls_list_eqb_inv _ _ H). Qed.
  Lemma call_regs_ok a ps rs rest : ainv nl a (tops ps ++ rest) ->
    let '(a1, prs, rrs) := call_regs a ps rs in
    ainv nl a1 (tops rs ++ rest) /\ mle a a1 /\
    (forall W, W16 W -> fits W a1 -> prs = rev (slots nl (tops ps) rest) /\ rrs = rev (slots nl (tops rs) rest) /\
                                     Forall (fun r => r_idx r < W (r_cls r)) rrs).
  Proof.
    intros H. unfold call_regs. rewrite <- tops_rev in H. destruct (call_params_ok nl _ _ _ [] H) as (A1 & A2 & A3).
    destruct (call_params a (rev ps) []) as [a1 prs]. cbn [fst snd] in *.
    destruct (al_pushes_ok nl rs _ _ A1) as (B1 & B2). pose proof (al_pushes_mle rs a1) as M.
    destruct (al_pushes a1 rs) as [a2 rrs]. cbn [fst snd] in *. split; [exact B1|].
    assert (M' : mle a a2) by (intros c; rewrite <- A2; apply M). split; [exact M'|].
    intros W K F. destruct (B2 W K F) as [-> B3]. rewrite (A3 W K (fits_mle _ _ _ M' F)), app_nil_r, tops_rev. auto.
  Qed.

  Lemma static : forall n c, csize c <= n -> forall X k pc kf pf ls ts outer r,
    loc E P Q L X k pc c kf pf -> k_pend k = [] -> ainv nl (k_al k) (ts ++ outer) -> chk SM E ls ts c = Some r ->
    mle (k_al k) (k_al kf) /\ k_pend kf = [] /\ pc <= pf /\ ends (k_al kf) r outer.
  Proof.
    induction n as [|n IH]; intros c Sz X k pc kf pf ls ts outer r Lc Pd HA HC; [destruct c; cbn [csize] in Sz; lia|].
    destruct c; cbn [csize] in Sz.
    - (* nil *) cbn in Lc, HC. destruct Lc as [-> ->]. inversion HC; subst. split; [apply mle_refl|]. cbn. auto.
    - (* basic *)
      assert (W0 : W16 (fun _ => 0)) by (intros c0; cbn; lia).
      destruct (basic_macro {| h_bin := fun _ _ _ _ => 0%Z; h_round := fun _ _ _ => 0%Z; h_of_int := fun _ _ => 0%Z;
                               h_demote := fun _ => 0%Z; h_promote := fun _ => 0%Z |}
                  E (fun _ => 0) (fun _ => []) [] W0 HL SM ls X P Q L pc b c k kf pf r ts outer Lc Pd HA HC)
        as (bl & c2 & is & k1 & ts1 & _ & S2 & _ & Lc2 & HC2 & Pd2 & HA2 & M2 & _).
      cbn [csize] in S2. destruct (IH c2 ltac:(lia) _ _ _ _ _ _ _ _ _ Lc2 Pd2 HA2 HC2) as (A & B & C & D).
      split; [eapply mle_trans; eauto|]. split; [auto|]. split; [lia|auto].
    - (* block *)
      cbn [loc] in Lc. cbn [chk] in HC. destruct (pop_ts (tops ps) ts) as [rest|] eqn:PT; [|discriminate].
      apply pop_ts_inv in PT. subst ts. rewrite <- app_assoc in HA.
      pose proof (open_ok nl (k_al k) is_loop ps rs _ HA) as OB.
      destruct (open_block (k_al k) is_loop ps rs) as [[a1 s] b]. destruct OB as (O1 & O2 & _ & O4 & _).
      destruct Lc as (_ & kb & pe & Lb & _ & _ & Lc).
      match type of HC with (if ?b then _ else _) = _ => destruct b eqn:BE; [|discriminate] end.
      apply block_end_inv in BE. destruct BE as (r' & CB & RR).
      destruct (IH c1 ltac:(lia) _ _ _ _ _ _ _ (rest ++ outer) _ Lb Pd O1 CB) as (A & B & C & D).
      apply ends_j in D. destruct (O4 (k_al kb) rs A D) as [F1 F2].
      destruct (IH c2 ltac:(lia) _ _ _ _ _ _ (tops rs ++ rest) outer _ Lc B ltac:(rewrite <- app_assoc; exact F1) HC) as (A' & B' & C' & D').
      split; [|split; [auto|split; [lia|auto]]]. cbn [k_al with_al] in *. eauto using mle_trans.
    - (* if *)
      cbn [loc] in Lc. cbn [chk] in HC. destruct ts as [|[] ts]; try discriminate.
      destruct (pop_ts (tops ps) ts) as [rest|] eqn:PT; [|discriminate]. apply pop_ts_inv in PT. subst ts.
      cbn [app] in HA. rewrite <- app_assoc in HA. destruct (al_pop_ok nl _ _ TI32 HA) as (G1 & _ & _).
      pose proof (al_pop_max (k_al k) TI32) as G2. destruct (al_pop (k_al k) TI32) as [a0 rc]. cbn [fst] in *.
      pose proof (open_ok nl a0 false ps rs _ G1) as OB.
      destruct (open_block a0 false ps rs) as [[a1 s] b]. destruct OB as (O1 & O2 & _ & O4 & _).
      destruct Lc as (kb & pe & _ & Lb & _ & _ & Lc).
      match type of HC with (if ?b then _ else _) = _ => destruct b eqn:BE; [|discriminate] end.
      apply andb_prop in BE as [_ BE]. apply block_end_inv in BE. destruct BE as (r' & CB & RR).
      destruct (IH c1 ltac:(lia) _ _ _ _ _ _ _ (rest ++ outer) _ Lb Pd O1 CB) as (A & B & C & D).
      apply ends_j in D. destruct (O4 (k_al kb) rs A D) as [F1 F2].
      destruct (IH c2 ltac:(lia) _ _ _ _ _ _ (tops rs ++ rest) outer _ Lc B ltac:(rewrite <- app_assoc; exact F1) HC) as (A' & B' & C' & D').
      split; [|split; [auto|split; [lia|auto]]]. cbn [k_al with_al] in *.
      assert (mle (k_al k) a0) by (intros c0; rewrite G2; apply le_n). eauto using mle_trans.
    - (* if else *)
      cbn [loc] in Lc. cbn [chk] in HC. destruct ts as [|[] ts]; try discriminate.
      destruct (pop_ts (tops ps) ts) as [rest|] eqn:PT; [|discriminate]. apply pop_ts_inv in PT. subst ts.
      cbn [app] in HA. rewrite <- app_assoc in HA. destruct (al_pop_ok nl _ _ TI32 HA) as (G1 & _ & _).
      pose proof (al_pop_max (k_al k) TI32) as G2. destruct (al_pop (k_al k) TI32) as [a0 rc]. cbn [fst] in *.
      pose proof (open_ok nl a0 false ps rs _ G1) as OB.
      destruct (open_block a0 false ps rs) as [[a1 s] b]. destruct OB as (O1 & O2 & _ & O4 & _).
      destruct Lc as (kt & pt & kb & pe & _ & Lt & _ & Lb & _ & _ & _ & Lc).
      match type of HC with (if ?b then _ else _) = _ => destruct b eqn:BE; [|discriminate] end.
      apply andb_prop in BE as [BE1 BE2]. apply block_end_inv in BE1. destruct BE1 as (r1 & CB1 & _).
      apply block_end_inv in BE2. destruct BE2 as (r2 & CB2 & _).
      destruct (IH c1 ltac:(lia) _ _ _ _ _ _ _ (rest ++ outer) _ Lt Pd O1 CB1) as (A & B & C & D).
      apply ends_j in D. destruct (O4 (k_al kt) ps A D) as [F1 F2].
      destruct (IH c2 ltac:(lia) _ _ _ _ _ _ (tops ps) (rest ++ outer) _ Lb B F1 CB2) as (A' & B' & C' & D').
      cbn [k_al with_al] in *. apply ends_j in D'. destruct (O4 (k_al kb) rs ltac:(eauto using mle_trans) D') as [F1' F2'].
      destruct (IH c3 ltac:(lia) _ _ _ _ _ _ (tops rs ++ rest) outer _ Lc B' ltac:(rewrite <- app_assoc; exact F1') HC) as (A2 & B2 & C2 & D2).
      split; [|split; [auto|split; [lia|auto]]]. cbn [k_al with_al] in *.
      assert (mle (k_al k) a0) by (intros c0; rewrite G2; apply le_n). eauto 8 using mle_trans.
    - (* br *)
      cbn [loc] in Lc. cbn [chk] in HC. destruct (br_to L X d). destruct Lc as (_ & -> & [-> _]).
      destruct (nth_error ls d) as [l0|]; [|discriminate]. destruct (pop_ts (lb_types l0) ts); [|discriminate].
      destruct (br_ok _ _ _ _ _); inversion HC. split; [apply mle_refl|]. split; [auto|]. split; [lia|].
      cbn. destruct HA as [HA _]. eauto.
    - (* br_if *)
      cbn [loc] in Lc. cbn [chk] in HC. destruct (br_to L X d). destruct Lc as (_ & Lc).
      destruct ts as [|[] ts]; try discriminate. destruct (nth_error ls d) as [l0|]; [|discriminate].
      destruct (pop_ts (lb_types l0) ts); [|discriminate]. destruct (br_ok _ _ _ _ _); [|discriminate].
      cbn [app] in HA. destruct (al_pop_ok nl _ _ TI32 HA) as (G1 & _ & _).
      destruct (IH c ltac:(lia) _ _ _ _ _ _ _ _ _ Lc Pd G1 HC) as (A & B & C & D).
      split; [exact A|]. split; [auto|]. split; [lia|auto].
    - (* br_table *)
      cbn [loc] in Lc. cbn [chk] in HC. destruct Lc as (_ & -> & [-> _]).
      destruct ts as [|[] ts]; try discriminate. destruct (nth_error ls d) as [l0|]; [|discriminate].
      destruct (pop_ts (lb_types l0) ts); [|discriminate].
      match type of HC with (if ?b then _ else _) = _ => destruct b; inversion HC end. cbn [app] in HA. destruct (al_pop_ok nl _ _ TI32 HA) as ([G1 _] & _ & _).
      split; [intros c0; apply le_n|]. split; [auto|]. split; [lia|]. cbn [ends k_al with_al]. eauto.
    - (* return *)
      cbn [loc] in Lc. cbn [chk] in HC. destruct Lc as (_ & -> & [-> _]).
      destruct (pop_ts (tops (e_results E)) ts) as [rest|] eqn:PT; inversion HC. apply pop_ts_inv in PT. subst ts.
      rewrite <- app_assoc, <- tops_rev in HA. destruct (al_pops_ok nl _ _ _ HA) as [[G1 _] G2].
      split; [intros c0; cbn [k_al with_al]; rewrite G2; apply le_n|]. split; [auto|]. split; [lia|].
      cbn [ends k_al with_al]. eauto.
    - (* unreachable *)
      cbn [loc] in Lc. cbn [chk] in HC. destruct Lc as (_ & -> & [-> _]). inversion HC.
      split; [apply mle_refl|]. split; [auto|]. split; [lia|]. cbn. destruct HA as [HA _]. eauto.
    - (* call *)
      cbn [loc] in Lc. cbn [chk] in HC. destruct (nth_error (sm_funcs SM) f) as [fn|] eqn:Nf; [|discriminate].
      cbn [e_mod env_of] in Lc. rewrite (call_info_ok _ _ _ HI Nf) in Lc.
      destruct (sfunc_type fn) as [ps rs] eqn:FT. destruct (pop_ts (tops ps) ts) as [rest|] eqn:PT; [|discriminate].
      apply pop_ts_inv in PT. subst ts. rewrite <- app_assoc in HA.
      destruct (no_v128 rs && _) eqn:G; [|discriminate]. apply andb_prop in G as [_ G]. apply Nat.leb_le in G.
      destruct fn as [fd|w t]; cbn [sfunc_type] in FT; rewrite FT in Lc.
      + pose proof (call_regs_ok (k_al k) ps rs _ HA) as CR. destruct (call_regs (k_al k) ps rs) as [[a prs] rrs].
        destruct CR as (R1 & R2 & _). destruct Lc as (_ & Lc).
        destruct (IH c ltac:(lia) _ _ _ _ _ _ (tops rs ++ rest) outer _ Lc Pd ltac:(rewrite <- app_assoc; exact R1) HC) as (A & B & C & D).
        split; [eapply mle_trans; eauto|]. split; [auto|]. split; [lia|auto].
      + rewrite <- tops_rev in HA. destruct (al_pops_ok nl _ _ _ HA) as [G1 G2].
        destruct rs as [|t1 [|t2 rs]]; [| |cbn in G; lia]; destruct Lc as (_ & Lc).
        * destruct (IH c ltac:(lia) _ _ _ _ _ _ _ outer _ Lc Pd G1 HC) as (A & B & C & D).
          split; [|split; [auto|split; [lia|auto]]]. intros c0. rewrite <- G2. apply A.
        * destruct (al_push_ok nl _ _ t1 G1) as (U1 & U2 & _).
          destruct (IH c ltac:(lia) _ _ _ _ _ _ (tops [t1] ++ rest) outer _ Lc Pd U1 HC) as (A & B & C & D).
          split; [|split; [auto|split; [lia|auto]]]. intros c0. rewrite <- G2. eapply mle_trans; [exact U2|exact A].
    - (* call_indirect *)
      cbn [loc] in Lc. cbn [chk] in HC. destruct ts as [|[] ts]; try discriminate.
      destruct (nth_error (sm_types SM) ty) as [[ps rs]|] eqn:Nt; [|discriminate].
      unfold type_or_empty in Lc. cbn [e_mod env_of ms_types src_of] in Lc. rewrite Nt in Lc.
      destruct (pop_ts (tops ps) ts) as [rest|] eqn:PT; [|discriminate]. apply pop_ts_inv in PT. subst ts.
      destruct (no_v128 rs && _); [|discriminate]. cbn [app] in HA. rewrite <- app_assoc in HA.
      destruct (al_pop_ok nl _ _ TI32 HA) as (G1 & _ & G3). rewrite G3 in Lc.
      pose proof (call_regs_ok _ ps rs _ G1) as CR. destruct (call_regs (fst (al_pop (k_al k) TI32)) ps rs) as [[a prs] rrs].
      destruct CR as (R1 & R2 & _). destruct Lc as (_ & Lc).
      destruct (IH c ltac:(lia) _ _ _ _ _ _ (tops rs ++ rest) outer _ Lc Pd ltac:(rewrite <- app_assoc; exact R1) HC) as (A & B & C & D).
      split; [eapply mle_trans; [exact R2|exact A]|]. split; [auto|]. split; [lia|auto].
  Qed.
End Static.

(** ** the stack semantics, one instruction at a time *)
Section ExecEq.
  Variable Pr : prims.
  Variable host : hostfn.
  Variable SM : smodule.
  Notation exec := (exec Pr host SM).
  Definition callf (n : nat) (d : sfdef) (args : list val) (x : sst) (k : list val -> sst -> out) : out :=
    match n with
    | O => OFuel
    | S n' =>
        match p_defaults Pr (sf_locals d) with
        | Ok ds => finish (x_loc x) (exec n' [length (snd (sf_type d))] (sf_body d) [] (with_loc x (args ++ ds))) k
        | Trap t => OTrap t (x_log x)
        | UB => OUB
        end
    end.
  Lemma exec_basic n ls b k stk x : exec n ls (CBasic b k) stk x =
    match bexec Pr b stk x with
    | Some r => lift (x_log x) r (fun stk x => exec n ls k stk x)
    | None => OStuck
    end.
  Proof. destruct n; reflexivity. Qed.
  Lemma exec_block n ls lp ps rs body k stk x : exec n ls (CBlock lp ps rs body k) stk x =
    match take (length ps) stk with
    | None => OStuck
    | Some (args, rest) =>
        match exec n ((if lp then length ps else length rs) :: ls) body args x with
        | ONorm vs x => exec n ls k (vs ++ rest) x
        | OBr O vs x =>
            if lp then match n with O => OFuel | S n' => exec n' ls (CBlock lp ps rs body k) (vs ++ rest) x end
            else exec n ls k (vs ++ rest) x
        | OBr (S d) vs x => OBr d vs x
        | o => o
        end
    end.
  Proof. destruct n; reflexivity. Qed.
  Lemma exec_if n ls ps rs th k stk x : exec n ls (CIf ps rs th k) stk x =
    match stk with
    | c :: stk =>
        match is_true c, take (length ps) stk with
        | Some b, Some (args, rest) =>
            if b then
              match exec n (length rs :: ls) th args x with
              | ONorm vs x | OBr O vs x => exec n ls k (vs ++ rest) x
              | OBr (S d) vs x => OBr d vs x
              | o => o
              end
            else exec n ls k stk x
        | _, _ => OStuck
        end
    | [] => OStuck
    end.
  Proof. destruct n; reflexivity. Qed.
  Lemma exec_ifelse n ls ps rs th el k stk x : exec n ls (CIfElse ps rs th el k) stk x =
    match stk with
    | c :: stk =>
        match is_true c, take (length ps) stk with
        | Some b, Some (args, rest) =>
            match (if b then exec n (length rs :: ls) th args x else exec n (length rs :: ls) el args x) with
            | ONorm vs x | OBr O vs x => exec n ls k (vs ++ rest) x
            | OBr (S d) vs x => OBr d vs x
            | o => o
            end
        | _, _ => OStuck
        end
    | [] => OStuck
    end.
  Proof. destruct n; reflexivity. Qed.
  Lemma exec_brif n ls d k stk x : exec n ls (CBrIf d k) stk x =
    match stk with
    | c :: stk =>
        match is_true c, nth_error ls d with
        | Some true, Some a => OBr d (firstn a stk) x
        | Some false, Some _ => exec n ls k stk x
        | _, _ => OStuck
        end
    | [] => OStuck
    end.
  Proof. destruct n; reflexivity. Qed.
  Lemma exec_call n ls f k stk x : exec n ls (CCall f k) stk x =
    match nth_error (sm_funcs SM) f with
    | Some fn =>
        match take (length (fst (sfunc_type fn))) stk with
        | Some (args, rest) =>
            match fn with
            | SWasm d => callf n d (rev args) x (fun vs x => exec n ls k (vs ++ rest) x)
            | SWasi w t => do_host host w t (rev args) x (fun vs x => exec n ls k (vs ++ rest) x)
            end
        | None => OStuck
        end
    | None => OStuck
    end.
  Proof. destruct n; reflexivity. Qed.
  Lemma exec_callind n ls ty tb k stk x : exec n ls (CCallInd ty tb k) stk x =
    match stk, nth_error (sm_types SM) ty with
    | VI32 i :: stk, Some t =>
        match take (length (fst t)) stk with
        | None => OStuck
        | Some (args, rest) =>
            match p_func Pr (i_tables (x_inst x)) tb i with
            | Trap t => OTrap t (x_log x)
            | UB => OUB
            | Ok f =>
                match nth_error (sm_funcs SM) f with
                | None => OUB
                | Some fn =>
                    if ftype_eqb (sfunc_type fn) t then
                      match fn with
                      | SWasm d => callf n d (rev args) x (fun vs x => exec n ls k (vs ++ rest) x)
                      | SWasi w t =>
                          if p_ind_host Pr
                          then do_host host w t (rev args) x (fun vs x => exec n ls k (vs ++ rest) x)
                          else OTrap TBadOperand (x_log x)
                      end
                    else OTrap TTypeMismatch (x_log x)
                end
            end
        end
    | _, _ => OStuck
    end.
  Proof. destruct n; reflexivity. Qed.

  Lemma bexec_log b stk x stk' x' : bexec Pr b stk x = Some (Ok (stk', x')) -> x_log x' = x_log x.
  Proof.
    destruct b; cbn [bexec]; intros H.
    - inversion H; auto.
    - destruct (nth_error _ _); inversion H; auto.
    - destruct stk; [discriminate|]. destruct (Nat.ltb _ _); inversion H; auto.
    - destruct stk; [discriminate|]. destruct (Nat.ltb _ _); inversion H; auto.
    - destruct stk; inversion H; auto.
    - inversion H; auto.
    - destruct stk as [|? [|? [|? ?]]]; try discriminate. destruct (is_true _); inversion H; auto.
    - destruct (take _ _) as [[]|]; [|discriminate]. destruct (p_op _ _ _ _) as [[]| |]; inversion H; auto.
  Qed.
  Lemma exec_bcode n ls bl c : forall stk x r, bexecs Pr bl stk x = Some r ->
    exec n ls (bcode bl c) stk x = lift (x_log x) r (fun stk x => exec n ls c stk x).
  Proof.
    induction bl as [|b bl IH]; cbn [bcode fold_right bexecs]; intros stk x r H; [now inversion H|].
    rewrite exec_basic. destruct (bexec Pr b stk x) as [[[s y]|t|]|] eqn:B; inversion H; subst; auto.
    cbn [lift]. unfold bcode in IH. rewrite (IH _ _ _ H). now rewrite (bexec_log _ _ _ _ _ B).
  Qed.
End ExecEq.

Lemma take_app n s t : length s = n -> take n (s ++ t) = Some (s, t).
Proof.
  intros <-. unfold take. rewrite app_length. destruct (Nat.leb_spec (length s) (length s + length t)); [|lia].
  rewrite firstn_app, skipn_app, Nat.sub_diag, firstn_all, skipn_all, firstn_O, app_nil_r. reflexivity.
Qed.
Lemma firstn_app_l {A} n (s t : list A) : length s = n -> firstn n (s ++ t) = s.
Proof. intros <-. rewrite firstn_app, Nat.sub_diag, firstn_all, firstn_O, app_nil_r. reflexivity. Qed.

(** ** sequences of machine steps *)
Section Steps.
  Variable hf : hostfp.
  Variable host : hostfn.
  Variable M : modul.
  Lemma steps_app n : forall c c' m, steps hf host M n c = inl c' -> steps hf host M (n + m) c = steps hf host M m c'.
  Proof.
    induction n as [|n IH]; cbn [steps Nat.add]; intros c c' m H; [now inversion H|].
    destruct (step hf host M c); try discriminate. now apply IH.
  Qed.
  Lemma steps_one c c' : step hf host M c = SNext c' -> steps hf host M 1 c = inl c'.
  Proof. intros H. cbn. now rewrite H. Qed.
End Steps.

(** ** copying registers *)
Lemma copies_asc b st W c : forall n s t rf, t <= s -> s + n <= W c -> rfok b st W rf ->
  exists rf', rf_copies rf (map (fun i => R c (s + i)) (seq 0 n)) (map (fun i => R c (t + i)) (seq 0 n)) = Ok rf' /\
    rfok b st W rf' /\
    (forall i, i < n -> rf_get rf' c (t + i) = rf_get rf c (s + i)) /\
    (forall c' j, c' <> c \/ j < t -> rf_get rf' c' j = rf_get rf c' j).
Proof.
  induction n as [|n IH]; intros s t rf Ts Hs K; cbn [seq map rf_copies].
  - exists rf. split; [reflexivity|]. split; [auto|]. split; [lia|auto].
  - unfold rf_copy at 1. cbn [r_cls r_idx]. rewrite cls_eqb_refl, !Nat.add_0_r.
    destruct (rfok_get _ _ _ _ c s K ltac:(lia)) as [v G]. rewrite G. cbn [bind].
    destruct (rfok_set _ _ _ _ c t v K ltac:(lia)) as (rf1 & S1 & K1). rewrite S1. cbn [bind].
    destruct (IH (S s) (S t) rf1 ltac:(lia) ltac:(lia) K1) as (rf' & C' & K' & A & B).
    assert (SH : forall u, map (fun i => R c (u + i)) (seq 1 n) = map (fun i => R c (S u + i)) (seq 0 n)).
    { intros u. rewrite <- seq_shift, map_map. apply map_ext. intros i. f_equal. lia. }
    rewrite !SH. exists rf'. split; [exact C'|]. split; [exact K'|]. split.
    + intros [|i] Hi.
      * rewrite !Nat.add_0_r, G. rewrite (B c t ltac:(lia)). eapply get_set_same; eauto.
      * replace (t + S i) with (S t + i) by lia. rewrite (A i ltac:(lia)). replace (s + S i) with (S s + i) by lia.
        eapply get_set_other; [exact S1|]. intros X. inversion X. lia.
    + intros c' j H. rewrite (B c' j ltac:(destruct H; [left; auto|right; lia])).
      eapply get_set_other; [exact S1|]. intros X. inversion X; subst. destruct H; [congruence|lia].
Qed.
Lemma copies_id rf : forall rs vs, rf_get_vals rf rs = Ok vs -> rf_copies rf rs rs = Ok rf.
Proof.
  induction rs as [|r rs IH]; intros vs H; cbn [rf_copies rf_get_vals] in *; [reflexivity|].
  unfold rf_get_val in H. unfold rf_copy. rewrite cls_eqb_refl.
  destruct (rf_get rf (r_cls r) (r_idx r)) eqn:G; cbn in H; try discriminate.
  cbn [bind]. rewrite (set_get _ _ _ _ G). cbn [bind].
  destruct (rf_get_vals rf rs) eqn:G2; cbn in H; try discriminate. eapply IH; eauto.
Qed.
Lemma get_vals_app rf : forall a b va vb, rf_get_vals rf a = Ok va -> rf_get_vals rf b = Ok vb -> rf_get_vals rf (a ++ b) = Ok (va ++ vb).
Proof.
  induction a as [|r a IH]; cbn [rf_get_vals app]; intros b va vb H K; [inversion H; auto|].
  destruct (rf_get_val rf r); cbn in *; try discriminate. destruct (rf_get_vals rf a) eqn:G; cbn in *; try discriminate.
  inversion H; subst. rewrite (IH _ _ _ eq_refl K). reflexivity.
Qed.
Lemma get_vals_rev rf : forall a va, rf_get_vals rf a = Ok va -> rf_get_vals rf (rev a) = Ok (rev va).
Proof.
  induction a as [|r a IH]; cbn [rf_get_vals rev]; intros va H; [inversion H; auto|].
  destruct (rf_get_val rf r) eqn:G1; cbn in *; try discriminate. destruct (rf_get_vals rf a) eqn:G; cbn in *; try discriminate.
  inversion H; subst. cbn [rev]. apply get_vals_app; [now apply IH|]. cbn. now rewrite G1.
Qed.
Lemma slots_cls nl : forall want o, map r_cls (slots nl want o) = want.
Proof. induction want as [|c want IH]; intros o; cbn [slots map]; [reflexivity|]. cbn [r_cls]. now rewrite IH. Qed.
(** the sources of a branch depend on the classes of its targets only *)
Fixpoint src_of_cls (d : six nat) (n i : nat) (cs : list cls) : list reg :=
  match cs with [] => [] | c :: cs => R c (u16 (sget d c - (n - i))) :: src_of_cls d n (S i) cs end.
Lemma branch_src_cls d n : forall tgt i, branch_src d n i tgt = src_of_cls d n i (map r_cls tgt).
Proof. induction tgt as [|r tgt IH]; intros i; cbn [branch_src map src_of_cls]; [reflexivity|]. now rewrite IH. Qed.
Lemma src_of_cls_app d n : forall a b i, src_of_cls d n i (a ++ b) = src_of_cls d n i a ++ src_of_cls d n (i + length a) b.
Proof.
  induction a as [|c a IH]; intros b i; cbn [app src_of_cls length]; [now rewrite Nat.add_0_r|]. rewrite IH. cbn [app]. replace (i + S (length a)) with (S i + length a) by lia. reflexivity.
Qed.
Lemma cnt_length c l : cnt c l <= length l.
Proof. induction l as [|e l IH]; [apply le_n|]. rewrite cnt_cons. cbn [length]. destruct (cls_eqb c e); lia. Qed.
Lemma src_found nl d dep B : (forall c, sget d c = dep c) -> forall ts above,
  (forall c, dep c = nl c + cnt c (above ++ ts ++ B)) -> (forall c, (Z.of_nat (dep c) <= 65536)%Z) -> found dep above ts = true ->
  src_of_cls d (length above + length ts) 0 (rev ts) = rev (slots nl ts B).
Proof.
  intros HD. induction ts as [|c ts IH]; intros above H1 H2 H3; [reflexivity|]. cbn [found] in H3. apply andb_prop in H3 as [H3 H4]. change (many c above) with (cnt c above) in H3.
  cbn [rev slots length]. rewrite src_of_cls_app. replace (length above + S (length ts)) with (length (c :: above) + length ts) by (cbn [length]; lia). rewrite IH; auto.
  - f_equal. cbn [src_of_cls]. f_equal. f_equal. rewrite HD, rev_length, Nat.add_0_l. cbn [length].
    specialize (H1 c). rewrite cnt_app in H1. cbn [app] in H1. rewrite cnt_cons, cls_eqb_refl in H1. pose proof (cnt_length c above) as CL.
    replace (dep c - (S (length above) + length ts - length ts)) with (nl c + cnt c (ts ++ B)).
    + apply u16_small. specialize (H2 c). lia.
    + apply orb_prop in H3 as [H3|H3]; apply Nat.eqb_eq in H3; lia.
  - intros e. rewrite H1. cbn [app]. rewrite !cnt_app, !cnt_cons, !cnt_app, ?cnt_cons. lia.
Qed.
Lemma src_not_found nl d dep B : (forall c, sget d c = dep c) -> forall ts above,
  (forall c, dep c = nl c + cnt c (above ++ ts ++ B)) -> (forall c, (Z.of_nat (dep c) <= 65536)%Z) ->
  src_of_cls d (length above + length ts) 0 (rev ts) = rev (slots nl ts B) -> found dep above ts = true.
Proof.
  intros HD. induction ts as [|c ts IH]; intros above H1 H2 H3; [reflexivity|]. cbn [found]. change (many c above) with (cnt c above).
  cbn [rev slots length] in H3. rewrite src_of_cls_app in H3. replace (length above + S (length ts)) with (length (c :: above) + length ts) in H3 by (cbn [length]; lia).
  cbn [src_of_cls] in H3. apply app_inj_tail in H3 as [H3 H4]. rewrite (IH (c :: above)); auto.
  - rewrite andb_true_r. pose proof (f_equal r_idx H4) as H5. cbn [r_idx] in H5. rewrite HD, rev_length, Nat.add_0_l in H5. cbn [length] in H5.
    pose proof (H1 c) as G. rewrite cnt_app in G. cbn [app] in G. rewrite cnt_cons, cls_eqb_refl in G. pose proof (cnt_length c above) as CL.
    rewrite u16_small in H5 by (specialize (H2 c); lia). destruct (Nat.eqb_spec (S (cnt c above)) (S (length above))); [reflexivity|]. cbn [orb]. apply Nat.eqb_eq. lia.
  - intros e. rewrite H1. cbn [app]. rewrite !cnt_app, !cnt_cons, !cnt_app, ?cnt_cons. lia.
Qed.
(** one value after another, lowest first, each to a place no higher than it lies *)
Lemma copies_app rf : forall a b c d, length a = length b -> rf_copies rf (a ++ c) (b ++ d) = bind (rf_copies rf a b) (fun rf => rf_copies rf c d).
Proof.
  intros a. revert rf. induction a as [|r a IH]; intros rf [|t b] c d L; try discriminate; [reflexivity|]. cbn [app rf_copies]. destruct (rf_copy rf r t); cbn [bind]; auto.
Qed.
Lemma copies_slots b st W nl o M : forall want rf, (forall c, nl c + cnt c (want ++ M ++ o) <= W c) -> rfok b st W rf ->
  exists rf', rf_copies rf (rev (slots nl want (M ++ o))) (rev (slots nl want o)) = Ok rf' /\ rfok b st W rf' /\
    (forall c i, i < cnt c want -> rf_get rf' c (nl c + cnt c o + i) = rf_get rf c (nl c + cnt c (M ++ o) + i)) /\
    (forall c j, j < nl c + cnt c o \/ nl c + cnt c (want ++ o) <= j -> rf_get rf' c j = rf_get rf c j).
Proof.
  induction want as [|c want IH]; intros rf HW K.
  - exists rf. split; [reflexivity|]. split; [exact K|]. split; [intros c i L; rewrite cnt_nil in L; lia|auto].
  - destruct (IH rf) as (rf1 & C1 & K1 & A & B); [intros e; specialize (HW e); cbn [app] in HW; rewrite cnt_cons in HW; lia|exact K|].
    cbn [slots rev]. rewrite copies_app by now rewrite !rev_length, !slots_length. rewrite C1. cbn [bind rf_copies]. unfold rf_copy. cbn [r_cls r_idx]. rewrite cls_eqb_refl.
    assert (LW : nl c + cnt c (want ++ M ++ o) < W c) by (specialize (HW c); cbn [app] in HW; rewrite cnt_cons, cls_eqb_refl in HW; lia).
    destruct (rfok_get _ _ _ _ c (nl c + cnt c (want ++ M ++ o)) K1 LW) as [v G]. rewrite G. cbn [bind].
    assert (LW2 : nl c + cnt c (want ++ o) < W c) by (rewrite !cnt_app in *; lia).
    destruct (rfok_set _ _ _ _ c (nl c + cnt c (want ++ o)) v K1 LW2) as (rf' & S1 & K'). rewrite S1. cbn [bind]. exists rf'. split; [reflexivity|]. split; [exact K'|]. split.
    + intros e i L. rewrite cnt_cons in L. destruct (cls_dec e c) as [->|NE].
      * rewrite cls_eqb_refl in L. destruct (Nat.eq_dec i (cnt c want)) as [->|NI].
        -- replace (nl c + cnt c o + cnt c want) with (nl c + cnt c (want ++ o)) by (rewrite cnt_app; lia). rewrite (get_set_same _ _ _ _ _ S1), <- G.
           rewrite B by (right; rewrite !cnt_app; lia). f_equal. rewrite !cnt_app. lia.
        -- rewrite (get_set_other _ _ _ _ _ _ _ S1) by (intros X; inversion X; rewrite cnt_app in *; lia). apply A. lia.
      * assert (X0 : cls_eqb e c = false) by (destruct (cls_eqb e c) eqn:Q; [apply cls_eqb_eq in Q; congruence|reflexivity]). rewrite X0 in L.
        rewrite (get_set_other _ _ _ _ _ _ _ S1) by (intros X; inversion X; congruence). apply A. lia.
    + intros e j L. rewrite (get_set_other _ _ _ _ _ _ _ S1).
      * apply B. cbn [app] in L. rewrite cnt_cons in L. lia.
      * intros X. inversion X; subst. cbn [app] in L. rewrite cnt_cons, cls_eqb_refl in L. rewrite cnt_app in *. lia.
Qed.
