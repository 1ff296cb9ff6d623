(** The simulation itself.  Proof device for Properties_Exec.v (no modelled code). *)
From Coq Require Import ZArith List Bool Lia.
From Verif Require Import Word Value Numeric Float Mem MemProofs Store StoreProofs Regs IR Machine Wasm Decoder Check RegsProofs Loc DecodeProofs BasicSim Sim.
Import ListNotations.
Open Scope nat_scope.

(** ** modules *)
Lemma map_opt_nth {A B} (f : A -> option B) : forall l l' n, map_opt f l = Some l' ->
  match nth_error l n with Some a => exists b, f a = Some b /\ nth_error l' n = Some b | None => nth_error l' n = None end.
Proof.
  induction l as [|a l IH]; cbn [map_opt]; intros l' n H.
  - inversion H. now destruct n.
  - destruct (f a) eqn:Fa; [|discriminate]. destruct (map_opt f l) as [bs|] eqn:ML; [|discriminate]. inversion H; subst.
    destruct n as [|n]; cbn [nth_error]; [eauto|]. now apply IH.
Qed.

Section Dyn.
  Variable hf : hostfp.
  Variable host : hostfn.
  Variable SM : smodule.
  Variable M : modul.
  Hypothesis HC : compile SM = Some M.
  Hypothesis HS : supported SM = true.
  Hypothesis HSm : small M = true.
  Notation exec := (exec (chiwawa_prims hf) host SM).
  Notation steps := (steps hf host M).
  Notation step := (step hf host M).

  Lemma HI : imports_first (sm_funcs SM) = true.
  Proof. now apply andb_prop in HS as [A _]. Qed.
  Record fok (f : nat) (d : sfdef) (C : list instr) (al : six nat) : Prop := {
    k_src : nth_error (sm_funcs SM) f = Some (SWasm d);
    k_tgt : nth_error (md_funcs M) f = Some (FWasm {| fd_type := sf_type d; fd_locals := sf_locals d; fd_code := C; fd_alloc := al |});
    k_tr : translate (env_of SM d) (flatten (sf_body d) ++ [FEnd]) = Some (C, al);
    k_nl : (Z.of_nat (nlocals (env_of SM d)) <= 65536)%Z;
    k_W : W16 (sget al);
    k_chk : chk_body SM (env_of SM d) (sf_body d) = true;
    k_nv : no_v128 (snd (sf_type d)) = true;
    k_8 : length (snd (sf_type d)) <= 8
  }.
  Lemma func_at f : match nth_error (sm_funcs SM) f with
    | Some (SWasm d) => exists C al, fok f d C al
    | Some (SWasi w t) => nth_error (md_funcs M) f = Some (FWasi w t)
    | None => nth_error (md_funcs M) f = None
    end.
  Proof.
    unfold compile in HC. destruct (map_opt (compile_func SM) (sm_funcs SM)) as [fs|] eqn:MO; [|discriminate].
    assert (EM : M = {| md_funcs := fs; md_types := sm_types SM |}) by congruence.
    pose proof (map_opt_nth _ _ _ f MO) as H. destruct (nth_error (sm_funcs SM) f) as [[d|w t]|] eqn:N.
    - destruct H as (b & B1 & B2). cbn [compile_func] in B1.
      destruct (translate (env_of SM d) (flatten (sf_body d) ++ [FEnd])) as [[C al]|] eqn:T; [|discriminate].
      inversion B1; subst b. exists C, al. apply andb_prop in HS as [_ S2]. rewrite forallb_forall in S2.
      pose proof (S2 _ (nth_error_In _ _ N)) as S3. cbn [chk_func] in S3. apply andb_prop in S3 as [S3 S5]. apply andb_prop in S3 as [S3 S4].
      unfold small in HSm. rewrite EM in HSm. cbn [md_funcs] in HSm. rewrite forallb_forall in HSm.
      pose proof (HSm _ (nth_error_In _ _ B2)) as Z1. cbn [small_func fd_type fd_locals fd_alloc] in Z1.
      apply andb_prop in Z1 as [Z1 Z2]. unfold fits16 in *. apply Z.leb_le in Z1.
      constructor; auto.
      + rewrite EM. exact B2.
      + unfold nlocals. cbn [e_params e_locals env_of]. now rewrite app_length.
      + intros c. rewrite forallb_forall in Z2. apply Z.leb_le, Z2. destruct c; cbn; auto 10.
      + now apply Nat.leb_le.
    - destruct H as (b & B1 & B2). inversion B1; subst b. rewrite EM. exact B2.
    - rewrite EM. exact H.
  Qed.
  Lemma types_eq : md_types M = sm_types SM.
  Proof. unfold compile in HC. destruct (map_opt _ _); inversion HC. reflexivity. Qed.

  (** ** one function *)
  Section Fn.
    Variable fn : nat.
    Variable d0 : sfdef.
    Variable C : list instr.
    Variable al : six nat.
    Hypothesis HF : fok fn d0 C al.
    Notation E := (env_of SM d0).
    Notation nl := (nl E).
    Notation W := (sget al).
    Notation L := (length C).
    Notation Pc := (fun pc i => nth_error C pc = Some i).
    Notation Qc := (fun _ _ _ => True).
    Variable bse : cls -> list val.
    Variable st : list (six nat).
    Variable nres : nat.
    Variable callers : list frame.
    Notation dinv := (dinv E W bse st).
    Let HW : W16 W := k_W _ _ _ _ HF.

    Record at_ (c : config) (nlab pc : nat) (ts : list cls) (stk : list val) (x : sst) : Prop := {
      t_fn : c_fn c = fn; t_n : c_n c = nres; t_callers : c_callers c = callers; t_log : c_log c = x_log x;
      t_lab : length (s_labels (c_v c)) = nlab; t_ret : s_ret (c_v c) = []; t_pc : s_pc (c_v c) = pc;
      t_d : dinv (s_d (c_v c)) ts stk x
    }.
    (** about to return [vals] (top first) to the caller *)
    Definition leaves (c : config) (vals : list val) (x : sst) : Prop :=
      exists v, step c = leave c v /\ c_n c = nres /\ c_callers c = callers /\ c_log c = x_log x /\
        rf_get_vals (d_rf (s_d v)) (s_ret v) = Ok (rev vals) /\ length (s_ret v) = length vals /\
        rfok bse st W (d_rf (s_d v)) /\ d_inst (s_d v) = x_inst x /\
        Forall2 (fun c v => val_cls v = c) (tops (e_results E)) vals.

    Lemma step_code c : c_fn c = fn -> step c =
      match hstep hf M C (c_v c) with
      | HNext v => SNext {| c_v := v; c_fn := c_fn c; c_n := c_n c; c_callers := c_callers c; c_log := c_log c |}
      | HHalt v | HYield YReturn v => leave c v
      | HYield (YWasi w args r) v => call_host host c v w args r
      | HYield (YInvoke f args rs) v =>
          match nth_error (md_funcs M) f with
          | Some (FWasm g) => enter c v f g args rs
          | Some (FWasi _ _) => STrap TBadOperand (c_log c)
          | None => SUB
          end
      | HTrap t => STrap t (c_log c)
      | HUB => SUB
      end.
    Proof. intros H. unfold Machine.step. rewrite H, (k_tgt _ _ _ _ HF). reflexivity. Qed.

    Definition with_v (c : config) (v : vs) : config :=
      {| c_v := v; c_fn := c_fn c; c_n := c_n c; c_callers := c_callers c; c_log := c_log c |}.
    Lemma step_next c v : c_fn c = fn -> hstep hf M C (c_v c) = HNext v -> step c = SNext (with_v c v).
    Proof. intros H K. rewrite step_code by auto. rewrite K. reflexivity. Qed.

    (** straight-line code *)
    Lemma hstep_d v i r : nth_error C (s_pc v) = Some i -> dstep hf i (s_d v) = Some r ->
      hstep hf M C v = match r with
                       | Ok d => HNext {| s_d := d; s_labels := s_labels v; s_ret := s_ret v; s_pc := S (s_pc v) |}
                       | Trap t => HTrap t
                       | UB => HUB
                       end.
    Proof.
      intros N D. unfold hstep. rewrite N. destruct i; try discriminate; rewrite D; destruct r; reflexivity.
    Qed.
    Lemma run_d is : forall c nlab pc, c_fn c = fn -> s_pc (c_v c) = pc -> all_at Pc pc is ->
      length (s_labels (c_v c)) = nlab -> s_ret (c_v c) = [] ->
      match dsteps hf is (s_d (c_v c)) with
      | Ok d => exists c', steps (length is) c = inl c' /\ c_fn c' = fn /\ c_n c' = c_n c /\ c_callers c' = c_callers c /\
                           c_log c' = c_log c /\ length (s_labels (c_v c')) = nlab /\ s_ret (c_v c') = [] /\
                           s_pc (c_v c') = pc + length is /\ s_d (c_v c') = d
      | Trap t => exists m, steps m c = inr (Trapped t (c_log c))
      | UB => True
      end.
    Proof.
      induction is as [|i is IH]; intros c nlab pc Hf Hp HA Hl Hr; cbn [dsteps].
      - exists c. cbn. rewrite Nat.add_0_r. auto 10.
      - destruct HA as [N HA]. destruct (dstep hf i (s_d (c_v c))) as [[d|t|]|] eqn:D; auto.
        + assert (K : step c = SNext (with_v c {| s_d := d; s_labels := s_labels (c_v c); s_ret := s_ret (c_v c); s_pc := S (s_pc (c_v c)) |})).
          { apply step_next; auto. rewrite Hp in *. rewrite (hstep_d _ i (Ok d)); auto. now rewrite Hp. now rewrite Hp. }
          specialize (IH (with_v c {| s_d := d; s_labels := s_labels (c_v c); s_ret := s_ret (c_v c); s_pc := S (s_pc (c_v c)) |}) nlab (S pc)
                         Hf ltac:(cbn; now rewrite Hp) HA Hl Hr). cbn [with_v c_v s_d] in IH.
          destruct (dsteps hf is d) as [d'|t|].
          * destruct IH as (c' & S1 & ?). exists c'. cbn [length Machine.steps]. rewrite K. split; [exact S1|].
            cbn in *. rewrite <- Nat.add_succ_comm. tauto.
          * destruct IH as (m & S1). exists (S m). cbn [Machine.steps]. rewrite K. exact S1.
          * exact I.
        + exists 1. cbn [Machine.steps]. rewrite step_code by auto. rewrite (hstep_d _ i (Trap t)); auto. now rewrite Hp.
    Qed.

    (** ** branches *)
    Definition octx := (list cls * list val)%type.
    Fixpoint ctx (ls : list lab) (X : list cl) (os : list octx) : Prop :=
      match ls, X, os with
      | [l], [], [(o, k)] => lb_kind l = KFunc /\ lb_types l = tops (e_results E) /\ o = [] /\ k = []
      | l :: ls, q :: X, (o, k) :: os =>
          match lb_kind l with
          | KFunc => False
          | KLoop => q_regs q = []
          | KBlock => q_regs q = rev (slots nl (lb_types l) o)
          end /\
          (exists mk o' k' os', os = (o', k') :: os' /\ o = lb_under l ++ o' /\ k = mk ++ k' /\ length mk = length (lb_under l)) /\
          ctx ls X os
      | _, _, _ => False
      end.
    Lemma ctx_suffix : forall ls X o k os d o' k', ctx ls X ((o, k) :: os) -> nth_error ((o, k) :: os) d = Some (o', k') ->
      exists mk, o = flat_map lb_under (firstn d ls) ++ o' /\ k = mk ++ k' /\ length mk = length (flat_map lb_under (firstn d ls)).
    Proof.
      induction ls as [|l ls IH]; intros X o k os d o' k' H N; [destruct X; destruct H|].
      destruct d as [|d]; [cbn in N; inversion N; subst; now exists []|]. cbn [nth_error] in N.
      destruct X as [|q X].
      - cbn in H. destruct ls; [|tauto]. destruct os; [|tauto]. now destruct d.
      - assert (H' : (exists mk o' k' os', os = (o', k') :: os' /\ o = lb_under l ++ o' /\ k = mk ++ k' /\ length mk = length (lb_under l)) /\ ctx ls X os)
          by (cbn in H; destruct ls; tauto). destruct H' as ((mk & o1 & k1 & os' & -> & -> & -> & Lm) & H').
        destruct (IH _ _ _ _ _ _ _ H' N) as (mk' & E1 & -> & Lm'). cbn [firstn flat_map].
        exists (mk ++ mk'). rewrite !app_length, <- !app_assoc, <- E1. auto.
    Qed.
    Lemma ctx_nth : forall ls X os d l, ctx ls X os -> nth_error ls d = Some l ->
      exists o k, nth_error os d = Some (o, k) /\
        ((d < length X /\ lb_kind l <> KFunc) \/ (d = length X /\ lb_kind l = KFunc)) /\
        match lb_kind l with KBlock => snd (br_to L X d) = rev (slots nl (lb_types l) o) | _ => snd (br_to L X d) = [] end.
    Proof.
      induction ls as [|l0 ls IH]; intros X os d l H N; [destruct d; discriminate|].
      destruct X as [|q X].
      - destruct ls; [|cbn in H; tauto]. destruct os as [|[o k] [|]]; cbn in H; try tauto. destruct H as (K & T & -> & ->).
        destruct d as [|d]; [|now destruct d]. cbn in N. inversion N; subst l0. exists [], []. split; [reflexivity|].
        split; [right; auto|]. rewrite K. reflexivity.
      - destruct os as [|[o k] os]; [cbn in H; destruct ls; tauto|].
        assert (H' : match lb_kind l0 with KFunc => False | KLoop => q_regs q = [] | KBlock => q_regs q = rev (slots nl (lb_types l0) o) end /\ ctx ls X os)
          by (cbn in H; destruct ls; tauto). destruct H' as [H1 H2]. destruct d as [|d]; cbn [nth_error] in *.
        + inversion N; subst l0. exists o, k. split; [reflexivity|]. split; [left; split; [cbn; lia|intros K; now rewrite K in H1]|].
          unfold br_to. cbn [nth_error snd]. destruct (lb_kind l); [auto|auto|tauto].
        + destruct (IH X os d l H2 N) as (o1 & k1 & A & B & D). exists o1, k1. split; [auto|]. split; [cbn [length]; destruct B as [[]|[]]; [left|right]; split; auto; lia|].
          exact D.
    Qed.
    Lemma ctx_len ls X os : ctx ls X os -> length ls = S (length X).
    Proof.
      revert X os. induction ls as [|l ls IH]; intros X os H; [destruct X; destruct H|]. destruct X as [|q X].
      - cbn in H. destruct ls; [reflexivity|tauto].
      - destruct os as [|[o k] os]; [cbn in H; destruct ls; tauto|].
        assert (H' : ctx ls X os) by (cbn in H; destruct ls; tauto). cbn. f_equal. eauto.
    Qed.
    Lemma ctx_last ls X os : ctx ls X os -> last (map (fun l => length (lb_types l)) ls) 0 = length (e_results E).
    Proof.
      revert X os. induction ls as [|l ls IH]; intros X os H; [destruct X; destruct H|]. destruct X as [|q X].
      - cbn in H. destruct ls; [|tauto]. destruct os as [|[o k] [|]]; try tauto. destruct H as (_ & T & _). cbn [map last]. rewrite T. apply tops_length.
      - destruct os as [|[o k] os]; [cbn in H; destruct ls; tauto|].
        assert (H' : ctx ls X os) by (cbn in H; destruct ls; tauto). destruct ls as [|l1 ls]; [destruct X; destruct H'|].
        cbn [map]. specialize (IH _ _ H'). exact IH.
    Qed.
    Lemma ctx_cons l ls q X m mk o k os : ctx ls X ((o, k) :: os) -> lb_under l = m -> length mk = length m ->
      match lb_kind l with
      | KFunc => False | KLoop => q_regs q = [] | KBlock => q_regs q = rev (slots nl (lb_types l) (m ++ o))
      end -> ctx (l :: ls) (q :: X) ((m ++ o, mk ++ k) :: (o, k) :: os).
    Proof.
      intros H <- Lm K. cbn [ctx]. assert (match lb_kind l with
      | KFunc => False | KLoop => q_regs q = [] | KBlock => q_regs q = rev (slots nl (lb_types l) (lb_under l ++ o))
      end /\ (exists mk1 o' k' os', (o, k) :: os = (o', k') :: os' /\ lb_under l ++ o = lb_under l ++ o' /\ mk ++ k = mk1 ++ k' /\ length mk1 = length (lb_under l)) /\ ctx ls X ((o, k) :: os)) as G by (split; [auto|]; split; [|auto]; exists mk, o, k, os; auto).
      destruct ls; exact G.
    Qed.

    Lemma hold_intro rf : forall a b s t, hold E rf b t -> rf_get_vals rf (slots nl a b) = Ok s ->
      Forall2 (fun c v => val_cls v = c) a s -> hold E rf (a ++ b) (s ++ t).
    Proof.
      induction a as [|c a IH]; intros b [|v s] t H G F; try (now inversion F).
      assert (Cv : val_cls v = c) by now inversion F. assert (F' : Forall2 (fun c v => val_cls v = c) a s) by now inversion F.
      cbn [app hold slots rf_get_vals] in *.
      unfold rf_get_val at 1 in G. cbn [r_cls r_idx] in G. destruct (rf_get rf c (nl c + cnt c (a ++ b))) eqn:G1; cbn in G; try discriminate.
      destruct (rf_get_vals rf (slots nl a b)) eqn:G2; cbn in G; try discriminate. inversion G; subst. auto.
    Qed.
    Lemma hold_ext rf rf' : forall o k, hold E rf o k -> (forall c j, j < nl c + cnt c o -> rf_get rf' c j = rf_get rf c j) ->
      hold E rf' o k.
    Proof.
      induction o as [|c o IH]; intros [|v k]; cbn [hold]; try tauto. intros (A & B & D) H. split; [auto|]. split.
      - rewrite H; auto. rewrite cnt_cons, cls_eqb_refl. lia.
      - apply IH; auto. intros c' j Hj. apply H. rewrite cnt_cons. lia.
    Qed.
    Lemma pop_to_len ls d : length (pop_to ls d) = Nat.min (length ls) (Nat.max (length ls - 1 - d) 1).
    Proof. unfold pop_to, truncate. rewrite skipn_length. lia. Qed.

    Lemma ctx_bottom ls X o k os : ctx ls X ((o, k) :: os) -> o = flat_map lb_under (firstn (length ls - 1) ls).
    Proof.
      intros H. assert (N : exists o' k', nth_error ((o, k) :: os) (length ls - 1) = Some (o', k') /\ o' = []).
      { rewrite (ctx_len _ _ _ H). cbn [Nat.sub]. rewrite Nat.sub_0_r. revert ls o k os H. induction X as [|q X IH]; intros [|l ls] o k os H; try (destruct H; fail).
        - cbn in H. destruct ls; [|tauto]. destruct os; [|tauto]. destruct H as (_ & _ & -> & ->). exists [], []. split; reflexivity.
        - assert (H' : ctx ls X os) by (cbn in H; destruct ls; tauto). destruct os as [|[o1 k1] os]; [destruct ls as [|? [|]], X; cbn in H'; tauto|].
          cbn [length nth_error]. exact (IH ls o1 k1 os H'). }
      destruct N as (o' & k' & N & ->). destruct (ctx_suffix _ _ _ _ _ _ _ _ H N) as (mk & E1 & _ & _). now rewrite app_nil_r in E1.
    Qed.
    Lemma vals_slots rf rf' o B : forall want done, (forall c i, i < cnt c (done ++ want) -> rf_get rf' c (nl c + cnt c o + i) = rf_get rf c (nl c + cnt c B + i)) ->
      rf_get_vals rf' (slots nl want o) = rf_get_vals rf (slots nl want B).
    Proof.
      induction want as [|c want IH]; intros done H; [reflexivity|]. cbn [slots rf_get_vals]. rewrite (IH (done ++ [c])) by (intros e i; rewrite <- app_assoc; apply H).
      unfold rf_get_val at 1 2. cbn [r_cls r_idx]. specialize (H c (cnt c want)). rewrite cnt_app, cnt_cons, cls_eqb_refl in H.
      replace (nl c + cnt c (want ++ o)) with (nl c + cnt c o + cnt c want) by (rewrite cnt_app; lia).
      replace (nl c + cnt c (want ++ B)) with (nl c + cnt c B + cnt c want) by (rewrite cnt_app; lia). rewrite H by lia. reflexivity.
    Qed.
    Lemma branch_ok v x a ls X outer stko os d l more vals extra :
      ctx ls X ((outer, stko) :: os) -> nth_error ls d = Some l -> lb_kind l = KBlock -> found (depth E ls l more) [] (lb_types l) = true ->
      dinv (s_d v) (lb_types l ++ more ++ outer) (vals ++ extra ++ stko) x -> length vals = length (lb_types l) -> length extra = length more ->
      ainv nl a (lb_types l ++ more ++ outer) -> fits W a -> length (s_labels v) = S (length X) ->
      exists o k d', nth_error ((outer, stko) :: os) d = Some (o, k) /\
        (forall t, branch v d t (br_src a (snd (br_to L X d))) (snd (br_to L X d)) =
           HNext {| s_d := d'; s_labels := pop_to (s_labels v) d; s_ret := s_ret v; s_pc := t |}) /\
        dinv d' (lb_types l ++ o) (vals ++ k) x /\ length (pop_to (s_labels v) d) = Nat.max (length X - d) 1.
    Proof.
      intros HX N KB HH D Lv Le HA Ft Lb. pose proof (ctx_bottom _ _ _ _ _ HX) as BT. destruct (ctx_nth _ _ _ _ _ HX N) as (o & k & No & _ & RS).
      assert (DEP : forall c, sget (al_d a) c = depth E ls l more c).
      { intros c. destruct HA as (_ & H2 & _). rewrite H2. unfold depth, between. rewrite <- BT. reflexivity. }
      assert (DW : forall c, depth E ls l more c <= W c).
      { intros c. rewrite <- DEP. destruct HA as (_ & _ & H3). specialize (H3 c). specialize (Ft c). lia. }
      rewrite KB in RS. destruct (ctx_suffix _ _ _ _ _ _ _ _ HX No) as (mk & EO & -> & Lm).
      set (m := flat_map lb_under (firstn d ls)) in *.
      assert (PL : length (pop_to (s_labels v) d) = Nat.max (length X - d) 1) by (rewrite pop_to_len, Lb; lia).
      rewrite RS. set (M' := more ++ m) in *.
      assert (EM : more ++ outer = M' ++ o) by (unfold M'; rewrite EO; now rewrite <- app_assoc).
      assert (EK : vals ++ extra ++ mk ++ k = vals ++ (extra ++ mk) ++ k) by now rewrite <- app_assoc.
      assert (DC : forall c, depth E ls l more c = nl c + cnt c (lb_types l ++ M' ++ o)).
      { intros c. rewrite <- DEP. destruct HA as (_ & H2 & _). rewrite H2, EM. reflexivity. }
      rewrite EM in D. rewrite EK in D.
      assert (SR : br_src a (rev (slots nl (lb_types l) o)) = rev (slots nl (lb_types l) (M' ++ o))).
      { unfold br_src. rewrite branch_src_cls, map_rev, slots_cls, rev_length, slots_length.
        apply (src_found nl (al_d a) (depth E ls l more) (M' ++ o) DEP (lb_types l) []); auto. intros c. specialize (DW c). pose proof (HW c). lia. }
      destruct D as [D1 D2 D3 D4 D5 D6].
      destruct (copies_slots bse st W nl o M' (lb_types l) (d_rf (s_d v))) as (rf' & CP & K' & GA & GB).
      { intros c. rewrite <- DC. apply DW. }
      { exact D2. }
      destruct (hold_app E bse _ _ _ _ _ D1 Lv) as (H1 & H2 & H3).
      assert (Lek : length (extra ++ mk) = length M') by (unfold M'; rewrite !app_length; lia).
      destruct (hold_app E bse _ _ _ _ _ H1 Lek) as (H4 & _ & _).
      exists o, k, (set_rf (s_d v) rf'). split; [exact No|]. split; [|split; [|exact PL]].
      - intros t. unfold branch. rewrite SR.
        assert (MC : forall A (s t : list A) (z w : res regfile), (s = [] -> z = w) -> (t = [] -> z = w) ->
                  match s, t with [], _ | _, [] => z | _, _ => w end = w).
        { intros A [|s0 s] [|t0 t1] z w Hz1 Hz2; auto. }
        rewrite (MC reg _ _ (Ok (d_rf (s_d v))) _).
        + rewrite CP. reflexivity.
        + intros Z. rewrite Z. reflexivity.
        + intros Z. rewrite Z. match goal with |- _ = rf_copies _ ?l [] => destruct l; reflexivity end.
      - constructor; auto. cbn [set_rf d_rf]. apply hold_intro; auto.
        + eapply hold_ext; [exact H4|]. intros c' j Hj. apply GB. left. exact Hj.
        + rewrite <- H2. apply (vals_slots (d_rf (s_d v)) rf' o (M' ++ o) (lb_types l) []). exact GA.
    Qed.

    (** nothing is moved, and nothing has to be *)
    Lemma cnt_apart c want have : apart want have = true -> In c want -> cnt c have = 0.
    Proof.
      unfold apart. rewrite forallb_forall. intros H HI'. specialize (H c HI'). apply negb_true_iff in H.
      induction have as [|e have IHh]; [reflexivity|]. cbn [existsb] in H. apply orb_false_iff in H as [H1 H2]. rewrite cnt_cons.
      rewrite (IHh H2), H1. reflexivity.
    Qed.
    Lemma hold_skip rf : forall want vals mid mv o k, hold E rf (want ++ mid ++ o) (vals ++ mv ++ k) -> length vals = length want -> length mv = length mid ->
      (forall c, In c want -> cnt c mid = 0) -> hold E rf (want ++ o) (vals ++ k).
    Proof.
      induction want as [|c want IH]; intros [|v vals] mid mv o k H Lv Lm Ap; try discriminate.
      - cbn [app] in *. exact (proj1 (hold_app E bse _ _ _ _ _ H Lm)).
      - cbn [app hold] in *. destruct H as (H1 & H2 & H3). split; [exact H1|]. split.
        + rewrite <- H2. rewrite !cnt_app. rewrite (Ap c) by (now left). reflexivity.
        + eapply IH; eauto. intros c' I'. apply Ap. now right.
    Qed.
    Lemma branch_stay v x ls X outer stko os d l more vals extra src rs :
      ctx ls X ((outer, stko) :: os) -> nth_error ls d = Some l -> stays ls d l more = true -> src = [] \/ rs = [] ->
      dinv (s_d v) (lb_types l ++ more ++ outer) (vals ++ extra ++ stko) x -> length vals = length (lb_types l) -> length extra = length more ->
      length (s_labels v) = S (length X) ->
      exists o k, nth_error ((outer, stko) :: os) d = Some (o, k) /\
        (forall t, branch v d t src rs =
           HNext {| s_d := s_d v; s_labels := pop_to (s_labels v) d; s_ret := s_ret v; s_pc := t |}) /\
        dinv (s_d v) (lb_types l ++ o) (vals ++ k) x /\ length (pop_to (s_labels v) d) = Nat.max (length X - d) 1.
    Proof.
      intros HX N ST SR D Lv Le Lb. destruct (ctx_nth _ _ _ _ _ HX N) as (o & k & No & _ & _).
      destruct (ctx_suffix _ _ _ _ _ _ _ _ HX No) as (mk & Eo & Ek & Lm). subst outer stko.
      assert (PL : length (pop_to (s_labels v) d) = Nat.max (length X - d) 1) by (rewrite pop_to_len, Lb; lia).
      exists o, k. split; [exact No|]. split; [|split; [|exact PL]].
      - intros t. unfold branch. destruct SR as [-> | ->]; [|destruct src]; destruct (s_d v); reflexivity.
      - destruct D as [D1 D2 D3 D4 D5 D6]. constructor; auto. unfold stays, between in ST.
        apply (hold_skip _ _ _ (more ++ flat_map lb_under (firstn d ls)) (extra ++ mk)); auto.
        + now rewrite <- !app_assoc.
        + rewrite !app_length. lia.
        + intros c. now apply cnt_apart.
    Qed.
  End Fn.

  (** ** what a function body does *)
  Definition body_post (dg : sfdef) (alg : six nat) bse st nres callers (n : nat) (c0 : config) (y0 : sst) : Prop :=
    match exec n [length (snd (sf_type dg))] (sf_body dg) [] y0 with
    | ONorm vs y | OBr O vs y | ORet vs y => exists m c1, steps m c0 = inl c1 /\ leaves dg alg bse st nres callers c1 vs y
    | OBr (S _) _ _ => False
    | OTrap t l => exists m, steps m c0 = inr (Trapped t l)
    | OExit z l => exists m, steps m c0 = inr (Exited z l)
    | OUB => True
    | OFuel => exists m c', n <= m /\ steps m c0 = inl c'
    | OStuck => False
    end.
  Definition calls_ok (n : nat) : Prop :=
    forall g dg Cg alg, fok g dg Cg alg -> forall bse st nres callers c0 y0,
      at_ g dg alg bse st nres callers c0 1 0 [] [] y0 -> body_post dg alg bse st nres callers n c0 y0.
  Lemma defaults_eq ts : p_defaults (chiwawa_prims hf) ts = default_locals ts.
  Proof. induction ts; cbn; auto. now rewrite IHts. Qed.
  Lemma defaults_typ : forall ts ds, default_locals ts = Ok ds -> Forall2 (fun t v => val_cls v = class_of t) ts ds.
  Proof.
    induction ts as [|t ts IH]; cbn; intros ds H; [inversion H; constructor|].
    destruct (default_local t) eqn:D; cbn in H; try discriminate. destruct (default_locals ts); cbn in H; try discriminate.
    inversion H; subst. constructor; auto. destruct t; cbn in D; inversion D; reflexivity.
  Qed.

  Section Fn2.
    Variable fn : nat.
    Variable d0 : sfdef.
    Variable C : list instr.
    Variable al : six nat.
    Hypothesis HF : fok fn d0 C al.
    Notation E := (env_of SM d0).
    Notation nl := (nl E).
    Notation W := (sget al).
    Notation L := (length C).
    Notation Pc := (fun pc i => nth_error C pc = Some i).
    Notation Qc := (fun _ _ _ => True).
    Variable bse : cls -> list val.
    Variable st : list (six nat).
    Variable nres : nat.
    Variable callers : list frame.
    Notation dinv := (dinv E W bse st).
    Notation at_ := (at_ fn d0 al bse st nres callers).
    Notation leaves := (leaves d0 al bse st nres callers).
    Notation ctx := (ctx d0).
    Let HW : W16 W := k_W _ _ _ _ HF.
    Let HL : (Z.of_nat (nlocals E) <= 65536)%Z := k_nl _ _ _ _ HF.

    Definition post (n : nat) (ls : list lab) (X : list cl) (os : list octx) (outer : list cls) (stko : list val)
        (pf : nat) (r : option (list cls)) (c : config) (o : out) : Prop :=
      match o with
      | ONorm stk x => exists ts', r = Some ts' /\ length stk = length ts' /\
          exists m c', steps m c = inl c' /\ at_ c' (S (length X)) pf (ts' ++ outer) (stk ++ stko) x
      | OBr d vals x => exists l o k, nth_error ls d = Some l /\ (lb_kind l = KFunc -> lb_types l = []) /\ nth_error ((outer, stko) :: os) d = Some (o, k) /\
          length vals = length (lb_types l) /\
          exists m c', steps m c = inl c' /\ at_ c' (Nat.max (length X - d) 1) (fst (br_to L X d)) (lb_types l ++ o) (vals ++ k) x
      | ORet vals x => exists m c', steps m c = inl c' /\ leaves c' vals x
      | OTrap t l => exists m, steps m c = inr (Trapped t l)
      | OExit z l => exists m, steps m c = inr (Exited z l)
      | OUB => True
      | OFuel => exists m c', n <= m /\ steps m c = inl c'
      | OStuck => False
      end.
    Definition simf (n : nat) : Prop := forall c X k pc kf pf ls ts outer stko os r stk x cfg,
      loc E Pc Qc L X k pc c kf pf -> k_pend k = [] -> ainv nl (k_al k) (ts ++ outer) -> chk SM E ls ts c = Some r ->
      ctx ls X ((outer, stko) :: os) -> fits W (k_al kf) -> pf < L ->
      at_ cfg (S (length X)) pc (ts ++ outer) (stk ++ stko) x -> length stk = length ts ->
      post n ls X os outer stko pf r cfg (exec n (map (fun l => length (lb_types l)) ls) c stk x).

    Lemma post_gen j n n' ls X os outer stko pf r c c' o m : steps m c = inl c' -> n' <= j + n -> j <= m ->
      post n ls X os outer stko pf r c' o -> post n' ls X os outer stko pf r c o.
    Proof.
      intros H Hn Hj. destruct o; cbn [post]; auto.
      - intros (ts' & A & B & m' & c2 & S2 & D). exists ts'. split; [auto|]. split; [auto|]. exists (m + m'), c2. split; auto.
        now rewrite (steps_app _ _ _ _ _ _ _ H).
      - intros (l & o & k & A1 & A2 & A3 & A4 & m' & c2 & S2 & D). exists l, o, k. do 4 (split; [auto|]). exists (m + m'), c2. split; auto.
        now rewrite (steps_app _ _ _ _ _ _ _ H).
      - intros (m' & c2 & S2 & D). exists (m + m'), c2. split; auto. now rewrite (steps_app _ _ _ _ _ _ _ H).
      - intros (m' & D). exists (m + m'). now rewrite (steps_app _ _ _ _ _ _ _ H).
      - intros (m' & D). exists (m + m'). now rewrite (steps_app _ _ _ _ _ _ _ H).
      - intros (m' & c2 & A & D). exists (m + m'), c2. split; [lia|]. now rewrite (steps_app _ _ _ _ _ _ _ H).
    Qed.
    Lemma post_steps n ls X os outer stko pf r c c' o m : steps m c = inl c' ->
      post n ls X os outer stko pf r c' o -> post n ls X os outer stko pf r c o.
    Proof. intros H. apply (post_gen 0 n n _ _ _ _ _ _ _ _ _ _ m H); lia. Qed.

    Lemma at_next cfg nlab pc ts stk x v : at_ cfg nlab pc ts stk x -> hstep hf M C (c_v cfg) = HNext v ->
      steps 1 cfg = inl (with_v cfg v).
    Proof. intros A H. apply steps_one. eapply step_next; eauto. apply A. Qed.
    (** same data, other place *)
    Lemma at_move cfg nlab pc ts stk x v nlab' pc' ts' stk' x' : at_ cfg nlab pc ts stk x ->
      dinv (s_d v) ts' stk' x' -> length (s_labels v) = nlab' -> s_ret v = s_ret (c_v cfg) -> s_pc v = pc' -> x_log x' = x_log x ->
      at_ (with_v cfg v) nlab' pc' ts' stk' x'.
    Proof. intros [A1 A2 A3 A4 A5 A6 A7 A8] D Ll Lr Lp Lg. constructor; cbn; auto; congruence. Qed.

    (** the end of a block *)
    Lemma end_ok cfg (X : list cl) pe rs o stk k x : at_ cfg (S (S (length X))) pe (tops rs ++ o) (stk ++ k) x -> length stk = length (tops rs) ->
      nth_error C pe = Some (IEnd (rev (slots nl (tops rs) o)) (rev (slots nl (tops rs) o))) -> S pe < L ->
      exists c', steps 1 cfg = inl c' /\ at_ c' (S (length X)) (S pe) (tops rs ++ o) (stk ++ k) x.
    Proof.
      intros A Ls N Lt. pose proof A as [A1 A2 A3 A4 A5 A6 A7 A8].
      destruct (hold_app E bse _ _ _ _ _ (v_hold _ _ _ _ _ _ _ _ A8) Ls) as (_ & G & _).
      apply get_vals_rev in G. pose proof (copies_id _ _ _ G) as CP.
      eexists. split.
      - eapply at_next; [exact A|]. unfold hstep. rewrite A7, N, A5. cbn [Nat.leb]. rewrite CP. cbn [hres s_pc s_labels].
        destruct (Nat.leb_spec L (S pe)); [lia|]. cbn [andb]. reflexivity.
      - eapply at_move; [exact A| | | | |]; cbn; auto.
        + destruct A8 as [D1 D2 D3 D4 D5 D6]. constructor; auto.
        + destruct (s_labels (c_v cfg)); cbn in *; lia.
    Qed.

    (** ** calls *)
    Lemma set_vals_ok : forall rs vals d o ko x, Forall2 (fun t v => val_cls v = class_of t) rs vals -> no_v128 rs = true ->
      dinv d o ko x -> Forall (fun r => r_idx r < W (r_cls r)) (rev (slots nl (tops rs) o)) ->
      exists rf', rf_set_vals (d_rf d) (rev (slots nl (tops rs) o)) vals = Ok rf' /\ dinv (set_rf d rf') (tops rs ++ o) (rev vals ++ ko) x.
    Proof.
      induction rs as [|t rs IH]; intros vals d o ko x F NV D FW; inversion F as [|t' v rs' vs' Cv F']; subst.
      - exists (d_rf d). split; [reflexivity|]. destruct D as [D1 D2 D3 D4 D5 D6]. constructor; auto.
      - rewrite tops_cons in *. rewrite slots_app, rev_app_distr in *. cbn [slots rev app] in *. inversion FW as [|r0 l0 Fh Ft]; subst.
        cbn [no_v128 forallb] in NV. apply andb_prop in NV as [N1 N2]. cbn [r_idx r_cls] in Fh.
        destruct (dinv_push E W bse st _ _ _ _ (class_of t) v _ D Cv eq_refl Fh) as (d' & W1 & W2).
        cbn [rf_set_vals]. assert (SV : rf_set_val (d_rf d) {| r_cls := class_of t; r_idx := nl (class_of t) + cnt (class_of t) o |} v = Ok (d_rf d')).
        { cbn [write] in W1. destruct (rf_set (d_rf d) (class_of t) (nl (class_of t) + cnt (class_of t) o) v) eqn:RS; cbn in W1; try discriminate.
          inversion W1; subst d'. cbn. unfold rf_set_val. cbn [r_cls r_idx]. rewrite Cv.
          destruct (class_of t); cbn in *; try discriminate; exact RS. }
        rewrite SV. cbn [bind]. assert (ED : d' = set_rf d (d_rf d')).
        { cbn [write] in W1. destruct (rf_set (d_rf d) (class_of t) (nl (class_of t) + cnt (class_of t) o) v) eqn:RS; cbn in W1; try discriminate. now inversion W1. }
        destruct (IH vs' d' _ _ x F' N2 W2 Ft) as (rf' & R1 & R2). exists rf'. split; [exact R1|].
        rewrite <- !app_assoc. cbn [app]. rewrite ED in R2. exact R2.
    Qed.
    Lemma callee_ok n cfg v g dg Cg alg args x o ko nlab pc' kont ls X os outer stko pf r :
      (forall n', n = S n' -> calls_ok n') -> fok g dg Cg alg ->
      step cfg = enter cfg v g {| fd_type := sf_type dg; fd_locals := sf_locals dg; fd_code := Cg; fd_alloc := alg |} args
                       (rev (slots nl (tops (snd (sf_type dg))) o)) ->
      c_fn cfg = fn -> c_n cfg = nres -> c_callers cfg = callers -> c_log cfg = x_log x ->
      length (s_labels v) = S nlab -> s_ret v = [] -> s_pc v = pc' -> dinv (s_d v) o ko x ->
      Forall2 (fun t v => val_cls v = class_of t) (fst (sf_type dg)) args ->
      Forall (fun r => r_idx r < W (r_cls r)) (rev (slots nl (tops (snd (sf_type dg))) o)) ->
      (forall vs y c', length vs = length (tops (snd (sf_type dg))) -> at_ c' (S nlab) pc' (tops (snd (sf_type dg)) ++ o) (vs ++ ko) y ->
         post n ls X os outer stko pf r c' (kont vs y)) ->
      post n ls X os outer stko pf r cfg (callf (chiwawa_prims hf) host SM n dg args x kont).
    Proof.
      intros HN Hg HSt C1 C2 C3 C4 V1 V2 V3 D FA FW HK. unfold callf. destruct n as [|n].
      { cbn. exists 0, cfg. auto. }
      specialize (HN n eq_refl). rewrite defaults_eq. unfold enter in HSt. cbn [fd_locals fd_alloc fd_type] in HSt.
      destruct (default_locals (sf_locals dg)) as [ds|t|] eqn:DL; cbn [sres] in HSt.
      - match type of HSt with _ = SNext ?c => set (c0 := c) in * end.
        set (y0 := with_loc x (args ++ ds)).
        assert (A0 : Dyn.at_ g dg alg (sget (rf_vecs (d_rf (s_d v)))) (rf_stack (d_rf (s_d v))) (length (snd (sf_type dg)))
                       (suspend cfg v (rev (slots nl (tops (snd (sf_type dg))) o)) :: callers) c0 1 0 [] [] y0).
        { destruct D as [D1 D2 D3 D4 D5 D6]. constructor; cbn; auto.
          - now rewrite C3.
          - constructor; cbn; auto.
            + apply rfok_save.
            + apply Forall2_app; [exact FA|now apply defaults_typ].
            + now rewrite D5. }
        pose proof (HN g dg Cg alg Hg _ _ _ _ c0 y0 A0) as B. unfold body_post in B.
        assert (RET : forall vs y, (exists m c1, steps m c0 = inl c1 /\ Dyn.leaves dg alg (sget (rf_vecs (d_rf (s_d v)))) (rf_stack (d_rf (s_d v)))
                        (length (snd (sf_type dg))) (suspend cfg v (rev (slots nl (tops (snd (sf_type dg))) o)) :: callers) c1 vs y) ->
                      post (S n) ls X os outer stko pf r cfg (kont vs (with_loc y (x_loc x)))).
        { intros vs y (m & c1 & S1 & w & Q1 & Q2 & Q3 & Q4 & Q5 & Q6 & Q7 & Q8 & Q9).
          unfold leave in Q1. rewrite Q3, Q5 in Q1. cbn [sres suspend f_res f_loc f_ptr f_labels f_ret f_fn f_n] in Q1.
          pose proof (rfok_restore _ _ _ _ _ _ Q7 (v_rf _ _ _ _ _ _ _ _ D)) as RR. rewrite RR in Q1.
          set (dd := {| d_rf := d_rf (s_d v); d_loc := d_loc (s_d v); d_inst := x_inst y; d_ptr := cur_ptr (x_inst y) |}).
          assert (Ddd : dinv dd o ko (with_loc y (x_loc x))) by (destruct D as [D1 D2 D3 D4 D5 D6]; constructor; cbn; auto).
          assert (F2 : Forall2 (fun t v => val_cls v = class_of t) (snd (sf_type dg)) (rev vs)).
          { change (e_results (env_of SM dg)) with (snd (sf_type dg)) in Q9. clear -Q9. unfold tops in Q9.
            assert (G : forall a b, Forall2 (fun c v => val_cls v = c) a b -> Forall2 (fun c v => val_cls v = c) (rev a) (rev b)).
            { induction 1; cbn; [constructor|]. apply Forall2_app; auto. }
            apply G in Q9. rewrite rev_involutive in Q9. remember (rev vs) as w. clear -Q9. revert w Q9.
            induction (snd (sf_type dg)); cbn; intros w H; inversion H; subst; constructor; auto. }
          destruct (set_vals_ok _ _ _ _ _ _ F2 (k_nv _ _ _ _ Hg) Ddd FW) as (rf' & R1 & R2).
          cbn [d_rf dd] in R1. rewrite R1 in Q1. cbn [sres] in Q1. rewrite Q8 in Q1.
          match type of Q1 with _ = SNext ?c => set (c2 := c) in * end.
          assert (A2 : at_ c2 (S nlab) pc' (tops (snd (sf_type dg)) ++ o) (vs ++ ko) (with_loc y (x_loc x))).
          { assert (NE : s_labels v <> []) by (intros Z; rewrite Z in V1; discriminate).
            rewrite rev_involutive in R2. constructor; cbn; auto.
            - destruct (s_labels v); cbn in *; auto.
            - destruct (s_labels v); cbn in *; congruence. }
          assert (S2 : steps (S (m + 1)) cfg = inl c2).
          { change (S (m + 1)) with (1 + (m + 1)). rewrite (steps_app _ _ _ 1 cfg c0) by now apply steps_one.
            rewrite (steps_app _ _ _ _ _ _ _ S1). now apply steps_one. }
          eapply post_steps; [exact S2|]. apply HK; [|exact A2].
          apply F2_len in Q9. rewrite <- Q9. reflexivity. }
        assert (S1 : steps 1 cfg = inl c0) by now apply steps_one.
        fold y0. destruct (exec n [length (snd (sf_type dg))] (sf_body dg) [] y0) as [vs y|[|?] vs y|vs y|t l|z l| | |] eqn:EX; cbn [finish]; try (apply RET; exact B).
        + destruct B.
        + destruct B as (m & B). exists (S m). change (S m) with (1 + m). now rewrite (steps_app _ _ _ _ _ _ _ S1).
        + destruct B as (m & B). exists (S m). change (S m) with (1 + m). now rewrite (steps_app _ _ _ _ _ _ _ S1).
        + exact I.
        + destruct B as (m & c' & Lm & B). exists (S m), c'. split; [lia|]. change (S m) with (1 + m). now rewrite (steps_app _ _ _ _ _ _ _ S1).
        + destruct B.
      - cbn [post]. exists 1. cbn [Machine.steps]. rewrite HSt, C4. reflexivity.
      - exact I.
    Qed.
    Lemma apply_writes_ptr s ws : cur_ptr (apply_writes s ws) = cur_ptr s.
    Proof. unfold apply_writes, cur_ptr. destruct (i_mem s) eqn:Im; cbn; [reflexivity|now rewrite Im]. Qed.
    Lemma host_ok n cfg v w ps rs args x o ko nlab pc' kont ls X os outer stko pf r rr :
      step cfg = call_host host cfg v w args rr ->
      match rs with [] => rr = None | [t] => rr = Some (R (class_of t) (nl (class_of t) + cnt (class_of t) o)) /\
                                             nl (class_of t) + cnt (class_of t) o < W (class_of t) | _ => False end ->
      no_v128 rs = true ->
      c_fn cfg = fn -> c_n cfg = nres -> c_callers cfg = callers -> c_log cfg = x_log x ->
      length (s_labels v) = S nlab -> s_ret v = [] -> s_pc v = pc' -> dinv (s_d v) o ko x ->
      (forall vs y c', length vs = length (tops rs) -> at_ c' (S nlab) pc' (tops rs ++ o) (vs ++ ko) y ->
         post n ls X os outer stko pf r c' (kont vs y)) ->
      post n ls X os outer stko pf r cfg (do_host host w (ps, rs) args x kont).
    Proof.
      intros HSt HR NV C1 C2 C3 C4 V1 V2 V3 D HK. unfold do_host. unfold call_host in HSt. cbn [snd].
      assert (EI : d_inst (s_d v) = x_inst x) by apply D. rewrite EI, C4 in HSt.
      set (log := (w, args, mem_view (x_inst x)) :: x_log x) in *.
      destruct (host log) as [| | |z|o1 ws] eqn:HH.
      - cbn [post]. exists 1. cbn [Machine.steps]. rewrite HSt. reflexivity.
      - cbn [post]. exists 1. cbn [Machine.steps]. rewrite HSt. reflexivity.
      - exact I.
      - cbn [post]. exists 1. cbn [Machine.steps]. rewrite HSt. reflexivity.
      - destruct (host_vals rs o1) as [vs|] eqn:HV; [|exact I].
        set (y := {| x_loc := x_loc x; x_inst := apply_writes (x_inst x) ws; x_log := log |}).
        assert (Dy : dinv (set_inst (s_d v) (apply_writes (x_inst x) ws)) o ko y).
        { destruct D as [D1 D2 D3 D4 D5 D6]. constructor; cbn; auto. now rewrite apply_writes_ptr. }
        assert (exists rf', match rr, o1 with Some r, Some x => rf_set_val (d_rf (s_d v)) r x | _, _ => Ok (d_rf (s_d v)) end = Ok rf' /\
                 dinv (set_rf (set_inst (s_d v) (apply_writes (x_inst x) ws)) rf') (tops rs ++ o) (vs ++ ko) y /\ length vs = length (tops rs)) as (rf' & R1 & R2 & R3).
        { destruct rs as [|t [|]]; [| |tauto]; cbn [host_vals] in HV.
          - subst rr. inversion HV; subst vs. exists (d_rf (s_d v)). split; [reflexivity|]. split; [|reflexivity].
            destruct Dy as [D1 D2 D3 D4 D5 D6]. constructor; cbn; auto.
          - destruct HR as [-> Hw]. destruct o1 as [u|]; [|discriminate]. destruct (cls_eqb (val_cls u) (class_of t)) eqn:CE; [|discriminate].
            inversion HV; subst vs. apply cls_eqb_eq in CE.
            destruct (set_vals_ok [t] [u] _ _ _ _ ltac:(repeat constructor; auto) NV Dy) as (rf' & S1 & S2).
            { cbn. repeat constructor. exact Hw. }
            exists rf'. split; [|split; [exact S2|reflexivity]]. cbn in S1. fold nl in S1.
            destruct (rf_set_val (d_rf (s_d v)) _ u); cbn in S1; try discriminate. exact S1. }
        cbn [set_inst d_rf] in HSt. rewrite R1 in HSt. cbn [sres] in HSt.
        match type of HSt with _ = SNext ?c => set (c2 := c) in * end.
        eapply (post_steps _ _ _ _ _ _ _ _ _ c2 _ 1); [now apply steps_one|]. apply HK; [exact R3|].
        constructor; cbn; auto.
    Qed.

    Lemma block_body n l ls q X os outer stko rest s2 pe r' pf r c0 c o (K1 K2 : list val -> sst -> out) :
      steps 1 c0 = inl c ->
      post n (l :: ls) (q :: X) ((outer, stko) :: os) (rest ++ outer) (s2 ++ stko) pe r' c o ->
      (forall vs y m c' ts', steps (S m) c0 = inl c' -> r' = Some ts' -> length vs = length ts' ->
         at_ c' (S (S (length X))) pe (ts' ++ rest ++ outer) (vs ++ s2 ++ stko) y -> post n ls X os outer stko pf r c0 (K1 vs y)) ->
      (forall vs y m c', steps (S m) c0 = inl c' -> length vs = length (lb_types l) ->
         at_ c' (S (length X)) (q_target q) (lb_types l ++ rest ++ outer) (vs ++ s2 ++ stko) y -> post n ls X os outer stko pf r c0 (K2 vs y)) ->
      post n ls X os outer stko pf r c0
        (match o with
         | ONorm vs y => K1 vs y | OBr O vs y => K2 vs y | OBr (S d) vs y => OBr d vs y
         | ORet vs y => ORet vs y | OTrap t l => OTrap t l | OExit z l => OExit z l
         | OUB => OUB | OFuel => OFuel | OStuck => OStuck
         end).
    Proof.
      intros S0 H H1 H2. assert (SS : forall m, steps (S m) c0 = steps m c) by (intros m; apply (steps_app _ _ _ 1 _ _ m S0)).
      destruct o as [vs y|[|d] vs y|vs y|t lg|z lg| | |].
      - cbn [post] in H. destruct H as (ts' & R' & Lv & m & c' & S1 & A). eapply (H1 vs y m c' ts'); auto. now rewrite SS.
      - cbn [post] in H. destruct H as (l1 & o & k & N1 & B1 & N2 & Lv & m & c' & S1 & A). cbn [nth_error] in N1, N2. inversion N1; inversion N2; subst l1 o k.
        cbn [length] in A. eapply (H2 vs y m c'); auto; [now rewrite SS|]. replace (Nat.max (S (length X) - 0) 1) with (S (length X)) in A by lia. exact A.
      - apply (post_steps _ _ _ _ _ _ _ _ _ c _ 1 S0). exact H.
      - apply (post_steps _ _ _ _ _ _ _ _ _ c _ 1 S0). exact H.
      - apply (post_steps _ _ _ _ _ _ _ _ _ c _ 1 S0). exact H.
      - apply (post_steps _ _ _ _ _ _ _ _ _ c _ 1 S0). exact H.
      - exact I.
      - apply (post_steps _ _ _ _ _ _ _ _ _ c _ 1 S0). exact H.
      - exact H.
    Qed.

    Lemma exec_br n ls d k stk x : exec n ls (CBr d k) stk x = match nth_error ls d with Some a => OBr d (firstn a stk) x | None => OStuck end.
    Proof. destruct n; reflexivity. Qed.
    Lemma exec_brtable n ls ds d k stk x : exec n ls (CBrTable ds d k) stk x =
      match stk with
      | VI32 i :: stk =>
          let d := nth (Z.to_nat (i mod 2 ^ 32)) ds d in
          match nth_error ls d with Some a => OBr d (firstn a stk) x | None => OStuck end
      | _ => OStuck
      end.
    Proof. destruct n; reflexivity. Qed.
    Lemma exec_return n ls k stk x : exec n ls (CReturn k) stk x = ORet (firstn (last ls 0) stk) x.
    Proof. destruct n; reflexivity. Qed.
    Lemma exec_unr n ls k stk x : exec n ls (CUnreachable k) stk x = OTrap THost (x_log x).
    Proof. destruct n; reflexivity. Qed.
    Lemma exec_nil n ls stk x : exec n ls CNil stk x = ONorm stk x.
    Proof. destruct n; reflexivity. Qed.

    Definition moves ls X d l rest a (src rs : list reg) : Prop :=
      (lb_kind l = KBlock /\ found (depth E ls l rest) [] (lb_types l) = true /\ src = br_src a (snd (br_to L X d)) /\ rs = snd (br_to L X d)) \/
      ((src = [] \/ rs = []) /\ stays ls d l rest = true).
    Lemma br_post n cfg pc ls X outer stko os d l rest stk x a pf r cond src rs :
      ctx ls X ((outer, stko) :: os) -> nth_error ls d = Some l -> moves ls X d l rest a src rs -> (lb_kind l = KFunc -> lb_types l = []) ->
      at_ cfg (S (length X)) pc (cond ++ (lb_types l ++ rest) ++ outer) stk x ->
      forall cv stk1, stk = cv ++ stk1 ++ stko -> length cv = length cond -> length stk1 = length (lb_types l ++ rest) ->
      ainv nl a ((lb_types l ++ rest) ++ outer) -> fits W a ->
      (forall v', branch (c_v cfg) d (fst (br_to L X d)) src rs = HNext v' -> hstep hf M C (c_v cfg) = HNext v') ->
      post n ls X os outer stko pf r cfg (OBr d (firstn (length (lb_types l)) stk1) x).
    Proof.
      intros HX N MV KF A cv stk1 -> Lc Ls HA Ft HB. pose proof A as [A1 A2 A3 A4 A5 A6 A7 A8].
      apply dinv_split in A8; [|exact Lc]. rewrite <- app_assoc in A8, HA. rewrite app_length in Ls.
      set (n0 := length (lb_types l)) in *.
      rewrite <- (firstn_skipn n0 stk1), <- app_assoc in A8.
      assert (Lf : length (firstn n0 stk1) = length (lb_types l)) by (rewrite firstn_length; fold n0; lia).
      assert (Lk : length (skipn n0 stk1) = length rest) by (rewrite skipn_length; lia).
      assert (BB : exists o k d', nth_error ((outer, stko) :: os) d = Some (o, k) /\
        (forall t, branch (c_v cfg) d t src rs = HNext {| s_d := d'; s_labels := pop_to (s_labels (c_v cfg)) d; s_ret := s_ret (c_v cfg); s_pc := t |}) /\
        dinv d' (lb_types l ++ o) (firstn n0 stk1 ++ k) x /\ length (pop_to (s_labels (c_v cfg)) d) = Nat.max (length X - d) 1).
      { destruct MV as [(KB & HH & -> & ->)|(SR & ST)].
        - exact (branch_ok fn d0 C al HF bse st nres (c_v cfg) x a ls X outer stko os d l rest _ _ HX N KB HH A8 Lf Lk HA Ft A5).
        - destruct (branch_stay d0 C al bse st nres (c_v cfg) x ls X outer stko os d l rest _ _ src rs HX N ST SR A8 Lf Lk A5) as (o & k & B1 & B2 & B3 & B4).
          exists o, k, (s_d (c_v cfg)). auto. }
      destruct BB as (o & k & d' & N2 & BR & D' & LL).
      exists l, o, k. do 3 (split; [assumption|]). split; [exact Lf|]. eexists 1, _. split.
      - eapply at_next; [exact A|]. apply HB. apply BR.
      - eapply at_move; [exact A| | | | |]; cbn; auto.
    Qed.
    Lemma br_moves ls X os d l rest a : ctx ls X os -> nth_error ls d = Some l -> br_ok E ls d l rest = true ->
      moves ls X d l rest a (br_src a (snd (br_to L X d))) (snd (br_to L X d)) /\ (lb_kind l = KFunc -> lb_types l = []).
    Proof.
      intros HX N BO. destruct (ctx_nth d0 C nres _ _ _ _ _ HX N) as (o & k & _ & _ & RS). unfold br_ok in BO. destruct (lb_kind l) eqn:KL.
      - split; [left; auto|discriminate].
      - split; [right; auto|discriminate].
      - destruct (lb_types l) eqn:TL; [|discriminate]. split; [|auto]. right. split; [auto|]. unfold stays. rewrite TL. reflexivity.
    Qed.

    Lemma sim_code n : (forall n', n = S n' -> simf n') -> (forall n', n = S n' -> calls_ok n') -> simf n.
    Proof.
      intros HLoop HCall. unfold simf.
      cut (forall sz c, csize c <= sz -> forall X k pc kf pf ls ts outer stko os r stk x cfg,
        loc E Pc Qc L X k pc c kf pf -> k_pend k = [] -> ainv nl (k_al k) (ts ++ outer) -> chk SM E ls ts c = Some r ->
        ctx ls X ((outer, stko) :: os) -> fits W (k_al kf) -> pf < L ->
        at_ cfg (S (length X)) pc (ts ++ outer) (stk ++ stko) x -> length stk = length ts ->
        post n ls X os outer stko pf r cfg (exec n (map (fun l => length (lb_types l)) ls) c stk x)).
      { intros H c. apply (H (csize c) c (le_n _)). }
      induction sz as [|sz IH]; intros c Sz X k pc kf pf ls ts outer stko os r stk x cfg Lc Pd HA HCk HX Ft Lpf A Ls; [destruct c; cbn [csize] in Sz; lia|].
      pose proof (static SM d0 HL HI Pc Qc L (csize c) c (le_n _) X k pc kf pf ls ts outer r Lc Pd HA HCk) as (ST1 & ST2 & ST3 & ST4).
      assert (Ftk : fits W (k_al k)) by (eapply fits_mle; eauto).
      pose proof A as [A1 A2 A3 A4 A5 A6 A7 A8].
      assert (I32 : forall ts' o' stk1 v0, dinv (s_d (c_v cfg)) (CI32 :: ts' ++ o') (v0 :: stk1) x ->
                exists z, v0 = VI32 z /\ rf_get (d_rf (s_d (c_v cfg))) CI32 (nl CI32 + cnt CI32 (ts' ++ o')) = Ok (VI32 z) /\
                          dinv (s_d (c_v cfg)) (ts' ++ o') stk1 x).
      { intros ts' o' stk1 v0 D. pose proof (v_hold _ _ _ _ _ _ _ _ D) as (X1 & X2 & _). destruct v0; try discriminate.
        exists z. split; [reflexivity|]. split; [exact X2|]. exact (dinv_split E W bse st _ [_] _ [_] _ _ D eq_refl). }
      destruct c; cbn [csize] in Sz.
      - (* nil *)
        cbn in Lc, HCk. destruct Lc as [-> ->]. inversion HCk; subst r. rewrite exec_nil. exists ts. split; [reflexivity|]. split; [exact Ls|].
        exists 0, cfg. split; [reflexivity|exact A].
      - (* basic *)
        destruct (basic_macro hf E W bse st HW HL SM ls X Pc Qc L pc b c k kf pf r ts outer Lc Pd HA HCk)
          as (bl & c2 & is & k1 & ts1 & Eb & S2 & HAt & Lc2 & HC2 & Pd2 & HA2 & M2 & RO).
        cbn [csize] in S2. rewrite Eb.
        pose proof (static SM d0 HL HI Pc Qc L (csize c2) c2 (le_n _) _ _ _ _ _ _ _ _ _ Lc2 Pd2 HA2 HC2) as (U1 & _).
        destruct (RO (fits_mle _ _ _ U1 Ft) _ _ _ _ A8 Ls) as (rr & X1 & X2).
        rewrite (exec_bcode _ _ _ _ _ _ _ _ _ _ X1).
        pose proof (run_d fn d0 C al HF is cfg (S (length X)) pc A1 A7 HAt A5 A6) as RD. destruct rr as [[stk' x']|t|]; cbn [lift].
        + destruct X2 as (d' & D1 & D2 & D3 & D4). rewrite D1 in RD. destruct RD as (c' & R1 & R2 & R3 & R4 & R5 & R6 & R7 & R8 & R9).
          eapply post_steps; [exact R1|]. apply (IH c2 ltac:(lia) X k1 (pc + length is) kf pf ls ts1 outer stko os r stk' x' c'); auto.
          constructor; auto; try congruence.
        + rewrite X2 in RD. destruct RD as (m & R1). cbn [post]. exists m. now rewrite <- A4.
        + exact I.
      - (* block *)
        pose proof Lc as Lc0. pose proof HCk as HCk0.
        cbn [loc] in Lc. cbn [chk] in HCk. destruct (pop_ts (tops ps) ts) as [rest|] eqn:PT; [|discriminate].
        apply pop_ts_inv in PT. subst ts. pose proof HA as HA0. rewrite <- app_assoc in HA.
        pose proof (open_ok nl (k_al k) is_loop ps rs _ HA) as OB.
        destruct (open_block (k_al k) is_loop ps rs) as [[a1 s] b]. destruct OB as (O1 & O2 & O3 & O4 & O5).
        destruct Lc as (Ni & kb & pe & Lb & Ne & _ & Lc).
        match type of HCk with (if ?b then _ else _) = _ => destruct b eqn:BE; [|discriminate] end.
        apply block_end_inv in BE. destruct BE as (r' & CB & RR).
        destruct (static SM d0 HL HI Pc Qc L _ _ (le_n _) _ _ _ _ _ _ _ (rest ++ outer) _ Lb Pd O1 CB) as (T1 & T2 & T3 & T4).
        destruct (O4 (k_al kb) rs T1 (ends_j _ _ _ _ _ T4)) as [F1 F2].
        destruct (static SM d0 HL HI Pc Qc L _ _ (le_n _) _ _ _ _ _ _ (tops rs ++ rest) outer _ Lc T2 ltac:(rewrite <- app_assoc; exact F1) HCk) as (T5 & _ & T7 & _).
        cbn [k_al with_al] in *.
        assert (FtE : fits W (fst (al_pushes (al_restore (k_al kb) s) rs))) by (eapply fits_mle; eauto).
        assert (FtB : fits W (k_al kb)) by (eapply fits_mle; eauto).
        assert (CR : cb_regs b = rev (slots nl (tops rs) (rest ++ outer))) by (apply (O5 W HW); intros c0; eapply ainv_fits; eauto).
        rewrite app_length in Ls. set (np := length (tops ps)) in *.
        assert (L1 : length (firstn np stk) = length (tops ps)) by (rewrite firstn_length; fold np; lia).
        assert (L2 : length (skipn np stk) = length rest) by (rewrite skipn_length; lia).
        rewrite <- (firstn_skipn np stk) in A8 |- *. set (s1 := firstn np stk) in *. set (s2 := skipn np stk) in *.
        rewrite exec_block, take_app by (rewrite L1; apply tops_length).
        assert (A' : at_ (with_v cfg (push_label (c_v cfg) {| l_loop := is_loop; l_ret := S pc; l_ip := S pc |} (S pc)))
                      (S (S (length X))) (S pc) (tops ps ++ rest ++ outer) (s1 ++ s2 ++ stko) x).
        { eapply at_move; [exact A| | | | |]; cbn; auto. rewrite <- !app_assoc in A8. exact A8. }
        assert (S1 : steps 1 cfg = inl (with_v cfg (push_label (c_v cfg) {| l_loop := is_loop; l_ret := S pc; l_ip := S pc |} (S pc)))).
        { eapply at_next; [exact A|]. unfold hstep. rewrite A7, Ni. reflexivity. }
        set (c1' := with_v cfg _) in *.
        match type of CB with chk _ _ (?l :: _) _ _ = _ => set (lb := l) in * end.
        match type of Lb with loc _ _ _ _ (?q :: _) _ _ _ _ _ => set (qb := q) in * end.
        assert (HX' : ctx (lb :: ls) (qb :: X) ((rest ++ outer, s2 ++ stko) :: (outer, stko) :: os)).
        { apply ctx_cons; auto; unfold lb, qb; destruct is_loop; cbn; auto; unfold cb_target; rewrite O3; auto. }
        pose proof (IH c1 ltac:(lia) (qb :: X) _ _ _ _ (lb :: ls) (tops ps) (rest ++ outer) (s2 ++ stko) ((outer, stko) :: os) r' s1 x c1' Lb Pd O1 CB HX' FtB ltac:(lia) A' L1) as BP.
        assert (EA : map (fun l => length (lb_types l)) (lb :: ls) = (if is_loop then length ps else length rs) :: map (fun l => length (lb_types l)) ls).
        { cbn [map]. f_equal. unfold lb. destruct is_loop; cbn; apply tops_length. }
        rewrite EA in BP.
        assert (KON : forall vs y c', length vs = length (tops rs) -> at_ c' (S (length X)) (S pe) (tops rs ++ rest ++ outer) (vs ++ s2 ++ stko) y ->
                  post n ls X os outer stko pf r c' (exec n (map (fun l => length (lb_types l)) ls) c2 (vs ++ s2) y)).
        { intros vs y c' Lv Ac. rewrite !app_assoc in Ac. eapply (IH c2 ltac:(lia)); [exact Lc|exact T2| |exact HCk|exact HX|exact Ft|exact Lpf|exact Ac|].
          - rewrite <- app_assoc. exact F1.
          - rewrite !app_length. lia. }
        set (Ar := map (fun l => length (lb_types l)) ls) in *.
        eapply (block_body n lb ls qb X os outer stko rest s2 pe r' pf r cfg c1' _
                  (fun vs x => exec n Ar c2 (vs ++ s2) x)
                  (fun vs x => if is_loop then match n with O => OFuel | S n' => exec n' Ar (CBlock is_loop ps rs c1 c2) (vs ++ s2) x end
                               else exec n Ar c2 (vs ++ s2) x)); [exact S1|exact BP| |].
        + intros vs y m c' ts' S2 -> Lv Ac. destruct RR as [RR|RR]; [discriminate|]. injection RR as ->.
          rewrite CR, (peek_regs_ok nl (k_al kb) rs (rest ++ outer) W HW FtB T4) in Ne.
          destruct (end_ok c' X pe rs _ vs _ y Ac Lv Ne ltac:(lia)) as (c3 & S3 & A3').
          eapply (post_steps _ _ _ _ _ _ _ _ _ c3 _ (S m + 1)); [now rewrite (steps_app _ _ _ _ _ _ _ S2)|]. apply KON; auto.
        + intros vs y m c' S2 Lv Ac. unfold lb, qb in *. destruct is_loop; cbn [lb_types lb_kind q_target] in *.
          * destruct n as [|n']; [exists 0, cfg; split; [lia|reflexivity]|].
            apply (post_gen 1 n' (S n') _ _ _ _ _ _ _ _ _ _ (S m) S2); [lia|lia|].
            eapply (HLoop n' eq_refl); [exact Lc0|exact Pd|exact HA0|exact HCk0|exact HX|exact Ft|exact Lpf| |].
            -- rewrite <- !app_assoc. exact Ac.
            -- rewrite !app_length. lia.
          * apply (post_steps _ _ _ _ _ _ _ _ _ c' _ (S m) S2). apply KON; auto.
      - (* if *)
        cbn [loc] in Lc. cbn [chk] in HCk. destruct ts as [|[] ts]; try discriminate.
        destruct (pop_ts (tops ps) ts) as [rest|] eqn:PT; [|discriminate]. apply pop_ts_inv in PT. subst ts.
        cbn [app] in HA. pose proof HA as HA0. rewrite <- app_assoc in HA. destruct (al_pop_ok nl _ _ TI32 HA) as (G1 & G3 & _).
        pose proof (al_pop_max (k_al k) TI32) as G2. destruct (al_pop (k_al k) TI32) as [a0 rc]. cbn [fst snd] in *.
        pose proof (open_ok nl a0 false ps rs _ G1) as OB.
        destruct (open_block a0 false ps rs) as [[a1 s] b]. destruct OB as (O1 & O2 & O3 & O4 & O5).
        destruct Lc as (kb & pe & Ni & Lb & Ne & _ & Lc).
        match type of HCk with (if ?b then _ else _) = _ => destruct b eqn:BE; [|discriminate] end.
        apply andb_prop in BE as [BE0 BE]. apply cls_list_eqb_inv in BE0. apply block_end_inv in BE. destruct BE as (r' & CB & RR).
        destruct (static SM d0 HL HI Pc Qc L _ _ (le_n _) _ _ _ _ _ _ _ (rest ++ outer) _ Lb Pd O1 CB) as (T1 & T2 & T3 & T4).
        destruct (O4 (k_al kb) rs T1 (ends_j _ _ _ _ _ T4)) as [F1 F2].
        destruct (static SM d0 HL HI Pc Qc L _ _ (le_n _) _ _ _ _ _ _ (tops rs ++ rest) outer _ Lc T2 ltac:(rewrite <- app_assoc; exact F1) HCk) as (T5 & _ & T7 & _).
        cbn [k_al with_al] in *.
        assert (FtE : fits W (fst (al_pushes (al_restore (k_al kb) s) rs))) by (eapply fits_mle; eauto).
        assert (FtB : fits W (k_al kb)) by (eapply fits_mle; eauto).
        assert (CR : cb_regs b = rev (slots nl (tops rs) (rest ++ outer))) by (apply (O5 W HW); intros c0; eapply ainv_fits; eauto).
        destruct stk as [|v0 stk]; [discriminate|]. cbn [length] in Ls. apply Nat.succ_inj in Ls.
        cbn [app] in A8. destruct (I32 (tops ps ++ rest) outer _ _ A8) as (z & -> & RG & A9). rewrite <- app_assoc in RG, A9.
        rewrite app_length in Ls. set (np := length (tops ps)) in *.
        assert (L1 : length (firstn np stk) = length (tops ps)) by (rewrite firstn_length; fold np; lia).
        assert (L2 : length (skipn np stk) = length rest) by (rewrite skipn_length; lia).
        rewrite exec_if. cbn [is_true].
        rewrite <- (firstn_skipn np stk) in A9 |- *. set (s1 := firstn np stk) in *. set (s2 := skipn np stk) in *.
        rewrite take_app by (rewrite L1; apply tops_length). rewrite <- app_assoc in A9.
        set (Ar := map (fun l => length (lb_types l)) ls) in *.
        assert (KON : forall vs y c', length vs = length (tops rs) -> at_ c' (S (length X)) (S pe) (tops rs ++ rest ++ outer) (vs ++ s2 ++ stko) y ->
                  post n ls X os outer stko pf r c' (exec n Ar c2 (vs ++ s2) y)).
        { intros vs y c' Lv Ac. rewrite !app_assoc in Ac. eapply (IH c2 ltac:(lia)); [exact Lc|exact T2| |exact HCk|exact HX|exact Ft|exact Lpf|exact Ac|].
          - rewrite <- app_assoc. exact F1.
          - rewrite !app_length. lia. }
        rewrite (G3 W HW Ftk) in Ni. cbn [r_idx class_of] in Ni.
        assert (HSt : hstep hf M C (c_v cfg) = if negb (Z.eqb z 0)
             then HNext (push_label (c_v cfg) {| l_loop := false; l_ret := S pe; l_ip := S pc |} (S pc)) else HNext (goto (c_v cfg) (S pe))).
        { unfold hstep. rewrite A7, Ni, RG. cbn [hres payload]. destruct (negb (Z.eqb z 0)); reflexivity. }
        destruct (negb (Z.eqb z 0)).
        + set (v1 := push_label (c_v cfg) _ _) in *.
          assert (S1 : steps 1 cfg = inl (with_v cfg v1)) by (eapply at_next; eauto).
          assert (A' : at_ (with_v cfg v1) (S (S (length X))) (S pc) (tops ps ++ rest ++ outer) (s1 ++ s2 ++ stko) x).
          { eapply at_move; [exact A| | | | |]; cbn; auto. }
          set (c1' := with_v cfg v1) in *.
          match type of CB with chk _ _ (?l :: _) _ _ = _ => set (lb := l) in * end.
          match type of Lb with loc _ _ _ _ (?q :: _) _ _ _ _ _ => set (qb := q) in * end.
          assert (HX' : ctx (lb :: ls) (qb :: X) ((rest ++ outer, s2 ++ stko) :: (outer, stko) :: os)).
          { apply ctx_cons; auto. unfold lb, qb. cbn; unfold cb_target; rewrite O3; auto. }
          pose proof (IH c1 ltac:(lia) (qb :: X) _ _ _ _ (lb :: ls) (tops ps) (rest ++ outer) (s2 ++ stko) ((outer, stko) :: os) r' s1 x c1' Lb Pd O1 CB HX' FtB ltac:(lia) A' L1) as BP.
          assert (EA : map (fun l => length (lb_types l)) (lb :: ls) = length rs :: Ar).
          { cbn [map]. f_equal. unfold lb. cbn; apply tops_length. }
          rewrite EA in BP.
          eapply (block_body n lb ls qb X os outer stko rest s2 pe r' pf r cfg c1' _
                  (fun vs x => exec n Ar c2 (vs ++ s2) x) (fun vs x => exec n Ar c2 (vs ++ s2) x)); [exact S1|exact BP| |].
          * intros vs y m c' ts' S2 -> Lv Ac. destruct RR as [RR|RR]; [discriminate|]. injection RR as ->.
            rewrite CR, (peek_regs_ok nl (k_al kb) rs (rest ++ outer) W HW FtB T4) in Ne.
            destruct (end_ok c' X pe rs _ vs _ y Ac Lv Ne ltac:(lia)) as (c3 & S3 & A3').
            eapply (post_steps _ _ _ _ _ _ _ _ _ c3 _ (S m + 1)); [now rewrite (steps_app _ _ _ _ _ _ _ S2)|]. apply KON; auto.
          * intros vs y m c' S2 Lv Ac. apply (post_steps _ _ _ _ _ _ _ _ _ c' _ (S m) S2). apply KON; auto.
        + apply (post_steps _ _ _ _ _ _ _ _ _ (with_v cfg (goto (c_v cfg) (S pe))) _ 1); [eapply at_next; eauto|].
          apply KON; [congruence|]. rewrite <- BE0. eapply at_move; [exact A| | | | |]; cbn; auto.
      - (* if else *)
        cbn [loc] in Lc. cbn [chk] in HCk. destruct ts as [|[] ts]; try discriminate.
        destruct (pop_ts (tops ps) ts) as [rest|] eqn:PT; [|discriminate]. apply pop_ts_inv in PT. subst ts.
        cbn [app] in HA. pose proof HA as HA0. rewrite <- app_assoc in HA. destruct (al_pop_ok nl _ _ TI32 HA) as (G1 & G3 & _).
        pose proof (al_pop_max (k_al k) TI32) as G2. destruct (al_pop (k_al k) TI32) as [a0 rc]. cbn [fst snd] in *.
        pose proof (open_ok nl a0 false ps rs _ G1) as OB.
        destruct (open_block a0 false ps rs) as [[a1 s] b]. destruct OB as (O1 & O2 & O3 & O4 & O5).
        destruct Lc as (kt & pt & kb & pe & Ni & Lt & Nj & Lb & Ne & _ & Lpp & Lc).
        match type of HCk with (if ?b then _ else _) = _ => destruct b eqn:BE; [|discriminate] end.
        apply andb_prop in BE as [BE1 BE2]. apply block_end_inv in BE1. destruct BE1 as (r1 & CB1 & RR1).
        apply block_end_inv in BE2. destruct BE2 as (r2 & CB2 & RR2).
        destruct (static SM d0 HL HI Pc Qc L _ _ (le_n _) _ _ _ _ _ _ _ (rest ++ outer) _ Lt Pd O1 CB1) as (T1 & T2 & T3 & T4).
        destruct (O4 (k_al kt) ps T1 (ends_j _ _ _ _ _ T4)) as [F1 F2].
        destruct (static SM d0 HL HI Pc Qc L _ _ (le_n _) _ _ _ _ _ _ (tops ps) (rest ++ outer) _ Lb T2 F1 CB2) as (T5 & T6 & T7 & T8).
        cbn [k_al with_al] in *.
        assert (Mb : mle a1 (k_al kb)) by eauto using mle_trans.
        destruct (O4 (k_al kb) rs Mb (ends_j _ _ _ _ _ T8)) as [F3 F4].
        destruct (static SM d0 HL HI Pc Qc L _ _ (le_n _) _ _ _ _ _ _ (tops rs ++ rest) outer _ Lc T6 ltac:(rewrite <- app_assoc; exact F3) HCk) as (T9 & _ & T11 & _).
        cbn [k_al with_al] in *.
        assert (FtE : fits W (fst (al_pushes (al_restore (k_al kb) s) rs))) by (eapply fits_mle; eauto).
        assert (FtB : fits W (k_al kb)) by (eapply fits_mle; eauto).
        assert (FtP : fits W (fst (al_pushes (al_restore (k_al kt) s) ps))) by (eapply fits_mle; eauto).
        assert (FtT : fits W (k_al kt)) by (eapply fits_mle; eauto).
        assert (CR : cb_regs b = rev (slots nl (tops rs) (rest ++ outer))) by (apply (O5 W HW); intros c0; eapply ainv_fits; eauto).
        destruct stk as [|v0 stk]; [discriminate|]. cbn [length] in Ls. apply Nat.succ_inj in Ls.
        cbn [app] in A8. destruct (I32 (tops ps ++ rest) outer _ _ A8) as (z & -> & RG & A9). rewrite <- app_assoc in RG, A9.
        rewrite app_length in Ls. set (np := length (tops ps)) in *.
        assert (L1 : length (firstn np stk) = length (tops ps)) by (rewrite firstn_length; fold np; lia).
        assert (L2 : length (skipn np stk) = length rest) by (rewrite skipn_length; lia).
        rewrite exec_ifelse. cbn [is_true].
        rewrite <- (firstn_skipn np stk) in A9 |- *. set (s1 := firstn np stk) in *. set (s2 := skipn np stk) in *.
        rewrite take_app by (rewrite L1; apply tops_length). rewrite <- app_assoc in A9.
        set (Ar := map (fun l => length (lb_types l)) ls) in *.
        assert (KON : forall vs y c', length vs = length (tops rs) -> at_ c' (S (length X)) (S pe) (tops rs ++ rest ++ outer) (vs ++ s2 ++ stko) y ->
                  post n ls X os outer stko pf r c' (exec n Ar c3 (vs ++ s2) y)).
        { intros vs y c' Lv Ac. rewrite !app_assoc in Ac. eapply (IH c3 ltac:(lia)); [exact Lc|exact T6| |exact HCk|exact HX|exact Ft|exact Lpf|exact Ac|].
          - rewrite <- app_assoc. exact F3.
          - rewrite !app_length. lia. }
        rewrite (G3 W HW Ftk) in Ni. cbn [r_idx class_of] in Ni.
        match type of CB1 with chk _ _ (?l :: _) _ _ = _ => set (lb := l) in * end.
        match type of Lt with loc _ _ _ _ (?q :: _) _ _ _ _ _ => set (qb := q) in * end.
        assert (HX' : ctx (lb :: ls) (qb :: X) ((rest ++ outer, s2 ++ stko) :: (outer, stko) :: os)).
        { apply ctx_cons; auto. unfold lb, qb. cbn; unfold cb_target; rewrite O3; auto. }
        assert (EA : map (fun l => length (lb_types l)) (lb :: ls) = length rs :: Ar).
        { cbn [map]. f_equal. unfold lb. cbn; apply tops_length. }
        set (pn := if negb (Z.eqb z 0) then S pc else S pt).
        set (v1 := push_label (c_v cfg) {| l_loop := false; l_ret := S pt; l_ip := pn |} pn) in *.
        assert (HSt : hstep hf M C (c_v cfg) = HNext v1).
        { unfold hstep, v1, pn. rewrite A7, Ni, RG. cbn [hres payload]. destruct (negb (Z.eqb z 0)); reflexivity. }
        assert (S1 : steps 1 cfg = inl (with_v cfg v1)) by (eapply at_next; eauto).
        assert (A' : at_ (with_v cfg v1) (S (S (length X))) pn (tops ps ++ rest ++ outer) (s1 ++ s2 ++ stko) x).
        { eapply at_move; [exact A| | | | |]; cbn; auto. }
        set (c1' := with_v cfg v1) in *. unfold pn in A'. clearbody c1'. clear HSt v1 pn.
        destruct (negb (Z.eqb z 0)).
        + pose proof (IH c1 ltac:(lia) (qb :: X) _ _ _ _ (lb :: ls) (tops ps) (rest ++ outer) (s2 ++ stko) ((outer, stko) :: os) r1 s1 x c1' Lt Pd O1 CB1 HX' FtT ltac:(lia) A' L1) as BP.
          rewrite EA in BP.
          eapply (block_body n lb ls qb X os outer stko rest s2 pt r1 pf r cfg c1' _
                  (fun vs x => exec n Ar c3 (vs ++ s2) x) (fun vs x => exec n Ar c3 (vs ++ s2) x)); [exact S1|exact BP| |].
          * intros vs y m c' ts' S2 -> Lv Ac. destruct RR1 as [RR|RR]; [discriminate|]. injection RR as ->.
            eapply (post_steps _ _ _ _ _ _ _ _ _ _ _ (S m + 1)); [rewrite (steps_app _ _ _ _ _ _ _ S2); eapply at_next; [exact Ac|]|].
            { unfold hstep. rewrite (t_pc _ _ _ _ _ _ _ _ _ _ _ _ _ Ac), Nj. reflexivity. }
            apply KON; [exact Lv|]. pose proof Ac as [B1 B2 B3 B4 B5 B6 B7 B8]. eapply at_move; [exact Ac| | | | |]; cbn [s_d s_ret s_pc s_labels]; auto.
            rewrite B5. cbn [Nat.ltb Nat.leb]. destruct (s_labels (c_v c')); cbn in *; lia.
          * intros vs y m c' S2 Lv Ac. apply (post_steps _ _ _ _ _ _ _ _ _ c' _ (S m) S2). apply KON; auto.
        + pose proof (IH c2 ltac:(lia) (qb :: X) _ _ _ _ (lb :: ls) (tops ps) (rest ++ outer) (s2 ++ stko) ((outer, stko) :: os) r2 s1 x c1' Lb T2 F1 CB2 HX' FtB ltac:(lia) A' L1) as BP.
          rewrite EA in BP.
          eapply (block_body n lb ls qb X os outer stko rest s2 pe r2 pf r cfg c1' _
                  (fun vs x => exec n Ar c3 (vs ++ s2) x) (fun vs x => exec n Ar c3 (vs ++ s2) x)); [exact S1|exact BP| |].
          * intros vs y m c' ts' S2 -> Lv Ac. destruct RR2 as [RR|RR]; [discriminate|]. injection RR as ->.
            rewrite CR, (peek_regs_ok nl (k_al kb) rs (rest ++ outer) W HW FtB T8) in Ne.
            destruct (end_ok c' X pe rs _ vs _ y Ac Lv Ne ltac:(lia)) as (c4 & S3 & A3').
            eapply (post_steps _ _ _ _ _ _ _ _ _ c4 _ (S m + 1)); [now rewrite (steps_app _ _ _ _ _ _ _ S2)|]. apply KON; auto.
          * intros vs y m c' S2 Lv Ac. apply (post_steps _ _ _ _ _ _ _ _ _ c' _ (S m) S2). apply KON; auto.
      - (* br *)
        cbn [loc] in Lc. cbn [chk] in HCk. rewrite exec_br, nth_error_map.
        destruct (br_to L X d) as [t rs] eqn:BT. destruct Lc as (Ni & -> & _).
        destruct (nth_error ls d) as [l|] eqn:Nl; [|discriminate].
        destruct (pop_ts (lb_types l) ts) as [rest|] eqn:PT; [|discriminate]. apply pop_ts_inv in PT. subst ts. cbn [option_map].
        destruct (br_ok E ls d l rest) eqn:BO; [|discriminate].
        destruct (br_moves ls X _ d l rest (k_al k) HX Nl BO) as [MV KF]. rewrite BT in MV. cbn [snd] in MV.
        eapply (br_post n cfg pc ls X outer stko os d l rest _ x (k_al k) pf r [] _ _ HX Nl MV KF); eauto.
        { instantiate (1 := []). reflexivity. }
        { reflexivity. }
        intros v' HB. unfold hstep. rewrite A7, Ni. rewrite BT in HB. exact HB.
      - (* br_if *)
        cbn [loc] in Lc. cbn [chk] in HCk. rewrite exec_brif.
        destruct (br_to L X d) as [t rs] eqn:BT. destruct Lc as (Ni & Lc).
        destruct ts as [|[] ts]; try discriminate. destruct stk as [|v0 stk]; [discriminate|].
        cbn [length] in Ls. apply Nat.succ_inj in Ls. cbn [app] in A8, HA.
        destruct (I32 ts outer _ _ A8) as (z & -> & RG & A9). cbn [is_true]. rewrite nth_error_map.
        destruct (nth_error ls d) as [l|] eqn:Nl; [|discriminate].
        destruct (pop_ts (lb_types l) ts) as [rest|] eqn:PT; [|discriminate]. apply pop_ts_inv in PT. cbn [option_map].
        destruct (br_ok E ls d l rest) eqn:BO; [|discriminate].
        destruct (al_pop_ok nl _ _ TI32 HA) as (G1 & G3 & G4). pose proof (al_pop_max (k_al k) TI32) as G2.
        assert (Fta : fits W (fst (al_pop (k_al k) TI32))) by (intros c0; rewrite G2; apply Ftk).
        assert (PK : peek_i32 (k_al k) = nl CI32 + cnt CI32 (ts ++ outer)) by (unfold peek_i32; rewrite G4, (G3 W HW Ftk); reflexivity).
        rewrite PK in Ni.
        assert (HSt : hstep hf M C (c_v cfg) = if Z.eqb z 0 then HNext (goto (c_v cfg) (S pc))
                        else branch (c_v cfg) d t (br_src (fst (al_pop (k_al k) TI32)) rs) rs).
        { unfold hstep. rewrite A7, Ni, RG. cbn [hres payload]. reflexivity. }
        destruct (Z.eqb z 0) eqn:Z0; cbn [negb].
        + eapply (post_steps _ _ _ _ _ _ _ _ _ (with_v cfg (goto (c_v cfg) (S pc))) _ 1); [eapply at_next; eauto|].
          eapply (IH c ltac:(lia)); [exact Lc|exact Pd|exact G1|exact HCk|exact HX|exact Ft|exact Lpf| |exact Ls].
          eapply at_move; [exact A| | | | |]; cbn; auto.
        + subst ts. destruct (br_moves ls X _ d l rest (fst (al_pop (k_al k) TI32)) HX Nl BO) as [MV KF]. rewrite BT in MV. cbn [snd] in MV.
          eapply (br_post n cfg pc ls X outer stko os d l rest _ x (fst (al_pop (k_al k) TI32)) pf r [CI32] _ _ HX Nl MV KF); eauto.
          { instantiate (1 := [VI32 z]). reflexivity. }
          { reflexivity. }
          intros v' HB. rewrite HSt. rewrite BT in HB. exact HB.
      - (* br_table *)
        cbn [loc] in Lc. cbn [chk] in HCk. rewrite exec_brtable. destruct Lc as (Ni & -> & _).
        destruct ts as [|[] ts]; try discriminate. destruct stk as [|v0 stk]; [discriminate|].
        cbn [length] in Ls. apply Nat.succ_inj in Ls. cbn [app] in A8, HA.
        destruct (I32 ts outer _ _ A8) as (z & -> & RG & A9). cbn zeta.
        destruct (nth_error ls d) as [l|] eqn:Nl; [|discriminate].
        destruct (pop_ts (lb_types l) ts) as [rest|] eqn:PT; [|discriminate]. apply pop_ts_inv in PT.
        match type of HCk with (if ?b then _ else _) = _ => destruct b eqn:BE2; [|discriminate] end.
        rewrite forallb_forall in BE2.
        destruct (al_pop_ok nl _ _ TI32 HA) as (G1 & G3 & G4). pose proof (al_pop_max (k_al k) TI32) as G2.
        assert (Fta : fits W (fst (al_pop (k_al k) TI32))) by (intros c0; rewrite G2; apply Ftk).
        assert (PK : peek_i32 (k_al k) = nl CI32 + cnt CI32 (ts ++ outer)) by (unfold peek_i32; rewrite G4, (G3 W HW Ftk); reflexivity).
        rewrite PK in Ni. set (a := fst (al_pop (k_al k) TI32)) in *.
        set (j := Z.to_nat (z mod 2 ^ 32)). set (d1 := nth j ds d).
        assert (exists l1, nth_error ls d1 = Some l1 /\ tbl_ok E ls l d1 l1 rest = true /\ lb_types l1 = lb_types l) as (l1 & N1 & TB1 & ET).
        { assert (In d1 (d :: ds)) as HI1.
          { unfold d1. destruct (Nat.ltb_spec j (length ds)); [right; now apply nth_In|left; rewrite nth_overflow by lia; reflexivity]. }
          specialize (BE2 d1 HI1). destruct (nth_error ls d1) as [l1|]; [|discriminate].
          apply andb_prop in BE2 as [B1 B2]. exists l1. split; [reflexivity|]. split; [exact B1|]. now apply cls_list_eqb_inv. }
        assert (TB0 : tbl_ok E ls l d l rest = true).
        { specialize (BE2 d (or_introl eq_refl)). rewrite Nl in BE2. now apply andb_prop in BE2. }
        assert (TBR : forall e le, nth_error ls e = Some le -> lb_kind le <> KFunc -> tbl_to X e = (e, fst (br_to L X e), snd (br_to L X e))).
        { intros e le Ne Ke. destruct (ctx_nth d0 C nres _ _ _ _ _ HX Ne) as (_ & _ & _ & K & _). unfold tbl_to, br_to.
          destruct (nth_error X e) as [q|] eqn:NX; [reflexivity|]. apply nth_error_None in NX. destruct K as [[K _]|[_ K]]; [lia|]. tauto. }
        assert (KD : lb_kind l <> KFunc) by (unfold tbl_ok in TB0; destruct (lb_kind l); discriminate).
        assert (KD1 : lb_kind l1 <> KFunc) by (unfold tbl_ok in TB1; destruct (lb_kind l), (lb_kind l1); discriminate).
        pose proof (TBR _ _ N1 KD1) as TT1. pose proof (TBR _ _ Nl KD) as TT.
        assert (MV : moves ls X d1 l1 rest a (br_src a (snd (br_to L X d))) (snd (br_to L X d1))).
        { destruct (ctx_nth d0 C nres _ _ _ _ _ HX N1) as (o1 & k1 & _ & _ & K1).
          destruct (ctx_nth d0 C nres _ _ _ _ _ HX Nl) as (o2 & k2 & _ & _ & K2).
          unfold tbl_ok in TB1. destruct (lb_kind l) eqn:KL; [| |tauto]; destruct (lb_kind l1) eqn:KL1; try tauto.
          - left. split; [exact KL1|]. split; [exact TB1|]. split; [|reflexivity]. rewrite K1, K2. rewrite ET in *.
            unfold br_src. rewrite !branch_src_cls, !map_rev, !slots_cls, !rev_length, !slots_length. reflexivity.
          - right. rewrite K1. auto.
          - right. rewrite K2. split; [left; reflexivity|exact TB1].
          - right. rewrite K1. auto. }
        assert (HB : hstep hf M C (c_v cfg) = branch (c_v cfg) d1 (fst (br_to L X d1)) (br_src a (snd (br_to L X d))) (snd (br_to L X d1))).
        { unfold hstep. rewrite A7, Ni, RG. cbn [hres payload]. rewrite TT. cbn [snd].
          assert (JE : (if Z.ltb (cast_u 32 z) (Z.of_nat (length (map (tbl_to X) ds)))
                        then nth (Z.to_nat (cast_u 32 z)) (map (tbl_to X) ds) (d, fst (br_to L X d), snd (br_to L X d)) else (d, fst (br_to L X d), snd (br_to L X d)))
                       = (d1, fst (br_to L X d1), snd (br_to L X d1))).
          { rewrite <- TT, <- TT1. unfold d1, j, cast_u. rewrite map_length, map_nth.
            destruct (Z.ltb_spec (z mod 2 ^ 32) (Z.of_nat (length ds))); [reflexivity|]. rewrite nth_overflow; [reflexivity|].
            pose proof (Z.mod_pos_bound z (2 ^ 32) ltac:(lia)). lia. }
          rewrite JE. reflexivity. }
        rewrite nth_error_map, N1. cbn [option_map].
        eapply (br_post n cfg pc ls X outer stko os d1 l1 rest _ x a pf r [CI32] _ _ HX N1 MV); eauto.
        { tauto. }
        { rewrite ET, <- PT. instantiate (1 := [VI32 z]). exact A. }
        { reflexivity. }
        { rewrite ET, <- PT. exact Ls. }
        { rewrite ET, <- PT. exact G1. }
        intros v' HB'. rewrite HB. exact HB'.
      - (* return *)
        cbn [loc] in Lc. cbn [chk] in HCk. rewrite exec_return, (ctx_last d0 _ _ _ HX). destruct Lc as (Ni & -> & _).
        destruct (pop_ts (tops (e_results E)) ts) as [rest|] eqn:PT; [|discriminate]. apply pop_ts_inv in PT. subst ts.
        rewrite <- app_assoc in HA. rewrite (peek_regs_ok nl (k_al k) _ _ W HW Ftk HA) in Ni.
        rewrite app_length in Ls. rewrite <- (tops_length (e_results E)) in *. set (np := length (tops (e_results E))) in *.
        assert (L1 : length (firstn np stk) = length (tops (e_results E))) by (rewrite firstn_length; fold np; lia).
        rewrite <- (firstn_skipn np stk), <- !app_assoc in A8.
        destruct (hold_app E bse _ _ _ _ _ (v_hold _ _ _ _ _ _ _ _ A8) L1) as (_ & GV & FC).
        apply get_vals_rev in GV. cbn [post]. exists 0, cfg. split; [reflexivity|].
        pose proof (k_8 _ _ _ _ HF) as H8.
        exists {| s_d := s_d (c_v cfg); s_labels := s_labels (c_v cfg); s_ret := rev (slots nl (tops (e_results E)) (rest ++ outer)); s_pc := pc |}.
        cbn [s_d s_ret]. split.
        { rewrite (step_code fn d0 C al HF) by auto. unfold hstep. rewrite A7, Ni. unfold arrayvec8.
          destruct (Nat.leb_spec (length (rev (slots nl (tops (e_results E)) (rest ++ outer)))) 8) as [H|H]; [reflexivity|].
          exfalso. rewrite rev_length, slots_length, tops_length in H. cbn [e_results env_of] in H. lia. }
        do 3 (split; [assumption|]). split; [exact GV|]. split; [now rewrite rev_length, slots_length|].
        split; [apply A8|]. split; [apply A8|exact FC].
      - (* unreachable *)
        cbn [loc] in Lc. rewrite exec_unr. destruct Lc as (Ni & _). cbn [post]. exists 1. cbn [Machine.steps].
        rewrite (step_code fn d0 C al HF) by auto. unfold hstep. rewrite A7, Ni. now rewrite A4.
      - (* call *)
        cbn [loc] in Lc. cbn [chk] in HCk. rewrite exec_call. pose proof (func_at f) as FA.
        destruct (nth_error (sm_funcs SM) f) as [fn0|] eqn:Nf; [|discriminate].
        cbn [e_mod env_of] in Lc. rewrite (call_info_ok _ _ _ HI Nf) in Lc.
        destruct (sfunc_type fn0) as [ps rs] eqn:FT. destruct (pop_ts (tops ps) ts) as [rest|] eqn:PT; [|discriminate].
        apply pop_ts_inv in PT. subst ts. rewrite <- app_assoc in HA.
        destruct (no_v128 rs && _) eqn:G; [|discriminate]. apply andb_prop in G as [NV G]. apply Nat.leb_le in G.
        cbn [fst]. rewrite app_length in Ls. set (np := length (tops ps)) in *.
        assert (L1 : length (firstn np stk) = length (tops ps)) by (rewrite firstn_length; fold np; lia).
        assert (L2 : length (skipn np stk) = length rest) by (rewrite skipn_length; lia).
        rewrite <- (firstn_skipn np stk) in A8 |- *. set (s1 := firstn np stk) in *. set (s2 := skipn np stk) in *.
        rewrite take_app by (rewrite L1; apply tops_length). rewrite <- !app_assoc in A8.
        destruct (hold_app E bse _ _ _ _ _ (v_hold _ _ _ _ _ _ _ _ A8) L1) as (_ & GV & FC).
        apply get_vals_rev in GV. pose proof (dinv_split E W bse st _ _ _ _ _ _ A8 L1) as D2.
        destruct fn0 as [dg|w t]; cbn [sfunc_type] in FT; rewrite FT in Lc.
        + destruct FA as (Cg & alg & Hg).
          pose proof (call_regs_ok SM d0 (k_al k) ps rs _ HA) as CR. destruct (call_regs (k_al k) ps rs) as [[a prs] rrs].
          destruct CR as (R1 & R2 & R3). destruct Lc as (Ni & Lc).
          destruct (static SM d0 HL HI Pc Qc L _ _ (le_n _) _ _ _ _ _ _ (tops rs ++ rest) outer _ Lc Pd ltac:(rewrite <- app_assoc; exact R1) HCk) as (T1 & _).
          destruct (R3 W HW (fits_mle _ _ _ T1 Ft)) as (-> & -> & FW).
          assert (HSt : step cfg = enter cfg (goto (c_v cfg) (S pc)) f {| fd_type := sf_type dg; fd_locals := sf_locals dg; fd_code := Cg; fd_alloc := alg |}
                          (rev s1) (rev (slots nl (tops (snd (sf_type dg))) (rest ++ outer)))).
          { rewrite (step_code fn d0 C al HF) by auto. unfold hstep. rewrite A7, Ni, (k_tgt _ _ _ _ Hg), GV. cbn [hres].
            unfold arrayvec8. rewrite rev_length, slots_length, tops_length. apply Nat.leb_le in G. rewrite G. cbn [hres].
            rewrite (k_tgt _ _ _ _ Hg), FT. reflexivity. }
          eapply (callee_ok n cfg _ f dg Cg alg (rev s1) x (rest ++ outer) (s2 ++ stko) (length X) (S pc)); [exact HCall|exact Hg|exact HSt|auto|auto|auto|auto|exact A5|exact A6|reflexivity|exact D2| | |].
          * rewrite FT. cbn [fst]. clear -FC. unfold tops in FC.
            assert (Gr : forall a b, Forall2 (fun c v => val_cls v = c) a b -> Forall2 (fun c v => val_cls v = c) (rev a) (rev b)).
            { induction 1; cbn; [constructor|]. apply Forall2_app; auto. }
            apply Gr in FC. rewrite rev_involutive in FC. remember (rev s1) as w. clear -FC. revert w FC.
            induction ps; cbn; intros w H; inversion H; subst; constructor; auto.
          * rewrite FT. exact FW.
          * rewrite FT. cbn [snd]. intros vs y c' Lv Ac. rewrite !app_assoc in Ac.
            eapply (IH c ltac:(lia)); [exact Lc|exact Pd| |exact HCk|exact HX|exact Ft|exact Lpf|exact Ac|].
            -- rewrite <- app_assoc. exact R1.
            -- rewrite !app_length. lia.
        + assert (PK : al_peek_regs (k_al k) ps = rev (slots nl (tops ps) (rest ++ outer))) by (eapply peek_regs_ok; eauto).
          rewrite PK in Lc. rewrite <- tops_rev in HA. destruct (al_pops_ok nl _ _ _ HA) as [G1 G2].
          rewrite FT. set (a := al_pops (k_al k) (rev ps)) in *.
          assert (exists rr k1, nth_error C pc = Some (ICallWasi w (rev (slots nl (tops ps) (rest ++ outer))) rr) /\
                    loc E Pc Qc L X k1 (S pc) c kf pf /\ k_pend k1 = [] /\ ainv nl (k_al k1) ((tops rs ++ rest) ++ outer) /\
                    match rs with [] => rr = None | [t] => rr = Some (R (class_of t) (nl (class_of t) + cnt (class_of t) (rest ++ outer))) /\
                                             nl (class_of t) + cnt (class_of t) (rest ++ outer) < W (class_of t) | _ => False end) as (rr & k1 & Ni & Lc1 & Pd1 & HA1 & RR).
          { destruct rs as [|t1 [|t2 rs]]; [| |cbn in G; lia]; destruct Lc as (Ni & Lc).
            - exists None, (with_al k a). split; [exact Ni|]. split; [exact Lc|]. split; [exact Pd|]. split; [exact G1|reflexivity].
            - destruct (al_push_ok nl _ _ t1 G1) as (U1 & U2 & U3).
              eexists _, (with_al k (fst (al_push a t1))). split; [exact Ni|]. split; [exact Lc|]. split; [exact Pd|]. split; [exact U1|].
              destruct (static SM d0 HL HI Pc Qc L _ _ (le_n _) _ _ _ _ _ _ (tops [t1] ++ rest) outer _ Lc Pd U1 HCk) as (T1 & _).
              destruct (U3 W HW (fits_mle _ _ _ T1 Ft)) as [-> Lw]. auto. }
          clear Lc.
          eapply (host_ok n cfg (goto (c_v cfg) (S pc)) w ps rs (rev s1) x (rest ++ outer) (s2 ++ stko) (length X) (S pc)); [|exact RR|exact NV|auto|auto|auto|auto|exact A5|exact A6|reflexivity|exact D2|].
          * rewrite (step_code fn d0 C al HF) by auto. unfold hstep. rewrite A7, Ni, GV. reflexivity.
          * intros vs y c' Lv Ac. rewrite !app_assoc in Ac.
            eapply (IH c ltac:(lia)); [exact Lc1|exact Pd1|exact HA1|exact HCk|exact HX|exact Ft|exact Lpf|exact Ac|].
            rewrite !app_length. lia.
      - (* call_indirect *)
        cbn [loc] in Lc. cbn [chk] in HCk. rewrite exec_callind. destruct ts as [|[] ts]; try discriminate.
        destruct (nth_error (sm_types SM) ty) as [[ps rs]|] eqn:Nt; [|discriminate].
        unfold type_or_empty in Lc. cbn [e_mod env_of ms_types src_of] in Lc. rewrite Nt in Lc.
        destruct (pop_ts (tops ps) ts) as [rest|] eqn:PT; [|discriminate]. apply pop_ts_inv in PT. subst ts.
        destruct (no_v128 rs && _) eqn:G; [|discriminate]. apply andb_prop in G as [NV G]. apply Nat.leb_le in G.
        cbn [app] in HA. rewrite <- app_assoc in HA.
        destruct stk as [|v0 stk]; [discriminate|]. cbn [length] in Ls. apply Nat.succ_inj in Ls. cbn [app] in A8.
        destruct (I32 (tops ps ++ rest) outer _ _ A8) as (z & -> & RG & A9). rewrite <- app_assoc in RG, A9.
        destruct (al_pop_ok nl _ _ TI32 HA) as (G1 & G4 & G3). rewrite G3 in Lc.
        pose proof (call_regs_ok SM d0 _ ps rs _ G1) as CR. destruct (call_regs (fst (al_pop (k_al k) TI32)) ps rs) as [[a prs] rrs].
        destruct CR as (R1 & R2 & R3). destruct Lc as (Ni & Lc). rewrite (G4 W HW Ftk) in Ni. cbn [r_idx class_of] in Ni.
        destruct (static SM d0 HL HI Pc Qc L _ _ (le_n _) _ _ _ _ _ _ (tops rs ++ rest) outer _ Lc Pd ltac:(rewrite <- app_assoc; exact R1) HCk) as (T1 & _).
        destruct (R3 W HW (fits_mle _ _ _ T1 Ft)) as (-> & -> & FW).
        cbn [fst]. rewrite app_length in Ls. set (np := length (tops ps)) in *.
        assert (L1 : length (firstn np stk) = length (tops ps)) by (rewrite firstn_length; fold np; lia).
        assert (L2 : length (skipn np stk) = length rest) by (rewrite skipn_length; lia).
        rewrite <- (firstn_skipn np stk) in A9 |- *. set (s1 := firstn np stk) in *. set (s2 := skipn np stk) in *.
        rewrite take_app by (rewrite L1; apply tops_length). rewrite <- !app_assoc in A9.
        destruct (hold_app E bse _ _ _ _ _ (v_hold _ _ _ _ _ _ _ _ A9) L1) as (_ & GV & FC).
        apply get_vals_rev in GV. pose proof (dinv_split E W bse st _ _ _ _ _ _ A9 L1) as D2.
        assert (EI : d_inst (s_d (c_v cfg)) = x_inst x) by apply A8.
        cbn [p_func p_ind_host chiwawa_prims].
        destruct (table_func (i_tables (x_inst x)) tb z) as [f|t|] eqn:TF.
        + pose proof (func_at f) as FA. destruct (nth_error (sm_funcs SM) f) as [fn0|] eqn:Nf; [|exact I].
          assert (NM : exists fm, nth_error (md_funcs M) f = Some fm /\ func_type fm = sfunc_type fn0).
          { destruct fn0 as [dg|w t]; [destruct FA as (Cg & alg & Hg); exists (FWasm {| fd_type := sf_type dg; fd_locals := sf_locals dg; fd_code := Cg; fd_alloc := alg |}); split; [apply Hg|reflexivity]|].
            eexists. split; [exact FA|reflexivity]. }
          destruct NM as (fm & NM1 & NM2).
          destruct (ftype_eqb (sfunc_type fn0) (ps, rs)) eqn:FE.
          * destruct fn0 as [dg|w t].
            2:{ cbn [post]. exists 1. cbn [Machine.steps]. rewrite (step_code fn d0 C al HF) by auto.
                unfold hstep. rewrite A7, Ni, RG. cbn [hres payload]. rewrite EI, TF. cbn [hres].
                rewrite NM1, types_eq, Nt, NM2. cbn [sfunc_type] in FE |- *. rewrite FE, GV. cbn [hres].
                unfold arrayvec8. rewrite rev_length, slots_length, tops_length. apply Nat.leb_le in G. rewrite G. cbn [hres].
                rewrite FA. now rewrite A4. }
            destruct FA as (Cg & alg & Hg). cbn [sfunc_type] in FE.
            assert (FT : sf_type dg = (ps, rs)).
            { clear -FE. destruct (sf_type dg) as [p1 r1]. unfold ftype_eqb in FE. cbn [fst snd] in FE. apply andb_prop in FE as [F1 F2].
              assert (VE : forall a b, vts_eqb a b = true -> a = b).
              { unfold vts_eqb. induction a as [|u a IHa]; intros [|w b]; cbn; try discriminate; auto. intros H. apply andb_prop in H as [H1 H2]. apply andb_prop in H2 as [H2 H3].
                f_equal; [destruct u, w; try discriminate; reflexivity|]. apply IHa. now rewrite H1. }
              f_equal; auto. }
            assert (HSt : step cfg = enter cfg (goto (c_v cfg) (S pc)) f {| fd_type := sf_type dg; fd_locals := sf_locals dg; fd_code := Cg; fd_alloc := alg |}
                            (rev s1) (rev (slots nl (tops (snd (sf_type dg))) (rest ++ outer)))).
            { rewrite (step_code fn d0 C al HF) by auto. unfold hstep. rewrite A7, Ni, RG. cbn [hres payload]. rewrite EI, TF. cbn [hres].
              rewrite NM1, types_eq, Nt, NM2. cbn [sfunc_type]. rewrite FE, GV. cbn [hres].
              unfold arrayvec8. rewrite rev_length, slots_length, tops_length. apply Nat.leb_le in G. rewrite G. cbn [hres].
              rewrite (k_tgt _ _ _ _ Hg), FT. reflexivity. }
            eapply (callee_ok n cfg _ f dg Cg alg (rev s1) x (rest ++ outer) (s2 ++ stko) (length X) (S pc)); [exact HCall|exact Hg|exact HSt|auto|auto|auto|auto|exact A5|exact A6|reflexivity|exact D2| | |].
            -- rewrite FT. cbn [fst]. clear -FC. unfold tops in FC.
               assert (Gr : forall a b, Forall2 (fun c v => val_cls v = c) a b -> Forall2 (fun c v => val_cls v = c) (rev a) (rev b)).
               { induction 1; cbn; [constructor|]. apply Forall2_app; auto. }
               apply Gr in FC. rewrite rev_involutive in FC. remember (rev s1) as w. clear -FC. revert w FC.
               induction ps; cbn; intros w H; inversion H; subst; constructor; auto.
            -- rewrite FT. exact FW.
            -- rewrite FT. cbn [snd]. intros vs y c' Lv Ac. rewrite !app_assoc in Ac.
               eapply (IH c ltac:(lia)); [exact Lc|exact Pd| |exact HCk|exact HX|exact Ft|exact Lpf|exact Ac|].
               ++ rewrite <- app_assoc. exact R1.
               ++ rewrite !app_length. lia.
          * cbn [post]. exists 1. cbn [Machine.steps]. rewrite (step_code fn d0 C al HF) by auto.
            unfold hstep. rewrite A7, Ni, RG. cbn [hres payload]. rewrite EI, TF. cbn [hres].
            rewrite NM1, types_eq, Nt, NM2, FE. now rewrite A4.
        + cbn [post]. exists 1. cbn [Machine.steps]. rewrite (step_code fn d0 C al HF) by auto.
          unfold hstep. rewrite A7, Ni, RG. cbn [hres payload]. rewrite EI, TF. cbn [hres]. now rewrite A4.
        + exact I.
    Qed.

    Lemma body_sim n : simf n -> forall c0 y0, at_ c0 1 0 [] [] y0 -> body_post d0 al bse st nres callers n c0 y0.
    Proof.
      intros HSf c0 y0 A0. unfold body_post. pose proof (k_chk _ _ _ _ HF) as HCk. unfold chk_body in HCk.
      destruct (translate_loc _ _ _ _ (k_tr _ _ _ _ HF)) as (kf & pe & Lc & Ne & LC & EAl).
      match type of HCk with match ?b with _ => _ end = true => destruct b as [r|] eqn:CK; [|discriminate] end.
      set (lf := {| lb_kind := KFunc; lb_types := tops (e_results E); lb_under := [] |}) in *.
      assert (HX : ctx [lf] [] [([], [])]) by (cbn; auto).
      assert (Ft : fits W (k_al kf)) by (intros c; rewrite EAl; lia).
      assert (Hpe : pe < L) by lia.
      assert (HA : ainv nl (k_al (CS (al_new (e_locals E)) [])) ([] ++ [])) by apply al_new_ok.
      pose proof (static SM d0 HL HI Pc Qc L _ _ (le_n _) _ _ _ _ _ _ [] [] _ Lc eq_refl HA CK) as (_ & _ & _ & T4).
      pose proof (HSf _ _ _ _ _ _ _ _ _ _ _ _ [] y0 c0 Lc eq_refl HA CK HX Ft Hpe A0 eq_refl) as P.
      change (map (fun l => length (lb_types l)) [lf]) with [length (tops (snd (sf_type d0)))] in P. rewrite tops_length in P.
      destruct (exec n [length (snd (sf_type d0))] (sf_body d0) [] y0) as [vs y|[|d] vs y|vs y|t lg|z lg| | |]; cbn [post] in P; auto.
      - destruct P as (ts' & -> & Lv & m & c' & S1 & A1). apply cls_list_eqb_inv in HCk. subst ts'.
        cbn [length] in A1. rewrite !app_nil_r in A1. pose proof A1 as [B1 B2 B3 B4 B5 B6 B7 B8].
        cbn [ends] in T4. rewrite (peek_regs_ok nl (k_al kf) (e_results E) [] W HW Ft T4) in Ne.
        assert (D9 : dinv (s_d (c_v c')) (tops (e_results E) ++ []) (vs ++ []) y) by now rewrite !app_nil_r.
        destruct (hold_app E bse _ _ _ _ _ (v_hold _ _ _ _ _ _ _ _ D9) Lv) as (_ & GV & FC). apply get_vals_rev in GV.
        set (v1 := {| s_d := s_d (c_v c'); s_labels := s_labels (c_v c'); s_ret := rev (slots nl (tops (e_results E)) []); s_pc := L |}).
        assert (HS1 : hstep hf M C (c_v c') = HNext v1).
        { unfold hstep. rewrite B7, Ne, B5. cbn [Nat.leb]. unfold end_halt, arrayvec8. pose proof (k_8 _ _ _ _ HF) as H8.
          destruct (Nat.leb_spec (length (rev (slots nl (tops (e_results E)) []))) 8) as [H|H]; [reflexivity|].
          exfalso. rewrite rev_length, slots_length, tops_length in H. cbn [e_results env_of] in H. lia. }
        exists (m + 1), (with_v c' v1). split; [rewrite (steps_app _ _ _ _ _ _ _ S1); eapply at_next; eauto|].
        exists v1. split.
        { rewrite (step_code fn d0 C al HF) by exact B1. unfold hstep, with_v. cbn [c_v v1 s_pc].
          rewrite (proj2 (nth_error_None C L) (le_n _)), Nat.eqb_refl. reflexivity. }
        do 3 (split; [assumption|]). cbn [v1 s_d s_ret]. split; [exact GV|]. split; [now rewrite rev_length, slots_length|].
        split; [apply B8|]. split; [apply B8|exact FC].
      - destruct P as (l & o & k & N1 & BO & N2 & Lv & m & c' & S1 & A1). cbn [nth_error] in N1, N2. inversion N1; inversion N2; subst l o k.
        specialize (BO eq_refl). unfold lf in BO. cbn [lf lb_kind lb_types] in BO, Lv, A1. destruct (tops (e_results E)) eqn:TE; [|discriminate BO].
        destruct vs; [|discriminate]. unfold br_to in A1. cbn [nth_error fst length app Nat.sub Nat.max] in A1.
        pose proof A1 as [B1 B2 B3 B4 B5 B6 B7 B8].
        exists m, c'. split; [exact S1|]. exists (c_v c'). split.
        { rewrite (step_code fn d0 C al HF) by exact B1. unfold hstep.
          rewrite B7, (proj2 (nth_error_None C L) (le_n _)), Nat.eqb_refl. reflexivity. }
        do 3 (split; [assumption|]). rewrite B6. split; [reflexivity|]. split; [reflexivity|].
        split; [apply B8|]. split; [apply B8|]. rewrite TE. constructor.
      - destruct P as (l & o & k & N1 & _). destruct d; discriminate.
    Qed.
  End Fn2.

  Lemma all_sim n : (forall fn d0 C al, fok fn d0 C al -> forall bse st nres callers, simf fn d0 C al bse st nres callers n) /\ calls_ok n.
  Proof.
    induction n as [|n [IH1 IH2]].
    - assert (H : forall fn d0 C al, fok fn d0 C al -> forall bse st nres callers, simf fn d0 C al bse st nres callers 0).
      { intros. eapply sim_code; eauto; intros n' Q; discriminate. }
      split; [exact H|]. unfold calls_ok. intros. eapply body_sim; eauto.
    - assert (H : forall fn d0 C al, fok fn d0 C al -> forall bse st nres callers, simf fn d0 C al bse st nres callers (S n)).
      { intros. eapply sim_code; eauto; intros n' Q; injection Q as <-; auto. }
      split; [exact H|]. unfold calls_ok. intros. eapply body_sim; eauto.
  Qed.

  (** ** the whole program *)
  Theorem simulation n f d args s : nth_error (sm_funcs SM) f = Some (SWasm d) ->
    Forall2 (fun t v => val_cls v = class_of t) (fst (sf_type d)) args ->
    exists c0, initial M s f args = Ok c0 /\
    match invoke (chiwawa_prims hf) host SM n f args s with
    | ONorm vals x => exists m, steps m c0 = inr (Done vals (x_inst x) (x_log x))
    | OTrap t l => exists m, steps m c0 = inr (Trapped t l)
    | OExit z l => exists m, steps m c0 = inr (Exited z l)
    | OFuel => exists m c', n <= m /\ steps m c0 = inl c'
    | OUB => True
    | OBr _ _ _ | ORet _ _ | OStuck => False
    end.
  Proof.
    intros Nf FA. pose proof (func_at f) as FK. rewrite Nf in FK. destruct FK as (C & al & HF).
    assert (LA : length args = length (fst (sf_type d))) by (apply F2_len in FA; congruence).
    unfold initial. rewrite (k_tgt _ _ _ _ HF). cbn [fd_type fd_alloc fd_locals]. rewrite LA, Nat.eqb_refl.
    eexists. split; [reflexivity|]. unfold invoke. rewrite Nf.
    match goal with |- context [exec n _ _ [] ?y] => set (y0 := y) end.
    match goal with |- context [steps _ ?c] => set (c0 := c) end.
    assert (A0 : at_ f d al (sget (rf_vecs rf_new)) (rf_stack rf_new) (length (snd (sf_type d))) [] c0 1 0 [] [] y0).
    { constructor; cbn; auto. constructor; cbn; auto.
      - apply rfok_save.
      - apply Forall2_app; [exact FA|]. generalize (sf_locals d). induction l as [|t l IHl]; cbn; constructor; auto. destruct t; reflexivity. }
    pose proof (proj2 (all_sim n) f d C al HF _ _ _ _ c0 y0 A0) as B. unfold body_post in B.
    assert (RET : forall vs y, (exists m c1, steps m c0 = inl c1 /\ leaves d al (sget (rf_vecs rf_new)) (rf_stack rf_new)
                        (length (snd (sf_type d))) [] c1 vs y) -> exists m, steps m c0 = inr (Done (rev vs) (x_inst y) (x_log y))).
    { intros vs y (m & c1 & S1 & w & Q1 & Q2 & Q3 & Q4 & Q5 & Q6 & Q7 & Q8 & Q9).
      exists (m + 1). rewrite (steps_app _ _ _ _ _ _ _ S1). cbn [Machine.steps]. rewrite Q1. unfold leave. rewrite Q3, Q2.
      apply F2_len in Q9. rewrite tops_length in Q9. rewrite firstn_all2 by (cbn [e_results env_of] in Q9; lia).
      rewrite Q5. cbn [sres]. now rewrite Q8, Q4. }
    destruct (exec n [length (snd (sf_type d))] (sf_body d) [] y0) as [vs y|[|?] vs y|vs y|t l|z l| | |]; cbn [finish]; try (now apply RET); auto.
  Qed.
End Dyn.
