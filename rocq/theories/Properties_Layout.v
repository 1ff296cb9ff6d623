(** Properties of the layout of translated code and of the label stack: C44, C45. *)
From Coq Require Import ZArith List Bool Lia.
From Verif Require Import Word Value Mem Store Regs IR Machine Wasm Decoder Check RegsProofs Sim FrameFacts DecodeProofs Layout Examples.
Import ListNotations.
Open Scope nat_scope.

(** ** C44 jump targets *)
(** For every operator sequence that is the encoding of some nested code (typed or not) and its
    translation [C]: each block opened in [C] has a matching end; an [if] without else continues
    after it, an [if] with else at the position after its else, whose jump leads behind the end; a
    branch of depth d leads to the end of the d-th enclosing block, or to the start of that block
    if it is a loop, and out of the body if there is no such block (a table branch then: to 0). *)
Theorem C44_targets : forall E c C al, translate E (flatten c ++ [FEnd]) = Some (C, al) ->
  forall p i, nth_error C p = Some i ->
  match i with
  | IBlock _ => exists m, closes C p m
  | IIf _ e false => exists m, closes C p m /\ e = S m
  | IIf _ e true => exists m j, closes C p m /\ p < j < m /\ nth_error C j = Some (IJump (S m)) /\ height C j = (height C p + 1)%Z /\ e = S j
  | IJump t => exists o m, encloses C o p /\ height C p = (height C o + 1)%Z /\ closes C o m /\ t = S m
  | IBr d t _ _ | IBrIf d t _ _ _ => goes C (length C) p d t
  | IBrTable ts df _ _ => forall d t rs, In (d, t, rs) (df :: ts) -> goes C 0 p d t
  | _ => True
  end.
Proof.
  intros E c C al H p i N. destruct (translate_placed _ _ _ _ H) as (_ & _ & _ & PL). destruct (PL p i N) as (K & _ & _).
  destruct i; cbn [placed] in K; auto.
  - destruct K as (o & m & A & B & D & _ & _ & T). eauto 10.
  - destruct K as (m & A & _). eauto.
  - destruct K as (m & A & _ & B). destruct has_else; [destruct B as (j & B1 & B2 & B3 & B4); exists m, j; auto 10|exists m; auto].
Qed.
(** the matching end is unique *)
Theorem C44_unique : forall C p m m', closes C p m -> closes C p m' -> m = m'.
Proof.
  intros C p m m' (A1 & (s & t & A2) & A3 & A4) (B1 & (s' & t' & B2) & B3 & B4).
  destruct (Nat.lt_total m m') as [L|[E|L]]; auto; exfalso.
  - specialize (B4 (S m) ltac:(lia)). lia.
  - specialize (A4 (S m') ltac:(lia)). lia.
Qed.
(** nested blocks, a loop, if/else and dead code *)
Definition p_nest := func [TI32] [] []
  [block [] [] [loop [] [] [get 0; ifelse [] [] [CBr 2; drop; block [] [] []] [get 0; CBrIf 1]]; get 0; CIf [] [] (seqc [CBr 1])]].
Definition code_of (f : sfunc) : list instr :=
  match f with
  | SWasm d => match translate (env_of {| sm_funcs := [f]; sm_types := [] |} d) (flatten (sf_body d) ++ [FEnd]) with Some (C, _) => C | None => [] end
  | _ => []
  end.
Example C44_example : code_of p_nest =
  [IBlock false; IBlock true; IMov CI32 (DReg 0) (OLoc 0); IIf 0 9 true; IBr 2 18 [] []; INop; INop; INop; IJump 12;
   IMov CI32 (DReg 0) (OLoc 0); IBrIf 1 1 0 [] []; IEnd [] []; IEnd [] []; IMov CI32 (DReg 0) (OLoc 0); IIf 0 17 false;
   IBr 1 18 [] []; IEnd [] []; IEnd [] []; IEnd [] []].
Proof. vm_compute. reflexivity. Qed.

(** ** C45 the label stack *)
(** one entry per block open at the current position, plus one; one at the end of the code *)
Definition level (C : list instr) (pc labels : nat) : Prop :=
  (pc < length C -> Z.of_nat labels = (1 + height C pc)%Z) /\ (pc = length C -> labels = 1) /\ pc <= length C.
Definition code_ok (C : list instr) : Prop :=
  (exists s t, nth_error C (length C - 1) = Some (IEnd s t)) /\ 0 < length C /\ height C (length C - 1) = 0%Z /\
  forall p i, nth_error C p = Some i -> placed C p i /\ (S p < length C -> delta i = (-1)%Z -> (1 <= height C p)%Z) /\ (0 <= height C p)%Z.
Definition lv (C : list instr) (v : vs) : Prop := level C (s_pc v) (length (s_labels v)).

Lemma pop_to_len ls d : length (pop_to ls d) = Nat.min (length ls) (Nat.max (length ls - 1 - d) 1).
Proof. unfold pop_to, truncate. rewrite skipn_length. lia. Qed.
Lemma height_0 C : height C 0 = 0%Z. Proof. destruct C; reflexivity. Qed.
Lemma branch_lv C out v d t src tgt v' i : nth_error C (s_pc v) = Some i -> (0 <= height C (s_pc v))%Z -> (out = 0 \/ out = length C) -> 0 < length C ->
  lv C v -> goes C out (s_pc v) d t -> branch v d t src tgt = HNext v' -> lv C v'.
Proof.
  intros N P0 HO L0 (V1 & _ & _) (G1 & G2) H. unfold branch in H.
  destruct (match src with [] => _ | _ => _ end) as [rf| |]; cbn in H; try discriminate. injection H as <-.
  assert (L : s_pc v < length C) by (apply nth_error_Some; congruence). specialize (V1 L).
  unfold lv, level. cbn [s_pc s_labels]. rewrite pop_to_len.
  destruct (Z.lt_ge_cases (Z.of_nat d) (height C (s_pc v))) as [D|D].
  - destruct (G1 D) as (o & e & EN & HE & (C1 & C2 & C3 & C4) & SE & ->). destruct EN as (O1 & _).
    split; [|destruct (is_loop_at C o); lia]. intros _. destruct (is_loop_at C o); [lia|]. rewrite C3. lia.
  - rewrite (G2 D). destruct HO as [->| ->]; [|lia]. split; [|lia]. intros _. rewrite height_0. lia.
Qed.
Lemma level_same C p q n : level C p n -> p < length C -> q < length C -> height C q = height C p -> level C q n.
Proof. intros (A & _) L L' E. unfold level. split; [intros _; rewrite E; auto|]. lia. Qed.
Lemma not_end_lt C p i : code_ok C -> nth_error C p = Some i -> delta i <> (-1)%Z -> S p < length C.
Proof.
  intros ((s & t & K) & L & _) N D. assert (p < length C) by (apply nth_error_Some; congruence).
  destruct (Nat.eq_dec (S p) (length C)) as [E|]; [|lia]. exfalso. replace (length C - 1) with p in K by lia. rewrite N in K. injection K as ->. cbn in D. lia.
Qed.
Lemma next_lv C v i d rt : code_ok C -> nth_error C (s_pc v) = Some i -> delta i = 0%Z -> lv C v ->
  lv C {| s_d := d; s_labels := s_labels v; s_ret := rt; s_pc := S (s_pc v) |}.
Proof.
  intros K N D V. unfold lv. cbn. assert (s_pc v < length C) by (apply nth_error_Some; congruence).
  apply (level_same C (s_pc v)); auto. { apply (not_end_lt C (s_pc v) i); auto. lia. } pose proof (height_S _ _ _ N). lia.
Qed.
Lemma hstep_lv hf M C v : code_ok C -> lv C v -> match hstep hf M C v with HNext v' => lv C v' | HYield (YWasi _ _ _) v' | HYield (YInvoke _ _ _) v' => lv C v' | _ => True end.
Proof.
  intros K V. pose proof K as (KE & KL & KH & KP). unfold hstep. destruct (nth_error C (s_pc v)) as [i|] eqn:N; [|now destruct (Nat.eqb _ _)].
  assert (L : s_pc v < length C) by (apply nth_error_Some; congruence). destruct (KP _ _ N) as (PL & PE & P0). pose proof V as (V1 & _ & _). specialize (V1 L).
  assert (GO : delta i = 0%Z -> lv C (goto v (S (s_pc v)))) by (intros D; apply (next_lv C v i); auto).
  destruct i; cbn [delta placed] in *;
    try (match goal with |- context[dstep hf ?i ?d] => destruct (dstep hf i d) as [[d'| |]|] eqn:E end; auto; eapply next_lv; eauto; fail).
  - destruct (rf_get_vals _ _); cbn; auto.
  - destruct (rf_get _ _ _); cbn; auto. destruct (table_func _ _ _); cbn; auto. destruct (nth_error (md_funcs M) _); auto. destruct (nth_error (md_types M) _); auto.
    destruct (ftype_eqb _ _); auto. destruct (rf_get_vals _ _); cbn; auto. destruct (arrayvec8 _); cbn; auto.
  - destruct (nth_error (md_funcs M) _); auto. destruct (rf_get_vals _ _); cbn; auto. destruct (arrayvec8 _); cbn; auto.
  - destruct (arrayvec8 _); cbn; auto.
  - destruct PL as (o & m & EN & HO & (C1 & C2 & C3 & C4) & PM & SM & ->). unfold lv, level. cbn [s_pc s_labels].
    assert (HG : (0 < height C (s_pc v))%Z). { destruct EN as (O1 & (j & O2 & _) & _). destruct (KP _ _ O2) as (_ & _ & O3). lia. }
    destruct (Nat.ltb_spec 1 (length (s_labels v))); [|lia]. rewrite C3. split; [|lia]. intros _.
    destruct (s_labels v) as [|l0 ls]; cbn [length tl] in *; lia.
  - pose proof (not_end_lt C (s_pc v) _ K N ltac:(cbn; lia)). pose proof (height_S _ _ _ N) as HS. cbn [delta] in HS. unfold lv, level. cbn [s_pc s_labels push_label length]. lia.
  - destruct (rf_get _ _ _); cbn; auto. pose proof (not_end_lt C (s_pc v) _ K N ltac:(cbn; lia)). pose proof (height_S _ _ _ N) as HS. cbn [delta] in HS.
    destruct PL as (m & (C1 & C2 & C3 & C4) & SM & PL). destruct (negb _).
    + unfold lv, level. cbn [s_pc s_labels push_label length]. lia.
    + destruct has_else.
      * destruct PL as (j & J1 & J2 & J3 & ->). pose proof (height_S _ _ _ J2) as HJ. cbn [delta] in HJ. unfold lv, level. cbn [s_pc s_labels push_label length]. lia.
      * subst. unfold lv, level. cbn [s_pc s_labels goto]. rewrite C3. lia.
  - destruct (Nat.leb_spec (length (s_labels v)) 1).
    + unfold end_halt. destruct (arrayvec8 _); cbn; auto. unfold lv, level. cbn [s_pc s_labels]. lia.
    + destruct (rf_copies _ _ _); cbn [hres]; auto. cbn [s_pc s_labels].
      assert (SL : S (s_pc v) < length C). { destruct (Nat.eq_dec (S (s_pc v)) (length C)) as [E|]; [|lia]. replace (length C - 1) with (s_pc v) in KH by lia. lia. }
      replace (Nat.leb (length C) (S (s_pc v))) with false by (symmetry; apply Nat.leb_gt; lia). cbn [andb].
      pose proof (height_S _ _ _ N) as HS. cbn [delta] in HS. unfold lv, level. cbn [s_pc s_labels goto].
      destruct (s_labels v) as [|l0 ls]; cbn [length tl] in *; lia.
  - destruct (branch _ _ _ _ _) eqn:B; auto. { eapply (branch_lv C (length C)); eauto. } unfold branch in B. destruct (match src with [] => _ | _ => _ end); discriminate.
  - destruct (rf_get _ _ _); cbn; auto. destruct (Z.eqb _ _); [apply GO; reflexivity|].
    destruct (branch _ _ _ _ _) eqn:B; auto. { eapply (branch_lv C (length C)); eauto. } unfold branch in B. destruct (match src with [] => _ | _ => _ end); discriminate.
  - destruct (rf_get _ _ _) as [k| |]; cbn; auto. set (n := cast_u 32 (payload k)).
    assert (IN : In (if (n <? Z.of_nat (length targets))%Z then nth (Z.to_nat n) targets default else default) (default :: targets)).
    { destruct (Z.ltb_spec n (Z.of_nat (length targets))); [|now left]. destruct (Nat.lt_ge_cases (Z.to_nat n) (length targets)); [right; now apply nth_In|]. rewrite nth_overflow by auto. now left. }
    destruct (if (n <? Z.of_nat (length targets))%Z then _ else _) as [[dd t] rs].
    destruct (branch _ _ _ _ _) eqn:B; auto. { eapply (branch_lv C 0); eauto. } unfold branch in B. destruct (match src with [] => _ | _ => _ end); discriminate.
  - exact Logic.I.
Qed.

(** the running frame and every suspended one *)
Definition levels (M : modul) (c : config) : Prop :=
  (exists fd, nth_error (md_funcs M) (c_fn c) = Some (FWasm fd) /\ lv (fd_code fd) (c_v c)) /\
  Forall (fun f => exists fd, nth_error (md_funcs M) (f_fn f) = Some (FWasm fd) /\ level (fd_code fd) (top_ip (f_labels f)) (length (f_labels f))) (c_callers c).
Definition mod_ok (M : modul) : Prop := forall f fd, nth_error (md_funcs M) f = Some (FWasm fd) -> code_ok (fd_code fd).
Lemma level_ne C p n : code_ok C -> level C p n -> n <> 0.
Proof.
  intros (_ & _ & _ & KP) (A & B & D) ->. destruct (Nat.eq_dec p (length C)) as [E|]; [apply B in E; discriminate|].
  destruct (nth_error C p) as [i|] eqn:N; [|apply nth_error_None in N; lia]. destruct (KP _ _ N) as (_ & _ & P0). specialize (A ltac:(lia)). lia.
Qed.
Lemma levels_step hf host M c c' : mod_ok M -> levels M c -> step hf host M c = SNext c' -> levels M c'.
Proof.
  intros MO ((fd & NF & LV) & FA) H. unfold step in H. rewrite NF in H. pose proof (MO _ _ NF) as CO. pose proof (hstep_lv hf M (fd_code fd) (c_v c) CO LV) as HL.
  assert (LEAVE : forall v, leave c v = SNext c' -> levels M c').
  { intros v X. unfold leave in X. destruct (c_callers c) as [|f fs]; [destruct (rf_get_vals _ _); discriminate|].
    destruct (rf_get_vals _ _); cbn in X; try discriminate. destruct (rf_set_vals _ _ _); cbn in X; try discriminate. injection X as <-.
    inversion FA as [|? ? (g & G1 & G2) FA']; subst. split; [|exact FA']. exists g. split; auto. }
  destruct (hstep hf M (fd_code fd) (c_v c)) as [v|v|[|w a r|f a rs] v| |] eqn:HS; try discriminate; eauto.
  - injection H as <-. split; [exists fd; auto|exact FA].
  - unfold call_host in H. destruct (host _); try discriminate.
    match type of H with sres _ ?r _ = _ => destruct r end; cbn in H; try discriminate. injection H as <-. split; [exists fd; auto|exact FA].
  - destruct (nth_error (md_funcs M) f) as [[g|]|] eqn:NG; try discriminate. unfold enter in H. destruct (default_locals _); cbn in H; try discriminate. injection H as <-.
    split.
    + exists g. split; auto. unfold lv, level. cbn. rewrite height_0. destruct (MO _ _ NG) as (_ & L & _). lia.
    + constructor; [|exact FA]. exists fd. split; [exact NF|]. cbn [suspend f_labels]. pose proof (level_ne _ _ _ CO HL) as NE. unfold lv in HL.
      destruct (s_labels v); [cbn in NE; congruence|]. exact HL.
Qed.
Lemma compile_ok SM M : compile SM = Some M -> mod_ok M.
Proof.
  intros H f fd N. unfold compile in H. destruct (map_opt (compile_func SM) (sm_funcs SM)) as [fs|] eqn:E; [|discriminate]. injection H as <-. cbn in N.
  assert (K : forall l fs, map_opt (compile_func SM) l = Some fs -> forall x, In x fs -> exists y, compile_func SM y = Some x).
  { induction l as [|y l IH]; intros gs X x IN; cbn in X; [injection X as <-; destruct IN|].
    destruct (compile_func SM y) eqn:Y; [|discriminate]. destruct (map_opt _ l) eqn:Z; [|discriminate]. injection X as <-. destruct IN as [<-|IN]; eauto. }
  destruct (K _ _ E _ (nth_error_In _ _ N)) as (y & Y). unfold compile_func in Y. destruct y as [d|]; [|discriminate].
  destruct (translate _ _) as [[C al]|] eqn:T; [|discriminate]. injection Y as <-. cbn. exact (translate_placed _ _ _ _ T).
Qed.
(** For every module that translates, in every reachable configuration, the running frame and all
    suspended ones (at the position where they will go on) have exactly one label per block open at
    their position, plus one for the body; and a frame whose code has come to its end has one. *)
Theorem C45_label_stack : forall hf host SM M s f args c0 n c, compile SM = Some M -> initial M s f args = Ok c0 ->
  steps hf host M n c0 = inl c ->
  (exists fd, nth_error (md_funcs M) (c_fn c) = Some (FWasm fd) /\ level (fd_code fd) (s_pc (c_v c)) (length (s_labels (c_v c)))) /\
  (forall fr, In fr (c_callers c) -> exists fd, nth_error (md_funcs M) (f_fn fr) = Some (FWasm fd) /\
     level (fd_code fd) (top_ip (f_labels fr)) (length (f_labels fr))).
Proof.
  intros hf host SM M s f args c0 n c CM I0 ST. apply compile_ok in CM.
  assert (L0 : levels M c0).
  { unfold initial in I0. destruct (nth_error (md_funcs M) f) as [[fd|]|] eqn:N; try discriminate. destruct (Nat.eqb _ _); [|discriminate]. injection I0 as <-.
    split; [|constructor]. exists fd. split; auto. unfold lv, level. cbn. rewrite height_0. destruct (CM _ _ N) as (_ & L & _). lia. }
  assert (L : levels M c).
  { clear I0. revert c0 L0 ST. induction n as [|n IH]; intros c0 L0 ST; cbn [steps] in ST; [injection ST as <-; auto|].
    destruct (step hf host M c0) as [c1| | | |] eqn:E; try discriminate. eapply (IH c1); eauto using levels_step. }
  destruct L as [L1 L2]. split; [exact L1|]. rewrite Forall_forall in L2. exact L2.
Qed.
(** inside the loop of [p_nest]'s block, in the then branch *)
Example C45_example : exists M c0 c, compile {| sm_funcs := [p_nest]; sm_types := [] |} = Some M /\ initial M inst0 0 [VI32 1] = Ok c0 /\
  steps hf0 host0 M 4 c0 = inl c /\ s_pc (c_v c) = 4 /\ length (s_labels (c_v c)) = 4 /\ height (code_of p_nest) 4 = 3%Z.
Proof. do 3 eexists. split; [vm_compute; reflexivity|]. split; [vm_compute; reflexivity|]. split; [vm_compute; reflexivity|]. repeat split. Qed.
