(** The translator accepts every valid body it has operators for.  Proof device for
    Properties_Total.v (no modelled code). *)
From Coq Require Import ZArith List Bool Lia.
From Verif Require Import Word Value Numeric Mem MemProofs Store StoreProofs Regs IR Machine Wasm WasmTyping Decoder Check RegsProofs Loc DecodeProofs BasicSim Sim Restrict StaticSpec StaticProofs TotalSpec.
Import ListNotations.
Open Scope nat_scope.

(** ** fixups never fail *)
Section Fix.
  Variable (E : denv) (F G : nat -> option nat) (C0 : list instr).
  Let L := length C0.
  Definition pok (q : nat) : Prop := forall i, nth_error C0 q = Some i -> patch F G L (starts C0 (S q)) i <> None.
  Lemma plain_pok pc i : P0 C0 pc i -> plain i -> pok pc /\ starts C0 (S pc) = starts C0 pc.
  Proof.
    intros H (A & B & D). unfold P0 in H. rewrite A in H. split.
    - intros j J. rewrite H in J. injection J as <-. rewrite (patch_none _ _ _ _ _ pc (B pc)). discriminate.
    - rewrite (starts_S F C0 [] _ _ H). apply D.
  Qed.
  Lemma all_pok is : forall pc, all_at (P0 C0) pc is -> Forall plain is ->
    (forall q, pc <= q < pc + length is -> pok q) /\ starts C0 (pc + length is) = starts C0 pc.
  Proof.
    induction is as [|i is IH]; intros pc A K; cbn [all_at length] in *; [rewrite Nat.add_0_r; split; auto; intros; lia|].
    destruct A as [A1 A2]. inversion K; subst. destruct (plain_pok _ _ A1 H1) as [B1 B2]. destruct (IH _ A2 H2) as [B3 B4].
    split; [|rewrite <- B2, <- B4; f_equal; lia]. intros q Q. destruct (Nat.eq_dec q pc) as [->|]; auto. apply B3. lia.
  Qed.
  Lemma nops_pok pc c pf : nops (P0 C0) pc c pf -> (forall q, pc <= q < pf -> pok q) /\ starts C0 pf = starts C0 pc /\ pc <= pf.
  Proof.
    intros [-> H]. destruct (all_pok _ _ H) as [A B].
    { apply Forall_forall. intros x K. apply repeat_spec in K. subst. apply plain_nop. }
    rewrite repeat_length in A, B. split; [|split]; auto. lia.
  Qed.
  Lemma end_pok pc s t : P0 C0 pc (IEnd s t) -> pok pc /\ starts C0 (S pc) = tl (starts C0 pc).
  Proof.
    intros H. unfold P0 in H. cbn [erase] in H. split.
    - intros j J. rewrite H in J. injection J as <-. discriminate.
    - now rewrite (starts_S F C0 [] _ _ H).
  Qed.
  Lemma pok_glue pc q1 pf : pok pc -> (forall q, S pc <= q < q1 -> pok q) -> (forall q, q1 <= q < pf -> pok q) -> forall q, pc <= q < pf -> pok q.
  Proof. intros A B C q H. destruct (Nat.eq_dec q pc) as [->|]; auto. destruct (Nat.ltb_spec q q1); [apply B|apply C]; lia. Qed.
  Lemma loc_pok : forall n c, csize c <= n -> forall X k pc kf pf,
    loc E (P0 C0) (Q0 F G) L X k pc c kf pf -> good F X (starts C0 pc) ->
    (forall q, pc <= q < pf -> pok q) /\ starts C0 pf = starts C0 pc /\ pc <= pf.
  Proof.
    induction n as [|n IH]; intros c Hc; [destruct c; cbn in Hc; lia|].
    intros X k pc kf pf H K. destruct c; cbn [csize] in Hc; cbn [loc] in H.
    - destruct H as [-> ->]. split; [intros; lia|auto].
    - destruct (dec_basic E b (flatten c ++ [FEnd]) k) as [[[is k1] skip]|] eqn:D; [|tauto].
      destruct H as [A H]. destruct (all_pok _ _ A (dec_basic_plain _ _ _ _ _ _ _ D)) as [A1 A2].
      assert (W : forall c2, csize c2 <= n -> loc E (P0 C0) (Q0 F G) L X k1 (pc + length is) c2 kf pf ->
                (forall q, pc <= q < pf -> pok q) /\ starts C0 pf = starts C0 pc /\ pc <= pf).
      { intros c2 S2 J. apply IH in J; auto; [|now rewrite A2]. destruct J as (J1 & J2 & J3). split; [|split; [congruence|lia]].
        intros q Q. destruct (Nat.ltb_spec q (pc + length is)); [apply A1|apply J1]; lia. }
      destruct c; try (destruct H as [-> H]; apply W in H; [exact H|cbn [csize] in *; lia]).
      destruct skip; apply W in H; cbn [csize] in *; try lia; exact H.
    - destruct (open_block (k_al k) is_loop ps rs) as [[a1 s] b]. destruct H as (I1 & kb & pe & H1 & I2 & I3 & H3).
      unfold P0 in I1. cbn [erase] in I1. pose proof (starts_S F C0 [] _ _ I1) as S1. cbn [scan1] in S1.
      assert (PB : pok pc) by (intros j J; rewrite I1 in J; injection J as <-; discriminate).
      apply IH in H1; [|lia|rewrite S1; constructor; [cbn; destruct is_loop; [auto|split; [auto|apply I3]]|exact K]].
      destruct H1 as (H1 & E1 & L1). apply end_pok in I2. destruct I2 as [I2 E2]. rewrite E1, S1 in E2. cbn [tl] in E2.
      apply IH in H3; [|lia|now rewrite E2]. destruct H3 as (H3 & E3 & L3).
      split; [|split; [congruence|lia]]. intros q Q. destruct (Nat.eq_dec q pe) as [->|]; auto. apply (pok_glue pc pe pf); auto. intros q' Q'. destruct (Nat.eq_dec q' pe) as [->|]; auto. apply H3; lia.
    - destruct (al_pop (k_al k) TI32) as [a0 rc]. destruct (open_block a0 false ps rs) as [[a1 s] b].
      destruct H as (kb & pe & I1 & H1 & I2 & [I3 I4] & H3).
      unfold P0 in I1. cbn [erase] in I1. pose proof (starts_S F C0 [] _ _ I1) as S1. cbn [scan1] in S1.
      assert (PB : pok pc) by (intros j J; rewrite I1 in J; injection J as <-; rewrite S1; cbn; rewrite I3; discriminate).
      apply IH in H1; [|lia|rewrite S1; constructor; [cbn; auto|exact K]].
      destruct H1 as (H1 & E1 & L1). apply end_pok in I2. destruct I2 as [I2 E2]. rewrite E1, S1 in E2. cbn [tl] in E2.
      apply IH in H3; [|lia|now rewrite E2]. destruct H3 as (H3 & E3 & L3).
      split; [|split; [congruence|lia]]. intros q Q. destruct (Nat.eq_dec q pe) as [->|]; auto. apply (pok_glue pc pe pf); auto. intros q' Q'. destruct (Nat.eq_dec q' pe) as [->|]; auto. apply H3; lia.
    - destruct (al_pop (k_al k) TI32) as [a0 rc]. destruct (open_block a0 false ps rs) as [[a1 s] b].
      destruct H as (kt & pt & kb & pe & I1 & H1 & J1 & H2' & I2 & [I3 I4] & Lt & H3).
      unfold P0 in I1. cbn [erase] in I1. pose proof (starts_S F C0 [] _ _ I1) as S1. cbn [scan1] in S1.
      assert (PB : pok pc) by (intros j J; rewrite I1 in J; injection J as <-; rewrite S1; cbn; rewrite I3; discriminate).
      apply IH in H1; [|lia|rewrite S1; constructor; [cbn; auto|exact K]]. destruct H1 as (H1 & E1 & L1).
      unfold P0 in J1. cbn [erase] in J1. pose proof (starts_S F C0 [] _ _ J1) as S2. cbn [scan1] in S2. rewrite E1, S1 in S2.
      assert (PJ : pok pt) by (intros j J; rewrite J1 in J; injection J as <-; rewrite S2; cbn; rewrite I3; discriminate).
      apply IH in H2'; [|lia|rewrite S2; constructor; [cbn; auto|exact K]].
      destruct H2' as (H2' & E4 & L4). apply end_pok in I2. destruct I2 as [I2 E2]. rewrite E4, S2 in E2. cbn [tl] in E2.
      apply IH in H3; [|lia|now rewrite E2]. destruct H3 as (H3 & E3 & L3).
      split; [|split; [congruence|lia]]. intros q Q.
      destruct (Nat.eq_dec q pc) as [->|]; auto. destruct (Nat.eq_dec q pt) as [->|]; auto. destruct (Nat.eq_dec q pe) as [->|]; auto.
      destruct (Nat.ltb_spec q pt); [apply H1; lia|]. destruct (Nat.ltb_spec q pe); [apply H2'; lia|apply H3; lia].
    - destruct (br_to L X d) as [t rs] eqn:BT. destruct H as (I1 & -> & H).
      unfold P0 in I1. cbn [erase] in I1. pose proof (starts_S F C0 [] _ _ I1) as S1. cbn [scan1] in S1.
      destruct (br_go F C0 [] X pc d K) as (v & V1 & V2).
      assert (PB : pok pc). { intros j J. rewrite I1 in J. injection J as <-. rewrite S1. cbn [patch]. rewrite V1. destruct v as [[? ?]|]; discriminate. }
      apply nops_pok in H. destruct H as (H & E1 & L1). split; [|split; [congruence|lia]]. intros q Q. destruct (Nat.eq_dec q pc) as [->|]; auto. apply H; lia.
    - destruct (br_to L X d) as [t rs] eqn:BT. destruct H as (I1 & H).
      unfold P0 in I1. cbn [erase] in I1. pose proof (starts_S F C0 [] _ _ I1) as S1. cbn [scan1] in S1.
      destruct (br_go F C0 [] X pc d K) as (v & V1 & V2).
      assert (PB : pok pc). { intros j J. rewrite I1 in J. injection J as <-. rewrite S1. cbn [patch]. rewrite V1. destruct v as [[? ?]|]; discriminate. }
      apply IH in H; [|lia|now rewrite S1]. destruct H as (H & E1 & L1). split; [|split; [congruence|lia]]. intros q Q. destruct (Nat.eq_dec q pc) as [->|]; auto. apply H; lia.
    - destruct H as (I1 & -> & H).
      unfold P0 in I1. cbn [erase] in I1. pose proof (starts_S F C0 [] _ _ I1) as S1. cbn [scan1] in S1.
      assert (PB : pok pc) by (intros j J; rewrite I1 in J; injection J as <-; discriminate).
      apply nops_pok in H. destruct H as (H & E1 & L1). split; [|split; [congruence|lia]]. intros q Q. destruct (Nat.eq_dec q pc) as [->|]; auto. apply H; lia.
    - destruct H as (I1 & -> & H). apply plain_pok in I1; [|now repeat split]. destruct I1 as [I1 S1].
      apply nops_pok in H. destruct H as (H & E1 & L1). split; [|split; [congruence|lia]]. intros q Q. destruct (Nat.eq_dec q pc) as [->|]; auto. apply H; lia.
    - destruct H as (I1 & -> & H). apply plain_pok in I1; [|now repeat split]. destruct I1 as [I1 S1].
      apply nops_pok in H. destruct H as (H & E1 & L1). split; [|split; [congruence|lia]]. intros q Q. destruct (Nat.eq_dec q pc) as [->|]; auto. apply H; lia.
    - destruct (call_info (e_mod E) f) as [w [ps [|t rs]]|[ps rs]];
        [| |destruct (call_regs (k_al k) ps rs) as [[a prs] rrs]]; destruct H as [I1 H];
        (apply plain_pok in I1; [|now repeat split]); destruct I1 as [I1 E1];
        (apply IH in H; [|lia|now rewrite E1]); destruct H as (H & E2 & L2); (split; [|split; [congruence|lia]]); intros q Q; (destruct (Nat.eq_dec q pc) as [->|]; [auto|apply H; lia]).
    - destruct (type_or_empty (e_mod E) ty) as [ps rs]. destruct (al_peek (k_al k) TI32); [|tauto].
      destruct (call_regs _ ps rs) as [[a prs] rrs]. destruct H as [I1 H].
      apply plain_pok in I1; [|now repeat split]. destruct I1 as [I1 E1].
      apply IH in H; [|lia|now rewrite E1]. destruct H as (H & E2 & L2). split; [|split; [congruence|lia]]. intros q Q. destruct (Nat.eq_dec q pc) as [->|]; auto. apply H; lia.
  Qed.
End Fix.
Lemma fix1_total F G a i b f : fix_of (length a) i = [f] ->
  patch F G (length (a ++ i :: b)) (starts (a ++ i :: b) (S (length a))) i <> None -> exists is, fix1 F G f (a ++ i :: b) = Some is.
Proof.
  intros Hf H.
  assert (N : nth_error (a ++ i :: b) (length a) = Some i) by (rewrite nth_error_app2, Nat.sub_diag by lia; reflexivity).
  unfold fix1. unfold patch in H.
  destruct i; cbn in Hf; try discriminate; try (destruct default as [[? ?] ?]); injection Hf as <-; cbn [fx_pc fx_depth fx_kind];
    rewrite N; cbn [is_br_table].
  all: try (eexists; reflexivity).
  all: match goal with |- context [scan 0 (firstn ?m ?l) []] => change (scan 0 (firstn m l) []) with (starts l m) end.
  all: destruct (nth_error (starts _ _) _) as [[start lp]|];
    [destruct (if lp then Some start else F start) as [t'|]; [|congruence]|]; eexists; reflexivity.
Qed.
Lemma phase2_total F G : forall b a, (forall n i, nth_error b n = Some i -> patch F G (length (a ++ b)) (starts (a ++ b) (S (length a + n))) i <> None) ->
  exists C1, phase2 F G (fixes (length a) b) (a ++ b) = Some C1.
Proof.
  induction b as [|i b IH]; intros a H; cbn [fixes]; [eexists; reflexivity|].
  pose proof (H 0 i eq_refl) as H0. rewrite Nat.add_0_r in H0.
  assert (W : exists i', erase i' = erase i /\ phase2 F G (fix_of (length a) i ++ fixes (S (length a)) b) (a ++ i :: b) = phase2 F G (fixes (S (length a)) b) (a ++ i' :: b)).
  { destruct (fix_of_cases (length a) i) as [E|[f E]]; rewrite E; cbn [app].
    - exists i. auto.
    - cbn [phase2]. destruct (fix1_total _ _ _ _ _ _ E H0) as [is FX]. rewrite FX.
      destruct (fix1_patch _ _ _ _ _ _ _ E FX) as (i' & -> & K). exists i'. split; auto. eapply patch_erase; eauto. }
  destruct W as (i' & Er & ->).
  replace (a ++ i' :: b) with ((a ++ [i']) ++ b) by now rewrite <- app_assoc.
  replace (S (length a)) with (length (a ++ [i'])) by (rewrite app_length; cbn; lia).
  apply IH. intros n j J. specialize (H (S n) j J). 
  replace (length ((a ++ [i']) ++ b)) with (length (a ++ i :: b)) by (rewrite !app_length; cbn; lia).
  replace (starts ((a ++ [i']) ++ b) (S (length (a ++ [i']) + n))) with (starts (a ++ i :: b) (S (length a + S n))); auto.
  unfold starts. apply scan_erase. rewrite <- !firstn_map. f_equal.
  - rewrite app_length. cbn. lia.
  - rewrite !map_app. cbn. rewrite <- app_assoc. cbn. now rewrite Er.
Qed.

(** ** decoding never fails *)
Lemma no_vec_v128 ts : no_vectors ts = no_v128 ts.
Proof. induction ts as [|[] ts IH]; cbn; auto. Qed.
Lemma nv_cls ts : no_vectors ts = true -> forall t, In t ts -> class_of t <> CV128.
Proof. intros H t I. unfold no_vectors in H. rewrite forallb_forall in H. specialize (H t I). destruct t; cbn in *; congruence. Qed.
Lemma nvs_app a b : no_vectors (a ++ b) = no_vectors a && no_vectors b.
Proof. unfold no_vectors. apply forallb_app. Qed.
Lemma nvs_rev a : no_vectors (rev a) = no_vectors a.
Proof. induction a as [|t a IH]; auto. cbn [rev]. rewrite nvs_app, IH. cbn. rewrite andb_true_r. apply andb_comm. Qed.
Lemma dec_go E op rest z z1 : z_unr z = 0 -> dec_live E op rest z = Some (z1, false) -> dec_ops E (op :: rest) z = dec_ops E rest z1.
Proof. intros U H. cbn [dec_ops]. unfold dec_dead. rewrite U, H. auto. Qed.
Definition closed (z : dst8) (b : ctl) (s : alstate) (st : nat) (is_if : bool) (el : option nat) m : dst8 :=
  {| z_k := with_al (z_k z) (fst (al_pushes (al_restore (k_al (z_k z)) s) (cb_results b)));
     z_ctl := tl (z_ctl z); z_sav := tl (z_sav z); z_unr := 0; z_map := m;
     z_ends := fupd (z_ends z) st (S (pc_of z));
     z_elses := if is_if then fupd (z_elses z) st (match el with Some e => e | None => S (pc_of z) end) else z_elses z;
     z_fix := z_fix z; z_out := z_out z ++ [IEnd (al_peek_regs (k_al (z_k z)) (cb_results b)) (cb_regs b)] |}.
Lemma end_go E rest z st is_if el m b s : z_unr z <= 1 -> z_map z = (st, is_if, el) :: m ->
  z_ctl z = b :: tl (z_ctl z) -> z_sav z = s :: tl (z_sav z) ->
  dec_ops E (FEnd :: rest) z = dec_ops E rest (closed z b s st is_if el m).
Proof.
  intros U M HC HS. cbn [dec_ops].
  assert (D : dec_dead FEnd z = inr (set_unr z 0)).
  { unfold dec_dead. destruct (z_unr z) as [|[|n]] eqn:Z; [|reflexivity|lia]. now rewrite set_unr_0. }
  rewrite D. unfold dec_live. cbn [z_map z_ctl z_sav z_unr z_ends z_elses z_fix z_out z_k set_unr].
  unfold closed. rewrite M. rewrite HC, HS. cbn [tl]. reflexivity.
Qed.
Definition elsed (z : dst8) (b : ctl) (s : alstate) (st : nat) m : dst8 :=
  {| z_k := with_al (z_k z) (fst (al_pushes (al_restore (k_al (z_k z)) s) (cb_params b)));
     z_ctl := z_ctl z; z_sav := z_sav z; z_unr := 0; z_map := (st, true, Some (S (pc_of z))) :: m;
     z_ends := z_ends z; z_elses := z_elses z;
     z_fix := z_fix z ++ fx z 0 FxElse; z_out := z_out z ++ [IJump 0] |}.
Lemma else_go E rest z st m b s : z_unr z <= 1 -> z_map z = (st, true, None) :: m ->
  z_ctl z = b :: tl (z_ctl z) -> z_sav z = s :: tl (z_sav z) ->
  dec_ops E (FElse :: rest) z = dec_ops E rest (elsed z b s st m).
Proof.
  intros U M HC HS. cbn [dec_ops].
  assert (D : dec_dead FElse z = inr (set_unr z 0)).
  { unfold dec_dead. destruct (z_unr z) as [|[|n]] eqn:Z; [|reflexivity|lia]. now rewrite set_unr_0. }
  rewrite D. unfold dec_live. cbn [z_map z_ctl z_sav z_unr z_ends z_elses z_fix z_out z_k set_unr].
  unfold elsed. rewrite M. destruct (z_ctl z) as [|b' cs]; [discriminate|]. destruct (z_sav z) as [|s' ss]; [discriminate|].
  cbn [tl] in *. inversion HC; inversion HS; subst. reflexivity.
Qed.

Lemma known_sop LT o : exists_op o = true -> known_basic LT (BOp o) = true -> sop_ok o = true.
Proof. destruct o as [[[] []|[]|[]]| | | | | | | | | | |[]|[]|[]| |? []|? []|? []]; cbn; congruence. Qed.
Lemma sop_res_nv o t : sop_ok o = true -> sop_res o = Some t -> negb (vectors t) = true.
Proof.
  destruct o as [o|o|c|op| | | | | | | |t0|t0|t0| |? t0|? t0|? t0]; cbn; intros S R; try discriminate R; injection R as <-; auto.
  - destruct o as [[] ?|[]|[] ?]; reflexivity.
  - destruct o as [[] ?|[] ?|[] ?|[] ?]; reflexivity.
  - destruct c; repeat match goal with w : iw |- _ => destruct w | f : fty |- _ => destruct f end; reflexivity.
  - destruct op; reflexivity.
  - destruct t0; try discriminate; reflexivity.
  - destruct t0; try discriminate; reflexivity.
  - destruct t0; try discriminate; reflexivity.
Qed.

(** ** the number of registers *)
Definition bnd (N : nat) (a : alloc) : Prop := forall c, sget (al_max a) c <= N.
Lemma bnd_eq N a b : al_max b = al_max a -> bnd N a -> bnd N b.
Proof. intros H K c. rewrite H. apply K. Qed.
Lemma cnt_len c l : cnt c l <= length l.
Proof. unfold cnt. induction l as [|x l IH]; cbn; [lia|]. destruct (cls_eqb c x); cbn; lia. Qed.
Lemma bnd_push_d N a t : S (sget (al_d a) (class_of t)) <= N -> bnd N a -> bnd N (fst (al_push a t)).
Proof.
  intros D K c. unfold al_push. cbn [fst al_max]. rewrite sget_sset. specialize (K c). unfold incr. rewrite sget_sset_eq.
  destruct (cls_eqb (class_of t) c) eqn:X; [|exact K]. apply cls_eqb_eq in X as <-. lia.
Qed.
Section Bnd.
  Variables (nl : cls -> nat) (B N : nat).
  Hypothesis HB : forall c, nl c <= B.
  Lemma bnd_push a l t : ainv nl a l -> B + S (length l) <= N -> bnd N a -> bnd N (fst (al_push a t)).
  Proof. intros (_ & D & _) L. apply bnd_push_d. rewrite D. pose proof (HB (class_of t)). pose proof (cnt_len (class_of t) l). lia. Qed.
  Lemma bnd_pushes ts : forall a l, ainv nl a l -> B + length l + length ts <= N -> bnd N a -> bnd N (fst (al_pushes a ts)).
  Proof.
    induction ts as [|t ts IH]; intros a l A L K; cbn [al_pushes length] in *; [exact K|].
    destruct (al_push_ok nl _ _ t A) as (A1 & _ & _). assert (K1 : bnd N (fst (al_push a t))) by (eapply bnd_push; eauto; lia).
    destruct (al_push a t) as [a1 r]. cbn [fst] in *. specialize (IH a1 (class_of t :: l) A1 ltac:(cbn; lia) K1). destruct (al_pushes a1 ts). exact IH.
  Qed.
  Lemma bnd_open a lp ps rs rest : ainv nl a (tops ps ++ rest) -> B + length (tops ps ++ rest) <= N -> bnd N a -> bnd N (fst (fst (open_block a lp ps rs))).
  Proof.
    intros A L K. unfold open_block. cbn [fst]. rewrite <- tops_rev in A. destruct (al_pops_ok _ _ _ _ A) as [A1 A2].
    eapply bnd_pushes; [exact A1| |eapply bnd_eq; eauto]. rewrite app_length, tops_length in L. lia.
  Qed.
  Lemma bnd_call a ps rs rest : ainv nl a (tops ps ++ rest) -> B + length rest + length rs <= N -> bnd N a -> bnd N (fst (fst (call_regs a ps rs))).
  Proof.
    intros A L K. unfold call_regs. rewrite <- tops_rev in A. destruct (call_params_ok nl _ _ _ [] A) as (A1 & A2 & _).
    destruct (call_params a (rev ps) []) as [a1 prs]. cbn [fst] in *. pose proof (bnd_pushes rs a1 rest A1 L (bnd_eq _ _ _ A2 K)) as P. destruct (al_pushes a1 rs). exact P.
  Qed.
End Bnd.
Lemma peak_ge SM c : forall h, h <= peak SM h c.
Proof. induction c; intros h; cbn [peak]; try lia; try (specialize (IHc1 h); lia); destruct (nth_error _ _); lia. Qed.

Section T.
  Variable SM : smodule.
  Variable fd0 : sfdef.
  Notation E := (env_of SM fd0).
  Notation nl := (nl E).
  Notation LT := (fst (sf_type fd0) ++ sf_locals fd0).
  Notation F := {| f_mod := SM; f_locals := LT; f_results := snd (sf_type fd0) |}.
  Hypothesis HI : imports_first (sm_funcs SM) = true.
  Hypothesis HR : Forall one_result (sm_funcs SM).
  Variables (Bx Nx : nat).
  Hypothesis HB : forall c, nl c <= Bx.

  Lemma ltype_of n t : nth_error LT n = Some t -> ltype E n = t.
  Proof. intros H. unfold ltype. cbn [e_params e_locals env_of]. now apply nth_error_nth. Qed.
  Lemma op_total o nxt k ts outer : ainv nl (k_al k) (map class_of (on_stack (sop_args o) ++ ts) ++ outer) ->
    let '(is, k1, skip) := dec_op E o nxt k in
    mle (k_al k) (k_al k1) /\
    if skip then exists n rest t, nxt = FBasic (BSet n) :: rest /\ sop_res o = Some t /\ ainv nl (k_al k1) (map class_of ts ++ outer)
    else ainv nl (k_al k1) (map class_of (match sop_res o with Some t => t :: ts | None => ts end) ++ outer).
  Proof.
    intros A. unfold dec_op. rewrite map_app, <- app_assoc in A. unfold on_stack in A.
    destruct (pop_regs_ok nl (rev (sop_args o)) (k_al k) _ A) as (Q1 & Q2 & _).
    destruct (pop_regs (k_al k) (rev (sop_args o))) as [a ns]. cbn [fst snd] in *.
    destruct (match o with SGlobalSet t _ => let (s, p) := global_src (class_of t) (hd 0 ns) (k_pend k) in ([s], p) | _ => take_all (rev (sop_args o)) (sop_takes o) ns (k_pend k) end) as [srcs p'].
    destruct (sop_res o) as [t|] eqn:SRS.
    - destruct (al_push_ok nl _ _ t Q1) as (B1 & B2 & _). pose proof (al_pop_ok nl (fst (al_push a t)) _ t B1) as (D1 & _ & _).
      destruct (al_push a t) as [a1 r]. cbn [fst snd] in *.
      assert (MK : mle (k_al k) a1) by (intros c; rewrite <- Q2; apply B2).
      destruct (if dst_foldable o then fold_dst E (class_of t) nxt else None) as [l|] eqn:FD.
      + destruct (dst_foldable o); [|discriminate]. apply fold_dst_local in FD as (n & rest & -> & -> & CL).
        cbn [k_al k_pend]. split; [exact MK|]. exists n, rest, t. auto.
      + split; [exact MK|exact B1].
    - split; [intros c; cbn; rewrite <- Q2; apply le_n|exact Q1].
  Qed.
  Lemma basic_total b nxt k ts ts1 outer : basic_typed F ts b ts1 -> known_basic LT b = true -> no_vectors ts = true ->
    ainv nl (k_al k) (map class_of ts ++ outer) ->
    exists is k1 skip, dec_basic E b nxt k = Some (is, k1, skip) /\ mle (k_al k) (k_al k1) /\ no_vectors ts1 = true /\
    if skip then exists n rest t ts2, nxt = FBasic (BSet n) :: rest /\ map class_of ts1 = class_of t :: map class_of ts2 /\ ainv nl (k_al k1) (map class_of ts2 ++ outer)
    else ainv nl (k_al k1) (map class_of ts1 ++ outer).
  Proof.
    intros T KB NV A.
    assert (G : forall o ts0, sop_ok o = true -> ainv nl (k_al k) (map class_of (on_stack (sop_args o) ++ ts0) ++ outer) ->
      map class_of ts1 = map class_of (match sop_res o with Some t => t :: ts0 | None => ts0 end) -> no_vectors ts1 = true ->
      exists is k1 skip, dec_basic E (BOp o) nxt k = Some (is, k1, skip) /\ mle (k_al k) (k_al k1) /\ no_vectors ts1 = true /\
      if skip then exists n rest t ts2, nxt = FBasic (BSet n) :: rest /\ map class_of ts1 = class_of t :: map class_of ts2 /\ ainv nl (k_al k1) (map class_of ts2 ++ outer)
      else ainv nl (k_al k1) (map class_of ts1 ++ outer)).
    { intros o ts0 SO A' T1 N1. cbn [dec_basic]. rewrite SO. pose proof (op_total o nxt k ts0 outer A') as O.
      destruct (dec_op E o nxt k) as [[is k1] skip]. destruct O as (O1 & O2). exists is, k1, skip. split; auto. split; auto. split; auto.
      destruct skip.
      - destruct O2 as (n & rest & t & -> & SR & O4). rewrite SR in T1. exists n, rest, t, ts0. auto.
      - now rewrite T1. }
    destruct T as [ts v t C|ts n t N|ts n t N|ts n t N|ts t|ts|ts t V|ts t|ts t R|ts o X NR]; cbn [dec_basic known_basic] in *.
    - assert (NVt : is_num (val_cls v) = true) by (destruct v; cbn in *; try discriminate; reflexivity). rewrite NVt.
      unfold dec_value. destruct (al_push_ok nl _ _ (vt_of_cls (val_cls v)) A) as (B1 & B2 & _). rewrite class_vt in *. 
      destruct (al_push (k_al k) (vt_of_cls (val_cls v))) as [a r]. cbn [fst] in *.
      replace (val_cls v) with (class_of t) in B1 by (destruct v; cbn in *; try discriminate; now injection C as <-).
      assert (NT : no_vectors (t :: ts) = true) by (destruct v; cbn in C; try discriminate; injection C as <-; exact NV).
      destruct (folds _ nxt); eexists; eexists; exists false; (split; [reflexivity|]); auto.
    - cbn [f_locals] in N. rewrite N in KB. rewrite (ltype_of _ _ N). unfold dec_value. destruct (al_push_ok nl _ _ t A) as (B1 & B2 & _). destruct (al_push (k_al k) t) as [a r]. cbn [fst] in *.
      assert (NT : no_vectors (t :: ts) = true) by (cbn; now rewrite KB).
      destruct t; cbn [class_of] in *; try discriminate; try (destruct (folds _ nxt)); eexists; eexists; exists false; (split; [reflexivity|]); auto.
    - cbn [f_locals] in N. rewrite N in KB. rewrite (ltype_of _ _ N). cbn [map app] in A. destruct (al_pop_ok nl _ _ t A) as (B1 & _ & _). pose proof (al_pop_max (k_al k) t) as B4. destruct (al_pop (k_al k) t) as [a r]. cbn [fst snd] in *.
      assert (MK : mle (k_al k) a) by (intros c; rewrite B4; apply le_n). cbn in NV. apply andb_prop in NV as [_ NV].
      destruct t; cbn [class_of] in *; try discriminate; eexists; eexists; exists false; (split; [reflexivity|]); auto.
    - cbn [f_locals] in N. rewrite N in KB. rewrite (ltype_of _ _ N). cbn [map app] in A. destruct (al_pop_ok nl _ _ t A) as (B1 & _ & B3). rewrite B3.
      destruct t; cbn [class_of] in *; try discriminate; eexists; eexists; exists false; (split; [reflexivity|]); (split; [apply mle_refl|]); auto.
    - cbn [map app] in A. destruct (al_pop_any_ok nl _ _ _ A) as [B1 B2]. eexists. eexists. exists false. split; [reflexivity|]. split; [intros c; cbn; rewrite B2; apply le_n|]. cbn in NV. apply andb_prop in NV as [_ NV]. auto.
    - eexists. eexists. exists false. split; [reflexivity|]. split; [apply mle_refl|]. auto.
    - cbn [map app] in A. destruct (al_pop_ok nl _ _ TI32 A) as (B1 & _ & _). pose proof (al_pop_max (k_al k) TI32) as B4. destruct (al_pop (k_al k) TI32) as [a rc]. cbn [fst snd] in *.
      assert (CU : class_of (select_type a None) = class_of t).
      { destruct B1 as (B1 & _). unfold select_type, al_peek_type. destruct (al_ts a) as [|u l]; [discriminate|]. cbn in B1 |- *. congruence. }
      set (u := select_type a None) in *. rewrite <- CU in B1. destruct (al_pop_ok nl _ _ u B1) as (C1 & _ & _). pose proof (al_pop_max a u) as C4.
      assert (NT : no_vectors (t :: ts) = true) by (cbn in NV |- *; apply andb_prop in NV as [NV1 NV2]; exact NV2).
      assert (SC : exists c, select_cls None u = Some c).
      { unfold select_cls. rewrite CU. destruct t; cbn in *; try discriminate; eauto. }
      destruct SC as [c ->].
      destruct (al_pop a u) as [a1 r2]. cbn [fst snd] in *. destruct (al_pop_ok nl _ _ u C1) as (D1 & _ & _). pose proof (al_pop_max a1 u) as D4. destruct (al_pop a1 u) as [a2 r1]. cbn [fst snd] in *.
      destruct (al_push_ok nl _ _ u D1) as (E1 & E2 & _). destruct (al_push a2 u) as [a3 rd]. cbn [fst snd] in *.
      eexists. eexists. exists false. split; [reflexivity|]. split; [intros c'; cbn; rewrite <- B4, <- C4, <- D4; apply E2|]. split; auto. cbn [map app k_al]. rewrite <- CU. exact E1.
    - cbn [map app] in A. destruct (al_pop_ok nl _ _ TI32 A) as (B1 & _ & _). pose proof (al_pop_max (k_al k) TI32) as B4. destruct (al_pop (k_al k) TI32) as [a rc]. cbn [fst snd] in *.
      cbn [select_type]. destruct (al_pop_ok nl _ _ t B1) as (C1 & _ & _). pose proof (al_pop_max a t) as C4.
      assert (NT : no_vectors (t :: ts) = true) by (cbn in NV |- *; apply andb_prop in NV as [NV1 NV2]; exact NV2).
      assert (SC : exists c, select_cls (Some t) t = Some c) by (unfold select_cls; destruct t; cbn in *; try discriminate; eauto).
      destruct SC as [c ->].
      destruct (al_pop a t) as [a1 r2]. cbn [fst snd] in *. destruct (al_pop_ok nl _ _ t C1) as (D1 & _ & _). pose proof (al_pop_max a1 t) as D4. destruct (al_pop a1 t) as [a2 r1]. cbn [fst snd] in *.
      destruct (al_push_ok nl _ _ t D1) as (E1 & E2 & _). destruct (al_push a2 t) as [a3 rd]. cbn [fst snd] in *.
      eexists. eexists. exists false. split; [reflexivity|]. split; [intros c'; cbn; rewrite <- B4, <- C4, <- D4; apply E2|]. split; auto.
    - apply (G SRefIsNull ts); [reflexivity| |reflexivity|]; [|cbn in NV; apply andb_prop in NV as [_ NV]; exact NV].
      cbn [sop_args on_stack rev app map] in *. replace (class_of t) with CRef in A by (destruct t; try discriminate; reflexivity). exact A.
    - rewrite nvs_app in NV. apply andb_prop in NV as [_ NV].
      assert (SO : sop_ok o = true) by exact (known_sop LT o X KB).
      apply (G o ts); auto. destruct (sop_res o) as [t|] eqn:SR; auto. change (no_vectors (t :: ts)) with (negb (vectors t) && no_vectors ts). rewrite NV, andb_true_r. now apply (sop_res_nv o).
  Qed.

  Lemma basic_len ts b ts1 : basic_typed F ts b ts1 -> takes b <= length ts /\ length ts1 = length ts - takes b + gives b.
  Proof.
    intros T. destruct T; cbn [takes gives length]; try (split; lia).
    - cbn [sop_args sop_res length]. split; lia.
    - unfold on_stack. rewrite app_length, rev_length. destruct (sop_res o); cbn [length]; split; lia.
  Qed.
  Lemma basic_bnd b nxt k ts ts1 outer is k1 skip : basic_typed F ts b ts1 -> ainv nl (k_al k) (map class_of ts ++ outer) ->
    dec_basic E b nxt k = Some (is, k1, skip) -> Bx + (length ts1 + length outer) <= Nx -> bnd Nx (k_al k) -> bnd Nx (k_al k1).
  Proof.
    intros T A D L K.
    assert (G : forall o ts0, ainv nl (k_al k) (map class_of (on_stack (sop_args o) ++ ts0) ++ outer) -> length ts1 = length (match sop_res o with Some t => t :: ts0 | None => ts0 end) ->
      dec_op E o nxt k = (is, k1, skip) -> bnd Nx (k_al k1)).
    { intros o ts0 A' L1. unfold dec_op. rewrite map_app, <- app_assoc in A'. unfold on_stack in A'. destruct (pop_regs_ok nl (rev (sop_args o)) (k_al k) _ A') as (Q1 & Q2 & _).
      destruct (pop_regs (k_al k) (rev (sop_args o))) as [a ns]. cbn [fst snd] in *.
      destruct (match o with SGlobalSet t _ => let (s, p) := global_src (class_of t) (hd 0 ns) (k_pend k) in ([s], p) | _ => take_all (rev (sop_args o)) (sop_takes o) ns (k_pend k) end) as [srcs p'].
      pose proof (bnd_eq _ _ _ Q2 K) as K2. destruct (sop_res o) as [t|].
      - assert (K3 : bnd Nx (fst (al_push a t))) by (eapply (bnd_push nl Bx Nx HB); eauto; rewrite app_length, map_length; cbn in L1; lia).
        destruct (al_push a t) as [a1 r]. cbn [fst] in K3. destruct (if dst_foldable o then fold_dst E (class_of t) nxt else None); intros H; injection H as _ <- _; cbn [k_al]; exact K3.
      - intros H. injection H as _ <- _. exact K2. }
    assert (PB : forall t, S (length ts) = length ts1 -> bnd Nx (fst (al_push (k_al k) t))).
    { intros t LE. eapply (bnd_push nl Bx Nx HB); eauto. rewrite app_length, map_length. lia. }
    assert (PS : forall u, 1 <= length ts1 -> bnd Nx (fst (al_push (fst (al_pop (fst (al_pop (fst (al_pop (k_al k) TI32)) u)) u)) u))).
    { intros u LE. apply bnd_push_d.
      - pose proof (K (class_of u)) as K1. destruct A as (_ & _ & A3). specialize (A3 (class_of u)). cbn [al_pop fst al_d]. rewrite sget_sset_eq, sget_sset_eq, sget_sset. destruct (cls_eqb _ _) eqn:CE; try (apply cls_eqb_eq in CE; rewrite <- CE in *); lia.
      - repeat (eapply bnd_eq; [apply al_pop_max|]). exact K. }
    destruct T as [ts v t C|ts n t Nn|ts n t Nn|ts n t Nn|ts t|ts|ts t V|ts t|ts t R|ts o X NR]; cbn [dec_basic] in D.
    - destruct (is_num (val_cls v)); [|discriminate]. unfold dec_value in D. specialize (PB (vt_of_cls (val_cls v)) eq_refl). destruct (al_push (k_al k) _) as [a r]. cbn [fst] in PB. destruct (folds _ nxt); injection D as _ <- _; exact PB.
    - specialize (PB (ltype E n) eq_refl). unfold dec_value in D. destruct (al_push (k_al k) (ltype E n)) as [a r]. cbn [fst] in PB. destruct (class_of (ltype E n)); try discriminate; try (destruct (folds _ nxt)); injection D as _ <- _; exact PB.
    - pose proof (bnd_eq _ _ _ (al_pop_max (k_al k) (ltype E n)) K) as K2. destruct (al_pop (k_al k) (ltype E n)) as [a r]. cbn [fst] in K2. destruct (class_of (ltype E n)); try discriminate; injection D as _ <- _; exact K2.
    - destruct (al_peek (k_al k) (ltype E n)); [|discriminate]. destruct (class_of (ltype E n)); try discriminate; injection D as _ <- _; exact K.
    - injection D as _ <- _. cbn [map app] in A. destruct (al_pop_any_ok nl _ _ _ A) as [_ B2]. eapply bnd_eq; [exact B2|exact K].
    - injection D as _ <- _. exact K.
    - specialize (PS (select_type (fst (al_pop (k_al k) TI32)) None) ltac:(cbn; lia)). destruct (al_pop (k_al k) TI32) as [a rc]. cbn [fst] in PS. set (u := select_type a None) in *.
      destruct (select_cls None u); [|discriminate]. destruct (al_pop a u) as [a1 r2]. cbn [fst] in PS. destruct (al_pop a1 u) as [a2 r1]. cbn [fst] in PS. destruct (al_push a2 u) as [a3 rd]. injection D as _ <- _. exact PS.
    - specialize (PS t ltac:(cbn; lia)). destruct (al_pop (k_al k) TI32) as [a rc]. cbn [fst] in PS. cbn [select_type] in D.
      destruct (select_cls (Some t) t); [|discriminate]. destruct (al_pop a t) as [a1 r2]. cbn [fst] in PS. destruct (al_pop a1 t) as [a2 r1]. cbn [fst] in PS. destruct (al_push a2 t) as [a3 rd]. injection D as _ <- _. exact PS.
    - destruct (sop_ok SRefIsNull); [|discriminate]. apply (G SRefIsNull ts); [|reflexivity|congruence].
      cbn [sop_args on_stack rev app map] in *. replace (class_of t) with CRef in A by (destruct t; try discriminate; reflexivity). exact A.
    - destruct (sop_ok o); [|discriminate]. apply (G o ts); [exact A|reflexivity|congruence].
  Qed.

  Definition okz (z z' : dst8) : Prop :=
    z_unr z' <= 1 /\ z_ctl z' = z_ctl z /\ z_sav z' = z_sav z /\ z_map z' = z_map z /\ mle (k_al (z_k z)) (k_al (z_k z')).
  Definition high (z z' : dst8) (h : nat) (c : code) : Prop := Bx + peak SM h c <= Nx -> bnd Nx (k_al (z_k z)) -> bnd Nx (k_al (z_k z')).
  Definition endsz (z : dst8) (fl : bool) (ts : list valtype) (outer : list cls) : Prop :=
    if fl then z_unr z = 0 /\ ainv nl (k_al (z_k z)) (map class_of ts ++ outer)
    else exists j, map class_of (al_ts (k_al (z_k z))) = j ++ outer.
  Lemma endsz_j z fl ts outer : endsz z fl ts outer -> exists j, map class_of (al_ts (k_al (z_k z))) = j ++ outer.
  Proof. destruct fl; cbn; auto. intros (_ & A & _). eauto. Qed.
  Lemma nv_on_stack rs : no_vectors (on_stack rs) = no_vectors rs.
  Proof. apply nvs_rev. Qed.

  (** dead code after an unconditional transfer of control, up to the closing operator *)
  Lemma dead_total c t rest z : is_close t -> z_unr z = 1 ->
    exists z', dec_ops E (flatten c ++ t :: rest) z = dec_ops E (t :: rest) z' /\ okz z z' /\ z_k z' = z_k z.
  Proof.
    intros Ht U. rewrite (dead_ops E c (t :: rest) z 0 U). eexists. split; [reflexivity|].
    split; [|reflexivity]. split; [cbn; lia|]. split; [reflexivity|]. split; [reflexivity|]. split; [reflexivity|]. apply mle_refl.
  Qed.
  Lemma okz_trans a b c : okz a b -> okz b c -> okz a c.
  Proof. intros (_ & A2 & A3 & A4 & A5) (B1 & B2 & B3 & B4 & B5). split; auto. split; [congruence|]. split; [congruence|]. split; [congruence|]. eapply mle_trans; eauto. Qed.
  Lemma emit_ok z k1 is f : z_unr z = 0 -> mle (k_al (z_k z)) (k_al k1) -> okz z (emit z k1 is f).
  Proof. intros U M. split; [cbn; lia|]. auto. Qed.

  Lemma bnd_close a1 a2 s rest rs :
    (forall ts, let a3 := fst (al_pushes (al_restore a2 s) ts) in ainv nl a3 (tops ts ++ rest) /\ mle a2 a3) -> mle a1 a2 ->
    Bx + length rest + length rs <= Nx -> bnd Nx a2 -> bnd Nx (fst (al_pushes (al_restore a2 s) rs)).
  Proof.
    intros O _ L K. destruct (O []) as [A _]. cbn in A. eapply (bnd_pushes nl Bx Nx HB); [exact A|exact L|]. intros c. apply K.
  Qed.
  Lemma len_on ts : length (on_stack ts) = length ts.
  Proof. apply rev_length. Qed.
  Lemma high_same z z' h c : al_max (k_al (z_k z')) = al_max (k_al (z_k z)) -> high z z' h c.
  Proof. intros E _ K. eapply bnd_eq; eauto. Qed.
  Ltac lens := cbn [length] in *; rewrite ?app_length, ?map_length, ?len_on, ?tops_length in *; cbn [length] in *.

  Lemma decode_total : forall n c, csize c <= n -> forall t rest z ls ts ts' outer, is_close t -> z_unr z = 0 ->
    ainv nl (k_al (z_k z)) (map class_of ts ++ outer) -> no_vectors ts = true -> typed F ls ts c ts' -> known SM LT c = true ->
    exists z', dec_ops E (flatten c ++ t :: rest) z = dec_ops E (t :: rest) z' /\ okz z z' /\ endsz z' (falls c) ts' outer /\ high z z' (length ts + length outer) c.
  Proof.
    induction n as [|n IH]; intros c Sz t rest z ls ts ts' outer Ht U HA NV T KN; [destruct c; cbn [csize] in Sz; lia|].
    destruct c; cbn [csize] in Sz; cbn [known] in KN; cbn [falls flatten app].
    - (* nil *) inversion T; subst. exists z. split; auto. split; [|split; [split; auto|intros _ K; exact K]]. split; [lia|]. auto using mle_refl.
    - (* basic *) apply andb_prop in KN as [KB KN]. inversion T as [|? ? ts1 ? ? ? BT T1| | | | | | | | | | |]; subst.
      destruct (basic_total b (flatten c ++ t :: rest) (z_k z) ts ts1 outer BT KB NV HA) as (is & k1 & skip & D & M1 & N1 & G1).
      set (z1 := emit z k1 is []). assert (O1 : okz z z1) by now apply emit_ok.
      destruct (basic_len _ _ _ BT) as [BL1 BL2].
      assert (K1 : Bx + (length ts1 + length outer) <= Nx -> bnd Nx (k_al (z_k z)) -> bnd Nx (k_al k1)) by (intros; eapply basic_bnd; eauto).
      assert (HH : length ts + length outer - takes b + gives b = length ts1 + length outer) by lia.
      assert (DL : dec_live E (FBasic b) (flatten c ++ t :: rest) z = Some (z1, skip)) by (cbn [dec_live]; now rewrite D).
      destruct skip.
      + destruct G1 as (m & r & tc & ts2 & FL & TS & A2). destruct (flatten_head _ _ _ _ FL) as [c' ->]; [eauto|].
        cbn [known] in KN. apply andb_prop in KN as [_ KN]. cbn [csize] in Sz. inversion T1 as [|? ? ts3 ? ? ? BT' T2| | | | | | | | | | |]; subst. inversion BT'; subst.
        cbn [map] in TS. injection TS as _ TS. cbn in N1. apply andb_prop in N1 as [_ N1].
        destruct (IH c' ltac:(lia) t rest z1 ls ts3 ts' outer Ht U ltac:(rewrite TS; exact A2) N1 T2 KN) as (z' & I1 & I2 & I3 & I4).
        exists z'. split; [|split; [eapply okz_trans; eauto|split; [exact I3|]]].
        2: { intros P K. cbn [peak takes gives] in P. rewrite HH in P. cbn [length] in *.
             pose proof (peak_ge SM c' (S (length ts3) + length outer - 1 + 0)). apply I4; [|apply K1; [lia|exact K]].
             replace (S (length ts3) + length outer - 1 + 0) with (length ts3 + length outer) in * by lia. lia. } rewrite <- I1.
        cbn [dec_ops flatten app]. unfold dec_dead at 1. rewrite U. cbn [flatten app] in DL. rewrite DL. reflexivity.
      + destruct (IH c ltac:(lia) t rest z1 ls ts1 ts' outer Ht U G1 N1 T1 KN) as (z' & I1 & I2 & I3 & I4).
        exists z'. split; [|split; [eapply okz_trans; eauto|split; [exact I3|]]].
        2: { intros P K. cbn [peak] in P. rewrite HH in P. pose proof (peak_ge SM c (length ts1 + length outer)). apply I4; [lia|]. apply K1; [lia|exact K]. } rewrite <- I1. now apply dec_go.
    - (* block *) apply andb_prop in KN as [KN K2]. apply andb_prop in KN as [NR K1].
      assert (TB : exists r lb, ts = on_stack ps ++ r /\ typed F (lb :: ls) (on_stack ps) c1 (on_stack rs) /\ typed F ls (on_stack rs ++ r) c2 ts').
      { inversion T; subst; eexists; eexists; (split; [reflexivity|]); (split; [eassumption|]); eassumption. }
      destruct TB as (r & lb & -> & T1 & T2). rewrite map_app, map_on_stack, <- app_assoc in HA. rewrite nvs_app in NV. apply andb_prop in NV as [NV1 NV2].
      pose proof (open_ok nl (k_al (z_k z)) is_loop ps rs _ HA) as OB.
      destruct (open_block (k_al (z_k z)) is_loop ps rs) as [[a1 s] b] eqn:OE. destruct OB as (O1 & O2 & OL & O4 & _).
      assert (Hb : cb_results b = rs) by (unfold open_block in OE; inversion OE; subst; auto).
      rewrite <- app_assoc. cbn [app]. erewrite dec_go; [|exact U|cbn [dec_live]; rewrite OE; reflexivity].
      match goal with |- context [dec_ops _ (flatten c1 ++ _) ?w] => set (z1 := w) end.
      destruct (IH c1 ltac:(lia) FEnd (flatten c2 ++ t :: rest) z1 _ (on_stack ps) _ (map class_of r ++ outer) (or_introl eq_refl) U ltac:(rewrite map_on_stack; exact O1) NV1 T1 K1) as (z2 & E2 & (U2 & C2 & S2 & M2 & L2) & I2 & H2).
      rewrite E2. pose proof (fun ts => O4 (k_al (z_k z2)) ts L2 (endsz_j _ _ _ _ I2)) as O5. destruct (O4 (k_al (z_k z2)) rs L2 (endsz_j _ _ _ _ I2)) as [F1 F2].
      erewrite end_go; [|exact U2|rewrite M2; reflexivity|rewrite C2; reflexivity|rewrite S2; reflexivity].
      match goal with |- context [dec_ops _ (flatten c2 ++ _) ?w] => set (z3 := w) end.
      destruct (IH c2 ltac:(lia) t rest z3 ls (on_stack rs ++ r) ts' outer Ht eq_refl ltac:(rewrite map_app, map_on_stack, <- app_assoc; unfold z3, closed; cbn [z_k with_al k_al]; rewrite Hb; exact F1)
                  ltac:(rewrite nvs_app, nv_on_stack, NR; exact NV2) T2 K2) as (z4 & E4 & (U4 & C4 & S4 & M4 & L4) & I4 & H4).
      exists z4. split; [exact E4|]. split; [|split; [exact I4|
        intros P K; cbn [peak] in P; pose proof (peak_ge SM c1 (length (on_stack ps ++ r) + length outer)) as PG;
        (apply H4; [lens; replace (length rs + length r + length outer) with (length ps + length r + length outer - length ps + length rs) by lia; lia|]);
        unfold z3, closed; cbn [z_k with_al k_al]; rewrite Hb; (eapply bnd_close; [exact O5|exact L2|lens; pose proof (peak_ge SM c2 (length ps + length r + length outer - length ps + length rs)); lia|]);
        (apply H2; [lens; replace (length ps + (length r + length outer)) with (length ps + length r + length outer) by lia; lia|]);
        unfold z1; cbn [z_k with_al k_al]; pose proof (bnd_open nl Bx Nx HB (k_al (z_k z)) is_loop ps rs _ HA) as BO; rewrite OE in BO; cbn [fst] in BO; apply BO; [lens; lia|exact K]]]. split; [exact U4|]. split; [rewrite C4; unfold z3, closed; cbn [z_ctl]; rewrite C2; reflexivity|]. split; [rewrite S4; unfold z3, closed; cbn [z_sav]; rewrite S2; reflexivity|]. split; [exact M4|].
      unfold z3, closed in L4. cbn [z_k with_al k_al] in L4. rewrite Hb in L4. eauto using mle_trans.
    - (* if *) apply andb_prop in KN as [KN K2]. apply andb_prop in KN as [NR K1]. inversion T as [| | | |? r ? ? ? ? ? EQ T1 T2| | | | | | | |]; subst.
      cbn [map app] in HA. rewrite map_app, map_on_stack, <- app_assoc in HA. change (no_vectors (TI32 :: on_stack rs ++ r)) with (no_vectors (on_stack rs ++ r)) in NV. rewrite nvs_app in NV. apply andb_prop in NV as [NV1 NV2].
      destruct (al_pop_ok nl _ _ TI32 HA) as (G1 & _ & _). pose proof (al_pop_max (k_al (z_k z)) TI32) as G2. destruct (al_pop (k_al (z_k z)) TI32) as [a0 rc] eqn:PE. cbn [fst snd] in *.
      pose proof (open_ok nl a0 false rs rs _ G1) as OB.
      destruct (open_block a0 false rs rs) as [[a1 s] b] eqn:OE. destruct OB as (O1 & O2 & OL & O4 & _).
      assert (Hb : cb_results b = rs) by (unfold open_block in OE; inversion OE; subst; auto).
      rewrite <- app_assoc. cbn [app]. erewrite dec_go; [|exact U|cbn [dec_live]; rewrite PE, OE; reflexivity].
      match goal with |- context [dec_ops _ (flatten c1 ++ _) ?w] => set (z1 := w) end.
      destruct (IH c1 ltac:(lia) FEnd (flatten c2 ++ t :: rest) z1 _ (on_stack rs) _ (map class_of r ++ outer) (or_introl eq_refl) U ltac:(rewrite map_on_stack; exact O1) NV1 T1 K1) as (z2 & E2 & (U2 & C2 & S2 & M2 & L2) & I2 & H2).
      rewrite E2. pose proof (fun ts => O4 (k_al (z_k z2)) ts L2 (endsz_j _ _ _ _ I2)) as O5. destruct (O4 (k_al (z_k z2)) rs L2 (endsz_j _ _ _ _ I2)) as [F1 F2].
      erewrite end_go; [|exact U2|rewrite M2; reflexivity|rewrite C2; reflexivity|rewrite S2; reflexivity].
      match goal with |- context [dec_ops _ (flatten c2 ++ _) ?w] => set (z3 := w) end.
      destruct (IH c2 ltac:(lia) t rest z3 ls (on_stack rs ++ r) ts' outer Ht eq_refl ltac:(rewrite map_app, map_on_stack, <- app_assoc; unfold z3, closed; cbn [z_k with_al k_al]; rewrite Hb; exact F1)
                  ltac:(rewrite nvs_app, nv_on_stack, NR; exact NV2) T2 K2) as (z4 & E4 & (U4 & C4 & S4 & M4 & L4) & I4 & H4).
      exists z4. split; [exact E4|]. split; [|split; [exact I4|
        intros P K; cbn [peak] in P; pose proof (peak_ge SM c1 (length rs + length r + length outer)) as PG;
        lens; replace (S (length rs + length r) + length outer - 1) with (length rs + length r + length outer) in P by lia; replace (length rs + length r + length outer - length rs + length rs) with (length rs + length r + length outer) in P by lia;
        (apply H4; [lens; lia|]);
        unfold z3, closed; cbn [z_k with_al k_al]; rewrite Hb; (eapply bnd_close; [exact O5|exact L2|lens; pose proof (peak_ge SM c2 (length rs + length r + length outer)); lia|]);
        (apply H2; [lens; replace (length rs + (length r + length outer)) with (length rs + length r + length outer) by lia; lia|]);
        unfold z1; cbn [z_k with_al k_al]; pose proof (bnd_open nl Bx Nx HB a0 false rs rs _ G1) as BO; rewrite OE in BO; cbn [fst] in BO; apply BO; [lens; lia|eapply bnd_eq; [exact G2|exact K]]]]. split; [exact U4|]. split; [rewrite C4; unfold z3, closed; cbn [z_ctl]; rewrite C2; reflexivity|]. split; [rewrite S4; unfold z3, closed; cbn [z_sav]; rewrite S2; reflexivity|]. split; [exact M4|].
      unfold z3, closed in L4. cbn [z_k with_al k_al] in L4. rewrite Hb in L4.
      assert (M0 : mle (k_al (z_k z)) a0) by (intros c0; rewrite G2; apply le_n). eauto using mle_trans.
    - (* if else *) apply andb_prop in KN as [KN K3]. apply andb_prop in KN as [KN K2]. apply andb_prop in KN as [NR K1]. inversion T as [| | | | |? r ? ? ? ? ? ? T1 T2 T3| | | | | | |]; subst.
      cbn [map app] in HA. rewrite map_app, map_on_stack, <- app_assoc in HA. change (no_vectors (TI32 :: on_stack ps ++ r)) with (no_vectors (on_stack ps ++ r)) in NV. rewrite nvs_app in NV. apply andb_prop in NV as [NV1 NV2].
      destruct (al_pop_ok nl _ _ TI32 HA) as (G1 & _ & _). pose proof (al_pop_max (k_al (z_k z)) TI32) as G2. destruct (al_pop (k_al (z_k z)) TI32) as [a0 rc] eqn:PE. cbn [fst snd] in *.
      pose proof (open_ok nl a0 false ps rs _ G1) as OB.
      destruct (open_block a0 false ps rs) as [[a1 s] b] eqn:OE. destruct OB as (O1 & O2 & OL & O4 & _).
      assert (Hb : cb_results b = rs /\ cb_params b = ps) by (unfold open_block in OE; inversion OE; subst; auto). destruct Hb as [Hb Hp].
      repeat (rewrite <- app_assoc; cbn [app]). erewrite dec_go; [|exact U|cbn [dec_live]; rewrite PE, OE; reflexivity].
      match goal with |- context [dec_ops _ (flatten c1 ++ _) ?w] => set (z1 := w) end.
      destruct (IH c1 ltac:(lia) FElse (flatten c2 ++ FEnd :: flatten c3 ++ t :: rest) z1 _ (on_stack ps) _ (map class_of r ++ outer) (or_intror eq_refl) U ltac:(rewrite map_on_stack; exact O1) NV1 T1 K1) as (z2 & E2 & (U2 & C2 & S2 & M2 & L2) & I2 & H2).
      rewrite E2. pose proof (fun ts => O4 (k_al (z_k z2)) ts L2 (endsz_j _ _ _ _ I2)) as O5. destruct (O4 (k_al (z_k z2)) ps L2 (endsz_j _ _ _ _ I2)) as [F1 F2].
      erewrite else_go; [|exact U2|rewrite M2; reflexivity|rewrite C2; reflexivity|rewrite S2; reflexivity].
      match goal with |- context [dec_ops _ (flatten c2 ++ _) ?w] => set (z3 := w) end.
      destruct (IH c2 ltac:(lia) FEnd (flatten c3 ++ t :: rest) z3 _ (on_stack ps) _ (map class_of r ++ outer) (or_introl eq_refl) eq_refl ltac:(rewrite map_on_stack; unfold z3, elsed; cbn [z_k with_al k_al]; rewrite Hp; exact F1) NV1 T2 K2) as (z4 & E4 & (U4 & C4 & S4 & M4 & L4) & I4 & H4).
      unfold z3, elsed in L4. cbn [z_k with_al k_al] in L4. rewrite Hp in L4.
      assert (LL4 : mle a1 (k_al (z_k z4))) by (cbn [z_k z1 with_al k_al] in *; eauto using mle_trans).
      rewrite E4. pose proof (fun ts => O4 (k_al (z_k z4)) ts LL4 (endsz_j _ _ _ _ I4)) as O6. destruct (O4 (k_al (z_k z4)) rs LL4 (endsz_j _ _ _ _ I4)) as [F3 F4].
      erewrite end_go; [|exact U4|rewrite M4; reflexivity|rewrite C4; unfold z3, elsed; cbn [z_ctl]; rewrite C2; reflexivity|rewrite S4; unfold z3, elsed; cbn [z_sav]; rewrite S2; reflexivity].
      match goal with |- context [dec_ops _ (flatten c3 ++ _) ?w] => set (z5 := w) end.
      destruct (IH c3 ltac:(lia) t rest z5 ls (on_stack rs ++ r) ts' outer Ht eq_refl ltac:(rewrite map_app, map_on_stack, <- app_assoc; unfold z5, closed; cbn [z_k with_al k_al]; rewrite Hb; exact F3)
                  ltac:(rewrite nvs_app, nv_on_stack, NR; exact NV2) T3 K3) as (z6 & E6 & (U6 & C6 & S6 & M6 & L6) & I6 & H6).
      exists z6. split; [exact E6|]. split; [|split; [exact I6|
        intros P K; cbn [peak] in P; pose proof (peak_ge SM c1 (length ps + length r + length outer)) as PG;
        lens; replace (S (length ps + length r) + length outer - 1) with (length ps + length r + length outer) in P by lia;
        replace (length ps + length r + length outer - length ps + length rs) with (length rs + length r + length outer) in P by lia;
        (apply H6; [lens; lia|]);
        unfold z5, closed; cbn [z_k with_al k_al]; rewrite Hb; (eapply bnd_close; [exact O6|exact LL4|lens; pose proof (peak_ge SM c3 (length rs + length r + length outer)); lia|]);
        (apply H4; [lens; replace (length ps + (length r + length outer)) with (length ps + length r + length outer) by lia; lia|]);
        unfold z3, elsed; cbn [z_k with_al k_al]; rewrite Hp; (eapply bnd_close; [exact O5|exact L2|lens; lia|]);
        (apply H2; [lens; replace (length ps + (length r + length outer)) with (length ps + length r + length outer) by lia; lia|]);
        unfold z1; cbn [z_k with_al k_al]; pose proof (bnd_open nl Bx Nx HB a0 false ps rs _ G1) as BO; rewrite OE in BO; cbn [fst] in BO; apply BO; [lens; lia|eapply bnd_eq; [exact G2|exact K]]]]. split; [exact U6|].
      split; [rewrite C6; unfold z5, closed; cbn [z_ctl]; rewrite C4; unfold z3, elsed; cbn [z_ctl]; rewrite C2; reflexivity|].
      split; [rewrite S6; unfold z5, closed; cbn [z_sav]; rewrite S4; unfold z3, elsed; cbn [z_sav]; rewrite S2; reflexivity|]. split; [exact M6|].
      unfold z5, closed in L6. cbn [z_k with_al k_al] in L6. rewrite Hb in L6.
      assert (M0 : mle (k_al (z_k z)) a0) by (intros c0; rewrite G2; apply le_n). cbn [z_k z1 with_al k_al] in *. eauto 8 using mle_trans.
    - (* br *) inversion T as [| | | | | |? r ? ? ? l ? N T1| | | | | |]; subst.
      destruct (branch_regs (z_ctl z) d (k_al (z_k z))) as [bs bt] eqn:BR. erewrite dec_go; [|exact U|cbn [dec_live]; rewrite BR; reflexivity].
      match goal with |- context [dec_ops _ (flatten c ++ _) ?w] => destruct (dead_total c t rest w Ht eq_refl) as (z' & E1 & E2 & E3) end.
      exists z'. split; [exact E1|]. split; [exact E2|]. split; [|apply high_same; now rewrite E3]. unfold endsz. rewrite E3. destruct HA as (H1 & _). cbn [z_k emit set_unr]. eexists. exact H1.
    - (* br_if *) inversion T as [| | | | | | |? r ? ? l ? N T1| | | | |]; subst. cbn [map app] in HA.
      change (no_vectors (TI32 :: l ++ r)) with (no_vectors (l ++ r)) in NV.
      destruct (al_pop_ok nl _ _ TI32 HA) as (G1 & _ & _). pose proof (al_pop_max (k_al (z_k z)) TI32) as G2.
      destruct (branch_regs (z_ctl z) d (fst (al_pop (k_al (z_k z)) TI32))) as [bs bt] eqn:BR. erewrite dec_go; [|exact U|cbn [dec_live]; rewrite BR; reflexivity].
      match goal with |- context [dec_ops _ (flatten c ++ _) ?w] => destruct (IH c ltac:(lia) t rest w ls (l ++ r) ts' outer Ht U G1 NV T1 KN) as (z' & E1 & E2 & E3 & E4) end.
      exists z'. split; [exact E1|]. split; [|split; [exact E3|intros P K; cbn [peak length] in P; lens; apply E4; [replace (S (length l + length r) + length outer - 1) with (length l + length r + length outer) in P by lia; lia|cbn [z_k emit with_al k_al]; eapply bnd_eq; [exact G2|exact K]]]]. eapply okz_trans; [|exact E2]. apply emit_ok; auto. intros c0. cbn [with_al k_al]. rewrite G2. apply le_n.
    - (* br_table *) inversion T as [| | | | | | | |? r ? ? ? ? l ? N NS T1| | | |]; subst. cbn [map app] in HA.
      destruct (al_pop_ok nl _ _ TI32 HA) as (G1 & _ & _). pose proof (al_pop_max (k_al (z_k z)) TI32) as G2.
      destruct (branch_regs (z_ctl z) d (fst (al_pop (k_al (z_k z)) TI32))) as [bs bt] eqn:BR. erewrite dec_go; [|exact U|cbn [dec_live]; rewrite BR; reflexivity].
      match goal with |- context [dec_ops _ (flatten c ++ _) ?w] => destruct (dead_total c t rest w Ht eq_refl) as (z' & E1 & (D1 & D2 & D3 & D4 & D5) & E3) end.
      exists z'. split; [exact E1|]. split; [|split; [unfold endsz; rewrite E3; destruct G1 as (H1 & _); cbn [z_k emit set_unr with_al k_al]; eexists; exact H1|apply high_same; rewrite E3; exact G2]].
      split; [exact D1|]. split; [exact D2|]. split; [exact D3|]. split; [exact D4|]. rewrite E3. cbn [z_k emit set_unr with_al k_al]. intros c0. rewrite G2. apply le_n.
    - (* return *) inversion T as [| | | | | | | | |? r ? ? ? T1| | |]; subst. cbn [f_results] in HA. rewrite map_app, <- app_assoc, map_on_stack in HA.
      rewrite <- tops_rev in HA. destruct (al_pops_ok nl _ _ _ HA) as [G1 G2].
      erewrite dec_go; [|exact U|cbn [dec_live]; reflexivity].
      match goal with |- context [dec_ops _ (flatten c ++ _) ?w] => destruct (dead_total c t rest w Ht eq_refl) as (z' & E1 & (D1 & D2 & D3 & D4 & D5) & E3) end.
      exists z'. split; [exact E1|]. change (e_results E) with (snd (sf_type fd0)) in *. split; [|split; [unfold endsz; rewrite E3; destruct G1 as (H1 & _); cbn [z_k emit set_unr with_al k_al]; eexists; exact H1|apply high_same; rewrite E3; exact G2]].
      split; [exact D1|]. split; [exact D2|]. split; [exact D3|]. split; [exact D4|]. rewrite E3. cbn [z_k emit set_unr with_al k_al]. intros c0. rewrite G2. apply le_n.
    - (* unreachable *) erewrite dec_go; [|exact U|cbn [dec_live]; reflexivity].
      match goal with |- context [dec_ops _ (flatten c ++ _) ?w] => destruct (dead_total c t rest w Ht eq_refl) as (z' & E1 & E2 & E3) end.
      exists z'. split; [exact E1|]. split; [exact E2|]. split; [|apply high_same; now rewrite E3]. unfold endsz. rewrite E3. destruct HA as (H1 & _). cbn [z_k emit set_unr]. eexists. exact H1.
    - (* call *) inversion T as [| | | | | | | | | | |? r ? ? fn ? Nf T1|]; subst. cbn [f_mod] in Nf. rewrite Nf in KN. apply andb_prop in KN as [NR KN].
      rewrite map_app, <- app_assoc, map_on_stack in HA. rewrite nvs_app in NV. apply andb_prop in NV as [_ NV].
      pose proof HR as HR'. rewrite Forall_forall in HR'. specialize (HR' fn (nth_error_In _ _ Nf)).
      pose proof (call_info_ok _ _ _ HI Nf) as CI.
      assert (N1 : no_vectors (on_stack (snd (sfunc_type fn)) ++ r) = true) by (rewrite nvs_app, nv_on_stack, NR; exact NV).
      destruct fn as [fd|w [ps rs]]; cbn [sfunc_type fst snd one_result] in *.
      + destruct (sf_type fd) as [ps rs] eqn:STY. cbn [fst snd] in *.
        pose proof (call_regs_ok SM fd0 (k_al (z_k z)) ps rs _ HA) as CR.
        assert (DL : exists z1, dec_live E (FCall f) (flatten c ++ t :: rest) z = Some (z1, false) /\ okz z z1 /\ z_unr z1 = 0 /\ ainv nl (k_al (z_k z1)) (tops rs ++ map class_of r ++ outer) /\
            (Bx + length (map class_of r ++ outer) + length rs <= Nx -> bnd Nx (k_al (z_k z)) -> bnd Nx (k_al (z_k z1)))).
        { pose proof (bnd_call nl Bx Nx HB _ ps rs _ HA) as BC. cbn [dec_live e_mod env_of]. rewrite CI. unfold call_regs in CR, BC. destruct (call_params (k_al (z_k z)) (rev ps) []) as [a2 prs] eqn:CP. destruct (al_pushes a2 rs) as [a3 rrs] eqn:AP.
          destruct CR as (R1 & R2 & _). destruct ps as [|p ps]; [destruct rs as [|q rs]|].
          - eexists. split; [reflexivity|]. split; [apply emit_ok; auto; apply mle_refl|]. split; [exact U|]. split; [exact HA|intros _ K; exact K].
          - eexists. split; [reflexivity|]. split; [apply emit_ok; auto|]. split; [exact U|]. split; [exact R1|exact BC].
          - eexists. split; [reflexivity|]. split; [apply emit_ok; auto|]. split; [exact U|]. split; [exact R1|exact BC]. }
        destruct DL as (z1 & DL & O1 & U1 & A1 & B1). erewrite dec_go; [|exact U|exact DL].
        destruct (IH c ltac:(lia) t rest z1 ls (on_stack rs ++ r) ts' outer Ht U1 ltac:(rewrite map_app, map_on_stack, <- app_assoc; exact A1) N1 T1 KN) as (z' & E1 & E2 & E3 & E4).
        exists z'. split; [exact E1|]. split; [eapply okz_trans; eauto|]. split; [exact E3|]. intros P K. cbn [peak] in P. rewrite Nf in P. cbn [sfunc_type fst snd] in P. rewrite STY in P. cbn [fst snd] in P. lens.
        replace (length ps + length r + length outer - length ps + length rs) with (length rs + length r + length outer) in P by lia.
        pose proof (peak_ge SM c (length rs + length r + length outer)). apply E4; [lens; lia|]. apply B1; [lia|exact K].
      + rewrite <- tops_rev in HA. destruct (al_pops_ok nl _ _ _ HA) as [G1 G2].
        assert (DL : exists z1, dec_live E (FCall f) (flatten c ++ t :: rest) z = Some (z1, false) /\ okz z z1 /\ z_unr z1 = 0 /\ ainv nl (k_al (z_k z1)) (tops rs ++ map class_of r ++ outer) /\
            (Bx + length (map class_of r ++ outer) + length rs <= Nx -> bnd Nx (k_al (z_k z)) -> bnd Nx (k_al (z_k z1)))).
        { cbn [dec_live e_mod env_of]. rewrite CI. destruct rs as [|t1 [|t2 rs]]; [| |cbn in HR'; lia].
          - eexists. split; [reflexivity|]. split; [apply emit_ok; auto; intros c0; cbn [with_al k_al]; rewrite G2; apply le_n|]. split; [exact U|]. split; [exact G1|intros _ K; eapply bnd_eq; [exact G2|exact K]].
          - pose proof (bnd_push nl Bx Nx HB _ _ t1 G1) as BP. destruct (al_push_ok nl _ _ t1 G1) as (U1 & U2 & _). destruct (al_push (al_pops (k_al (z_k z)) (rev ps)) t1) as [a3 r3]. cbn [fst] in *.
            eexists. split; [reflexivity|]. split; [apply emit_ok; auto; intros c0; cbn [with_al k_al]; rewrite <- G2; apply U2|]. split; [exact U|]. split; [exact U1|intros L K; apply BP; [cbn in L; lia|eapply bnd_eq; [exact G2|exact K]]]. }
        destruct DL as (z1 & DL & O1 & U1 & A1 & B1). erewrite dec_go; [|exact U|exact DL].
        destruct (IH c ltac:(lia) t rest z1 ls (on_stack rs ++ r) ts' outer Ht U1 ltac:(rewrite map_app, map_on_stack, <- app_assoc; exact A1) N1 T1 KN) as (z' & E1 & E2 & E3 & E4).
        exists z'. split; [exact E1|]. split; [eapply okz_trans; eauto|]. split; [exact E3|]. intros P K. cbn [peak] in P. rewrite Nf in P. cbn [sfunc_type fst snd] in P. lens.
        replace (length ps + length r + length outer - length ps + length rs) with (length rs + length r + length outer) in P by lia.
        pose proof (peak_ge SM c (length rs + length r + length outer)). apply E4; [lens; lia|]. apply B1; [lia|exact K].
    - (* call_indirect *) inversion T as [| | | | | | | | | | | |? r ? ? ? ps rs ? Nt T1]; subst. cbn [f_mod] in Nt. rewrite Nt in KN. apply andb_prop in KN as [NR KN]. cbn [snd] in NR.
      cbn [map app] in HA. rewrite map_app, <- app_assoc, map_on_stack in HA. change (no_vectors (TI32 :: on_stack ps ++ r)) with (no_vectors (on_stack ps ++ r)) in NV. rewrite nvs_app in NV. apply andb_prop in NV as [_ NV].
      destruct (al_pop_ok nl _ _ TI32 HA) as (G1 & G2 & G3).
      pose proof (call_regs_ok SM fd0 _ ps rs _ G1) as CR. pose proof (bnd_call nl Bx Nx HB _ ps rs _ G1) as BC. pose proof (al_pop_max (k_al (z_k z)) TI32) as GM. unfold call_regs in CR, BC.
      destruct (call_params (fst (al_pop (k_al (z_k z)) TI32)) (rev ps) []) as [a2 prs] eqn:CP. destruct (al_pushes a2 rs) as [a3 rrs] eqn:AP. destruct CR as (R1 & R2 & _).
      assert (N1 : no_vectors (on_stack rs ++ r) = true) by (rewrite nvs_app, nv_on_stack, NR; exact NV).
      erewrite dec_go; [|exact U|cbn [dec_live]; unfold type_or_empty; cbn [e_mod env_of ms_types src_of]; rewrite Nt, G3, CP, AP; reflexivity].
      match goal with |- context [dec_ops _ (flatten c ++ _) ?w] => destruct (IH c ltac:(lia) t rest w ls (on_stack rs ++ r) ts' outer Ht U ltac:(rewrite map_app, map_on_stack, <- app_assoc; exact R1) N1 T1 KN) as (z' & E1 & E2 & E3 & E4) end.
      exists z'. split; [exact E1|]. split; [|split; [exact E3|
        intros P K; cbn [peak] in P; rewrite Nt in P; cbn [fst snd] in P; lens;
        replace (S (length ps + length r) + length outer - 1 - length ps + length rs) with (length rs + length r + length outer) in P by lia;
        pose proof (peak_ge SM c (length rs + length r + length outer)); apply E4; [lens; lia|]; cbn [z_k emit with_al k_al]; apply BC; [lens; lia|eapply bnd_eq; [exact GM|exact K]]]]. eapply okz_trans; [|exact E2]. apply emit_ok; auto.
  Qed.
End T.

Lemma nl_len SM fd c : nl (env_of SM fd) c <= length (sf_locals fd).
Proof. unfold nl. rewrite count_cls_cnt. cbn [e_locals env_of]. rewrite <- (map_length class_of). apply cnt_len. Qed.
Lemma translate_total SM fd : imports_first (sm_funcs SM) = true -> Forall one_result (sm_funcs SM) ->
  valid_func SM (SWasm fd) -> known SM (fst (sf_type fd) ++ sf_locals fd) (sf_body fd) = true ->
  forall N, exists code al, translate (env_of SM fd) (flatten (sf_body fd) ++ [FEnd]) = Some (code, al) /\
    (length (sf_locals fd) + peak SM 0 (sf_body fd) <= N -> forall c, sget al c <= N).
Proof.
  intros HI HR V K N. set (c := sf_body fd) in *. set (E := env_of SM fd).
  destruct (decode_total SM fd HI HR (length (sf_locals fd)) N (nl_len SM fd) (csize c) c (le_n _) FEnd [] (dec_start E) _ [] _ [] (or_introl eq_refl) eq_refl (al_new_ok _) eq_refl V K)
    as (z0 & D0 & (U0 & C0 & S0 & M0 & _) & _ & HH).
  assert (DD : exists z, dec_ops E [FEnd] z0 = Some z /\ k_al (z_k z) = k_al (z_k z0)).
  { cbn [dec_ops]. assert (D : dec_dead FEnd z0 = inr (set_unr z0 0)).
    { unfold dec_dead. destruct (z_unr z0) as [|[|n]] eqn:Z; [|reflexivity|lia]. now rewrite set_unr_0. }
    rewrite D. unfold dec_live. cbn [z_map z_ctl z_sav z_unr z_ends z_elses z_fix z_out z_k set_unr]. rewrite M0. eexists. split; [reflexivity|]. cbn [z_k with_al k_al]. now rewrite S0. }
  destruct DD as (z & DD & KZ). fold E in D0. rewrite DD in D0. unfold translate. fold E. rewrite D0.
  destruct (decode_reach E (length (z_out z)) (csize c) c (le_n _) FEnd [] (dec_start E) z (or_introl eq_refl) eq_refl eq_refl D0)
    as (z' & D' & U' & R1 & R2 & R3).
  assert (M : z_map z' = []) by now rewrite (x_map _ _ R1).
  assert (Cn : z_ctl z' = []) by now rewrite (x_ctl _ _ R1).
  assert (Sv : z_sav z' = []) by now rewrite (x_sav _ _ R1).
  cbn [dec_ops] in D'.
  assert (Dd : dec_dead FEnd z' = inr (set_unr z' 0)).
  { unfold dec_dead. destruct (z_unr z') as [|[|n]] eqn:Z; [|reflexivity|lia]. now rewrite set_unr_0. }
  rewrite Dd in D'. unfold dec_live in D'. cbn [z_map z_ctl z_sav z_unr z_ends z_elses z_fix z_out z_k set_unr] in D'.
  rewrite M, Cn, Sv in D'. cbn [tl] in D'. injection D' as Hz. clear Dd.
  replace (z_map z) with (@nil (nat * bool * option nat)) by now rewrite <- Hz.
  assert (Fz : z_fix z = fixes 0 (z_out z)).
  { rewrite <- Hz. cbn [z_fix z_out]. rewrite fixes_app. cbn. rewrite app_nil_r. exact R2. }
  assert (O : z_out z = z_out z' ++ [IEnd (al_peek_regs (k_al (z_k z')) (e_results E)) []]) by now rewrite <- Hz.
  assert (Ez : z_ends z = z_ends z') by now rewrite <- Hz.
  assert (Gz : z_elses z = z_elses z') by now rewrite <- Hz.
  assert (Lc := R3 (z_out z) (z_ends z) (z_elses z) []).
  destruct (loc_pok E (z_ends z) (z_elses z) (z_out z) (csize c) c (le_n _) [] _ _ _ _ (Lc ltac:(rewrite O; eexists; reflexivity)
     ltac:(rewrite Ez; intros ? ?; reflexivity) ltac:(rewrite Gz; intros ? ?; reflexivity) eq_refl)) as (A & B & _).
  { constructor. }
  destruct (phase2_total (z_ends z) (z_elses z) (z_out z) []) as [C1 P2].
  { cbn [app length Nat.add]. intros q i Q. destruct (Nat.ltb_spec q (pc_of z')) as [L|L].
    - apply (A q); auto. cbn. lia.
    - assert (q = pc_of z').
      { apply nth_error_Some_lt in Q || (assert (q < length (z_out z)) by (apply nth_error_Some; congruence)). rewrite O, app_length in *. cbn in *. unfold pc_of in *. lia. }
      subst q. rewrite O in Q. unfold pc_of in Q. rewrite nth_error_app2, Nat.sub_diag in Q by lia. injection Q as <-. discriminate. }
  cbn [app length] in P2. rewrite <- Fz in P2. rewrite P2. eexists. eexists. split; [reflexivity|].
  intros P. change (bnd N (k_al (z_k z))). rewrite KZ. apply HH; [exact P|]. intros d.
  destruct (al_new_ok E) as (_ & AD & _). specialize (AD d). change (al_max (k_al (z_k (dec_start E)))) with (al_d (al_new (e_locals E))).
  rewrite AD. pose proof (nl_len SM fd d) as NL. unfold nl in NL. fold E in NL. unfold cnt. cbn [filter length]. lia.
Qed.
Theorem compile_total SM : valid SM -> Forall one_result (sm_funcs SM) -> known_module SM = true -> exists M, compile SM = Some M.
Proof.
  intros V HR K. pose proof (valid_imports _ V) as HI. destruct V as [V _]. unfold compile.
  assert (G : forall fs, Forall (valid_func SM) fs -> forallb (fun f => match f with SWasm d => known SM (fst (sf_type d) ++ sf_locals d) (sf_body d) | SWasi _ _ => true end) fs = true ->
            exists gs, map_opt (compile_func SM) fs = Some gs).
  { induction fs as [|f fs IH]; intros VF KF; cbn [map_opt]; [eauto|]. inversion VF; subst. cbn [forallb] in KF. apply andb_prop in KF as [K1 K2].
    destruct (IH H2 K2) as [gs ->]. destruct f as [d|w t]; cbn [compile_func]; [|eauto].
    destruct (translate_total SM d HI HR H1 K1 0) as (code & al & -> & _). eauto. }
  destruct (G _ V K) as [gs ->]. eauto.
Qed.

Lemma map_opt_spec {A B} (f : A -> option B) (P : A -> B -> Prop) l : (forall a, In a l -> exists b, f a = Some b /\ P a b) ->
  exists bs, map_opt f l = Some bs /\ Forall2 P l bs.
Proof.
  induction l as [|a l IH]; intros H; cbn [map_opt]; [eauto|]. destruct (H a (or_introl eq_refl)) as (b & -> & Pb).
  destruct IH as (bs & -> & F); [intros; apply H; now right|]. eauto.
Qed.
(** ... and its registers can be numbered, if the function is modest *)
Theorem compile_small SM : valid SM -> Forall one_result (sm_funcs SM) -> known_module SM = true -> forallb (modest SM) (sm_funcs SM) = true ->
  exists M, compile SM = Some M /\ small M = true.
Proof.
  intros V HR K H. pose proof (valid_imports _ V) as HI. destruct V as [V _]. unfold compile.
  rewrite Forall_forall in V. unfold known_module in K. rewrite forallb_forall in K, H.
  destruct (map_opt_spec (compile_func SM) (fun _ g => small_func g = true) (sm_funcs SM)) as (gs & -> & FG).
  - intros f I. specialize (V f I). specialize (K f I). specialize (H f I). destruct f as [d|w t]; cbn [compile_func]; [|eauto].
    cbn [modest] in H. apply andb_prop in H as [H1 H2].
    destruct (translate_total SM d HI HR V K (length (sf_locals d) + peak SM 0 (sf_body d))) as (code & al & -> & B).
    eexists. split; [reflexivity|]. cbn [small_func fd_type fd_locals fd_alloc]. unfold fits16. rewrite H1. cbn [andb].
    rewrite forallb_forall. intros c _. specialize (B (le_n _) c). apply Z.leb_le in H2. apply Z.leb_le. lia.
  - eexists. split; [reflexivity|]. unfold small. cbn [md_funcs]. clear -FG. induction FG; cbn; auto. now rewrite H.
Qed.
