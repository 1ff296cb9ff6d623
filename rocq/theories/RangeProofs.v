(** What a state holds are values of their types (no modelled code): for Properties_Files.v. *)
From Coq Require Import ZArith List Bool Lia.
From Verif Require Import Word Value Numeric Float NumericProofs FloatProofs Mem WasmNum WasmFloat WasmMem MemProofs Store StoreProofs Regs RegsProofs IR Machine Wasm WasmTyping WasmPrims PrimFacts Soundness Decoder Check BasicSim FrameFacts ExecFacts Layout Properties_Layout Runtime SimState RuntimeProofs MigrationProofs Properties_Runtime EmitTyped.
Import ListNotations.
Open Scope Z_scope.

(** ** operators *)
Lemma sat_range lo hi z : lo <= hi -> lo <= sat lo hi z <= hi.
Proof. intros H. unfold sat. destruct (Z.ltb_spec z lo); [lia|]. destruct (Z.ltb_spec hi z); lia. Qed.
Lemma cast_range F lo hi c : lo <= 0 <= hi -> lo <= cls_cast F lo hi c <= hi.
Proof. intros H. destruct c; cbn [cls_cast]; try lia. apply sat_range. lia. Qed.
Lemma trunc32_range F s b z : conv_i32_trunc F s b = Ok z -> in_s 32 z.
Proof.
  unfold conv_i32_trunc. destruct (is_nan F b); [discriminate|]. destruct s; (destruct (_ || _); [discriminate|]); intros [= <-].
  - unfold in_s. pose proof (cast_range F (i_min 32) (i_max 32) (cls_trunc F (classify F b)) ltac:(unfold i_min, i_max; lia)) as K. unfold i_min, i_max in *. lia.
  - apply cast_s_range. lia.
Qed.
Lemma trunc64_range F s b z : conv_i64_trunc F s b = Ok z -> in_s 64 z.
Proof.
  unfold conv_i64_trunc. destruct (is_nan F b); [discriminate|]. destruct s; (destruct (_ || _); [discriminate|]); intros [= <-].
  - unfold in_s. pose proof (cast_range F (i_min 64) (i_max 64) (cls_trunc F (classify F b)) ltac:(unfold i_min, i_max; lia)) as K. unfold i_min, i_max in *. lia.
  - apply cast_s_range. lia.
Qed.
Definition isv (c : cls) (v : val) : Prop := val_cls v = c /\ val_ok v.
Lemma isv_int w z : in_s (wz w) z -> isv (class_of (ity w)) (ival w z). Proof. destruct w; split; auto. Qed.
Lemma isv_flt f z : in_u (fw (ff f)) z -> isv (class_of (fvt f)) (fval f z). Proof. destruct f; split; auto. Qed.
Record iok (s : inst) : Prop := {
  ik_g : Forall val_ok (i_globals s); ik_m : forall m, i_mem s = Some m -> bytes_ok (m_data m); ik_d : Forall bytes_ok (i_datas s) }.
Lemma isv_default c : isv c (default_of c).
Proof. destruct c; split; cbn; auto; unfold in_s, in_u; lia. Qed.
Section Ops.
  Variable hf : hostfp.
  Hypothesis HF : hostfp_ok hf.
  Lemma spec_i s w u r s' v : gives_int s w u r -> r = Ok (s', Some v) -> isv (class_of (ity w)) v.
  Proof. intros (x & -> & R & _) [= _ <-]. now apply isv_int. Qed.
  Lemma spec_f s f P r s' v : gives_flt s f P r -> r = Ok (s', Some v) -> isv (class_of (fvt f)) v.
  Proof. intros (x & -> & R & _) [= _ <-]. now apply isv_flt. Qed.
  Lemma op1_range o a : sop_ok (SNum1 o) = true -> has_type (op1_arg o) a -> isv (class_of (op1_res o)) (op1_eval hf o (payload a)).
  Proof.
    intros O A. assert (EX : exists_op (SNum1 o) = true) by (destruct o as [[] []| |]; cbn in *; congruence).
    pose (s := {| i_mem := None; i_globals := []; i_tables := []; i_datas := [] |}).
    pose proof (num1_spec hf HF s o a EX A) as K. destruct o as [w o|w|f o]; cbn [op1_res spec1] in *.
    - eapply spec_i; eauto.
    - change TI32 with (ity W32). eapply spec_i; eauto.
    - destruct o; eapply spec_f; eauto.
  Qed.
  Lemma op2_range o a b v : has_type (op2_arg o) a -> has_type (op2_arg o) b -> op2_eval hf o (payload a) (payload b) = Ok v -> isv (class_of (op2_res o)) v.
  Proof.
    intros A B E. pose (s := {| i_mem := None; i_globals := []; i_tables := []; i_datas := [] |}).
    pose proof (num2_spec hf HF s o a b A B) as K. rewrite E in K. cbn [bind] in K. destruct o as [w o|w o|f o|f o]; cbn [op2_res spec2] in *.
    - destruct (wasm_ibinop _ _ _ _); [eapply spec_i; eauto|destruct K as (t & K); discriminate].
    - change TI32 with (ity W32). eapply spec_i; eauto.
    - destruct o; eapply spec_f; eauto.
    - change TI32 with (ity W32). destruct K as [[K _]|[K _]]; eapply spec_i; eauto.
  Qed.
  Lemma cvt_range c a v : has_type (cvt_arg c) a -> cvt_eval hf c (payload a) = Ok v -> isv (class_of (cvt_res c)) v.
  Proof.
    intros A E. pose (s := {| i_mem := None; i_globals := []; i_tables := []; i_datas := [] |}).
    destruct (diverges (SCvt c) s [a]) eqn:D.
    - destruct c as [|x|w f x|w f x|f w x| | |w|w]; try discriminate D. cbn [cvt_eval] in E.
      destruct w; unfold rmap, bind in E; destruct (_ : res Z) as [z|t|] eqn:T; try discriminate E; injection E as <-.
      + split; [reflexivity|]. eapply trunc32_range; eauto.
      + split; [reflexivity|]. eapply trunc64_range; eauto.
    - pose proof (cvt_spec hf HF s c a D A) as K. rewrite E in K. cbn [bind] in K. destruct c as [|x|w f x|w f x|f w x| | |w|w]; cbn [cvt_res spec_cvt] in *.
      + change TI32 with (ity W32). eapply spec_i; eauto.
      + change TI64 with (ity W64). destruct x; eapply spec_i; eauto.
      + destruct K as [(z & _ & K)|[_ (t & K)]]; [eapply spec_i; eauto|discriminate].
      + eapply spec_i; eauto.
      + eapply spec_f; eauto.
      + change TF32 with (fvt FT32). eapply spec_f; eauto.
      + change TF64 with (fvt FT64). eapply spec_f; eauto.
      + eapply spec_i; eauto.
      + eapply spec_f; eauto.
  Qed.
  Lemma load_range op m p off v : bytes_ok m -> mem_load op m p off = Ok v -> isv (load_cls op) v.
  Proof.
    intros B H. unfold mem_load, raw_read in H. destruct (_ && _) eqn:C; [|discriminate]. injection H as <-.
    apply andb_prop in C as [C1 C2]. apply Z.leb_le in C1, C2.
    set (bs := firstn _ _). pose proof (load_spec_bytes op) as [HS HR].
    assert (Lbs : length bs = Z.to_nat (load_bytes op)) by (apply sub_length; lia).
    assert (Hbs : bytes_ok bs) by (apply sub_bytes; auto).
    split; [destruct op; reflexivity|]. apply load_conv_ok.
    pose proof (le_decode_range bs Hbs) as K. unfold mlen in K. rewrite Lbs in K. rewrite Z2Nat.id in K by (destruct op; cbn; lia).
    replace (2 ^ (8 * load_bytes op)) with (256 ^ load_bytes op); [exact K|]. destruct op; reflexivity.
  Qed.
  Lemma bytes_skipn n l : bytes_ok l -> bytes_ok (skipn n l).
  Proof. unfold bytes_ok. rewrite !Forall_forall. intros H x I. apply H. rewrite <- (firstn_skipn n l). apply in_or_app. auto. Qed.
  Lemma bytes_firstn n l : bytes_ok l -> bytes_ok (firstn n l).
  Proof. unfold bytes_ok. rewrite !Forall_forall. intros H x I. apply H. rewrite <- (firstn_skipn n l). apply in_or_app. auto. Qed.
  Lemma bytes_app2 a b : bytes_ok a -> bytes_ok b -> bytes_ok (a ++ b).
  Proof. intros. apply Forall_app. auto. Qed.
  Lemma bytes_splice m p bs : bytes_ok m -> bytes_ok bs -> bytes_ok (splice m p bs).
  Proof. intros. unfold splice. auto using bytes_app2, bytes_firstn, bytes_skipn. Qed.
  Lemma bytes_repeat b n : is_byte b -> bytes_ok (repeat b n).
  Proof. intros H. apply Forall_forall. intros x I. apply repeat_spec in I. now subst. Qed.
  Lemma write_bytes m p bs m' : bytes_ok m -> bytes_ok bs -> raw_write m p bs = Ok m' -> bytes_ok m'.
  Proof. unfold raw_write. destruct (_ && _); [|discriminate]. intros ? ? [= <-]. now apply bytes_splice. Qed.
  Lemma read_bytes m p n bs : bytes_ok m -> raw_read m p n = Ok bs -> bytes_ok bs.
  Proof. unfold raw_read. destruct (_ && _); [|discriminate]. intros ? [= <-]. auto using bytes_firstn, bytes_skipn. Qed.
  Lemma slice_bytes m a b bs : bytes_ok m -> slice m a b = Ok bs -> bytes_ok bs.
  Proof. unfold slice. destruct (_ && _); [|discriminate]. intros ? [= <-]. auto using bytes_firstn, bytes_skipn. Qed.
  Lemma iok_mem s m d : iok s -> bytes_ok d -> iok (with_mem s (with_data m d)).
  Proof. intros [A B C] H. split; cbn; auto. intros m' [= <-]. exact H. Qed.
  Lemma zero_byte : is_byte 0. Proof. unfold is_byte. lia. Qed.
  Lemma pages_range m : in_s 32 (mem_size m). Proof. apply cast_s_range. lia. Qed.
  Lemma Forall_upd' {A} (P : A -> Prop) v : forall l i, Forall P l -> P v -> Forall P (upd l i v).
  Proof. induction l as [|x l IH]; intros [|i] H V; cbn; auto; inversion H; subst; constructor; auto. Qed.
  Lemma mem_of s m : iok s -> raw_mem s = Ok m -> bytes_ok (m_data m).
  Proof. intros K. unfold raw_mem. destruct (i_mem s) eqn:E; [|discriminate]. cbn. intros [= <-]. now apply (ik_m s K). Qed.
  Lemma mem_need s m : iok s -> need_mem s = Ok m -> bytes_ok (m_data m).
  Proof. intros K. unfold need_mem. destruct (i_mem s) eqn:E; [|discriminate]. intros [= <-]. now apply (ik_m s K). Qed.
  Lemma grow_range m n m' r : bytes_ok (m_data m) -> mem_grow m n = Ok (m', r) -> bytes_ok (m_data m') /\ in_s 32 r.
  Proof.
    intros B. unfold mem_grow, mem_grow_raw. destruct (_ <? 0); [discriminate|]. cbv zeta.
    destruct (match m_max m with Some _ => _ | None => _ end); [intros [= <- <-]; split; auto; unfold in_s; lia|].
    destruct (65536 <? _); [intros [= <- <-]; split; auto; unfold in_s; lia|]. destruct (isize_max <? _); [discriminate|].
    intros [= <- <-]. split; [|apply pages_range]. cbn [m_data]. unfold resize. apply bytes_app2; [now apply bytes_firstn|apply bytes_repeat, zero_byte].
  Qed.
  Lemma copy_range m d p n m' : bytes_ok m -> mem_copy m d p n = Ok m' -> bytes_ok m'.
  Proof.
    intros B. unfold mem_copy. cbv zeta. destruct (_ =? 0); [intros [= <-]; auto|]. intros H. apply bind_inv in H as (bs & H1 & H2).
    exact (write_bytes _ _ _ _ B (read_bytes _ _ _ _ B H1) H2).
  Qed.
  Lemma fill_range m d p n m' : bytes_ok m -> mem_fill m d p n = Ok m' -> bytes_ok m'.
  Proof.
    intros B. unfold mem_fill. cbv zeta. destruct (_ =? 0); [intros [= <-]; auto|]. destruct (_ <? _); [discriminate|]. intros H.
    refine (write_bytes _ _ _ _ B _ H). apply bytes_repeat. unfold is_byte. pose proof (Z.mod_pos_bound p (2 ^ 8) ltac:(lia)) as Q. exact Q.
  Qed.
  Lemma init_range m ds k d p n m' : bytes_ok m -> Forall bytes_ok ds -> mem_init m ds k d p n = Ok m' -> bytes_ok m'.
  Proof.
    intros B D. unfold mem_init. destruct (nth_error ds k) as [b|] eqn:N; [|discriminate]. cbv zeta. destruct (0 <? _); [|intros [= <-]; auto].
    intros H. apply bind_inv in H as (bs & H1 & H). unfold mem_init_at in H. apply bind_inv in H as (? & _ & H). injection H as <-.
    apply bytes_splice; auto. eapply slice_bytes; [|exact H1]. rewrite Forall_forall in D. eapply D, nth_error_In; eauto.
  Qed.
  Lemma sop_range o s a s' v : sop_ok o = true -> iok s -> Forall2 has_type (sop_args o) a -> sop_eval hf o s a = Ok (s', v) ->
    iok s' /\ forall t x, sop_res o = Some t -> v = Some x -> isv (class_of t) x.
  Proof.
    intros SO K A H. pose proof K as [KG KM KD]. destruct o as [o|o|c|op off|op off| | | |k| |k|t i|t i|t| |t e|t e|t e]; args A; cbn [sop_eval sop_res] in *;
      repeat match type of H with bind _ _ = _ => apply bind_inv in H as (? & ? & H) end; injection H as <- <-;
      (split; [try exact K|intros t' x' TE XE; try discriminate TE; try discriminate XE; injection TE as <-; injection XE as <-]).
    - now apply op1_range.
    - eapply op2_range; [exact A1|exact A2|eauto].
    - eapply cvt_range; eauto.
    - rewrite vt_cls. eapply load_range; [|eauto]. eapply mem_of; eauto.
    - match goal with R : raw_mem s = _, T : mem_store _ _ _ _ _ = _ |- _ => apply iok_mem; auto; unfold mem_store in T; eapply write_bytes; [eapply mem_of; eauto| |exact T]; apply le_encode_bytes end.
    - split; [reflexivity|apply pages_range].
    - match goal with R : need_mem s = Ok ?m, T : mem_grow _ _ = Ok ?r |- _ => destruct r as [m' z]; cbn [fst snd]; destruct (grow_range _ _ _ _ (mem_need _ _ K R) T); split; cbn; auto; intros ? [= <-]; auto end.
    - match goal with R : need_mem s = Ok ?m, T : mem_grow _ _ = Ok ?r |- _ => destruct r as [m' z]; cbn [fst snd]; destruct (grow_range _ _ _ _ (mem_need _ _ K R) T); split; [reflexivity|auto] end.
    - match goal with R : need_mem s = Ok ?m |- _ => apply iok_mem; auto; eapply copy_range; [eapply mem_need; eauto|eauto] end.
    - match goal with R : need_mem s = Ok ?m |- _ => apply iok_mem; auto; eapply init_range; [eapply mem_need; eauto|exact KD|eauto] end.
    - match goal with R : need_mem s = Ok ?m |- _ => apply iok_mem; auto; eapply fill_range; [eapply mem_need; eauto|eauto] end.
    - split; cbn; auto. apply Forall_upd'; auto. constructor.
    - match goal with G : global_get _ _ _ = _ |- _ => unfold global_get in G; destruct (nth_error _ _) eqn:N; [|discriminate G]; injection G as <- end.
      destruct (cls_eqb _ _) eqn:E; [|apply isv_default]. split; [now apply cls_eqb_eq|]. rewrite Forall_forall in KG. eapply KG, nth_error_In; eauto.
    - match goal with G : global_set _ _ _ = _ |- _ => unfold global_set in G; destruct (nth_error _ _) eqn:N; [|discriminate G]; destruct (cls_eqb _ _); [|discriminate G]; injection G as <- end.
      split; cbn; auto. apply Forall_upd'; auto. apply A1.
    - split; [destruct t; try discriminate SO; reflexivity|exact Logic.I].
    - split; [reflexivity|]. cbn. unfold ref_is_null. destruct (vref a1); unfold in_s; lia.
    - split; [destruct e; try discriminate SO; reflexivity|exact Logic.I].
    - split; auto.
    - split; auto.
  Qed.
End Ops.

(** ** what a state holds *)
Open Scope nat_scope.
Definition rok (rf : regfile) : Prop := forall c, Forall (isv c) (sget (rf_vecs rf) c).
Fixpoint below (top : cls -> nat) (st : list (six nat)) : Prop :=
  match st with [] => True | o :: st => (forall c, sget o c <= top c) /\ below (sget o) st end.
Definition off_ok (rf : regfile) : Prop :=
  below (fun c => length (sget (rf_vecs rf) c)) (rf_stack rf) /\ rf_cur rf = match rf_stack rf with [] => sbuild (fun _ => 0) | o :: _ => o end.
Lemma below_le st : forall t t', (forall c, t c <= t' c) -> below t st -> below t' st.
Proof. destruct st as [|o st]; cbn; auto. intros t t' L [A B]. split; auto. intros c. specialize (A c). specialize (L c). lia. Qed.
Lemma off_wr rf rf' : wr rf rf' -> off_ok rf -> off_ok rf'.
Proof. intros (S1 & C1 & H) [A B]. split; rewrite S1; [|congruence]. eapply below_le; [|exact A]. intros c. cbn. destruct (H c). lia. Qed.
Lemma off_save rf al : off_ok rf -> off_ok (rf_save rf al).
Proof.
  intros [A B]. unfold rf_save. split; cbn [rf_stack rf_cur rf_vecs below]; auto. split.
  - intros c. rewrite !sget_build, app_length. lia.
  - eapply below_le; [|exact A]. intros c. cbn. now rewrite sget_build.
Qed.
Lemma off_restore rf : off_ok rf -> off_ok (rf_restore rf).
Proof.
  intros [A B]. unfold rf_restore. destruct (rf_stack rf) as [|o st] eqn:E; split; cbn [rf_stack rf_cur rf_vecs tl below] in *; auto.
  destruct A as [A1 A2]. eapply below_le; [|exact A2]. intros c. cbn. rewrite sget_build, firstn_length. specialize (A1 c). lia.
Qed.
Lemma rok_get rf c i v : rok rf -> rf_get rf c i = Ok v -> isv c v.
Proof. intros H G. unfold rf_get in G. destruct (nth_error _ _) eqn:N; [|discriminate]. injection G as <-. specialize (H c). rewrite Forall_forall in H. eapply H, nth_error_In; eauto. Qed.
Lemma rok_set rf c i v rf' : rok rf -> isv c v -> rf_set rf c i v = Ok rf' -> rok rf'.
Proof.
  intros H V G. apply rf_set_inv in G as [L ->]. intros k. cbn [rf_vecs]. rewrite sget_sset. destruct (cls_eqb c k) eqn:E; [apply cls_eqb_eq in E; subst|apply H]. apply Forall_upd'; [apply H|exact V].
Qed.
Lemma rok_copies src : forall rf dst rf', rok rf -> rf_copies rf src dst = Ok rf' -> rok rf'.
Proof.
  induction src as [|s src IH]; intros rf [|d dst] rf' H G; cbn in G; try (injection G as <-; auto; fail).
  apply bind_inv in G as (rf1 & G1 & G2). eapply (IH rf1); [|exact G2]. unfold rf_copy in G1. destruct (cls_eqb _ _) eqn:E; [|injection G1 as <-; auto].
  apply cls_eqb_eq in E. apply bind_inv in G1 as (v & G3 & G1). eapply rok_set; [exact H| |exact G1]. rewrite <- E. eapply rok_get; eauto.
Qed.
Lemma rok_set_val rf r v rf' : rok rf -> val_ok v -> rf_set_val rf r v = Ok rf' -> rok rf'.
Proof.
  intros H V G.
  assert (X : forall c, isv c (if cls_eqb (val_cls v) c then v else default_of c)).
  { intros c. destruct (cls_eqb _ _) eqn:E; [apply cls_eqb_eq in E; split; auto|apply isv_default]. }
  unfold rf_set_val in G. destruct (r_cls r); try (eapply rok_set; [exact H|apply X|exact G]; fail).
  2: injection G as <-; auto.
  destruct (cls_eqb _ _) eqn:E; [|injection G as <-; auto]. apply cls_eqb_eq in E. eapply rok_set; [exact H|split; [exact E|exact V]|exact G].
Qed.
Lemma rok_set_vals rs : forall rf vs rf', rok rf -> Forall val_ok vs -> rf_set_vals rf rs vs = Ok rf' -> rok rf'.
Proof.
  induction rs as [|r rs IH]; intros rf [|v vs] rf' H V G; cbn in G; try (injection G as <-; auto; fail).
  inversion V; subst. apply bind_inv in G as (rf1 & G1 & G2). eapply (IH rf1); eauto using rok_set_val.
Qed.
Lemma rok_get_vals rf : forall rs vs, rok rf -> rf_get_vals rf rs = Ok vs -> Forall val_ok vs.
Proof.
  induction rs as [|r rs IH]; intros vs H G; cbn in G; [injection G as <-; constructor|]. apply bind_inv in G as (v & G1 & G). apply bind_inv in G as (vs' & G2 & G). injection G as <-.
  constructor; eauto. eapply (rok_get rf); eauto.
Qed.
Lemma rok_save rf al : rok rf -> rok (rf_save rf al).
Proof. intros H c. unfold rf_save. cbn [rf_vecs]. rewrite sget_build. apply Forall_app. split; [apply H|]. apply Forall_forall. intros x I. apply repeat_spec in I. subst. apply isv_default. Qed.
Lemma rok_restore rf : rok rf -> rok (rf_restore rf).
Proof. intros H c. unfold rf_restore. cbn [rf_vecs]. destruct (rf_stack rf); [apply H|]. rewrite sget_build. apply Forall_firstn, H. Qed.

Record dok (d : data) : Prop := { dk_r : rok (d_rf d); dk_o : off_ok (d_rf d); dk_l : Forall val_ok (d_loc d); dk_i : iok (d_inst d) }.
Lemma write_dok d c t v d' : dok d -> isv c v -> write d c t v = Ok d' -> dok d'.
Proof.
  intros [A O B G] V H. destruct t; cbn [write] in H.
  - apply bind_inv in H as (rf & H1 & H). injection H as <-. constructor; cbn; auto; [eapply rok_set; eauto|eapply off_wr; [eapply wr_set; eauto|exact O]].
  - destruct (Nat.ltb _ _); [|discriminate]. injection H as <-. constructor; cbn; auto. apply Forall_upd'; auto. apply V.
Qed.
Notation fine := (fine val_okb).
Notation const_is := (const_is val_okb).
Lemma read_dok d c o v : dok d -> const_is c o -> read d c o = Ok v -> isv c v.
Proof.
  intros [A _ B G] O H. destruct o; cbn [read] in H.
  - eapply rok_get; eauto.
  - injection H as <-. destruct O. split; auto. now apply val_okb_ok.
  - destruct (nth_error _ _) eqn:N; [|discriminate]. injection H as <-. destruct (cls_eqb _ _) eqn:E; [|apply isv_default]. split; [now apply cls_eqb_eq|]. rewrite Forall_forall in B. eapply B, nth_error_In; eauto.
Qed.
Lemma read_all_dok d : dok d -> forall ts os vs, Forall2 (fun t s => const_is (class_of t) s) ts os -> read_all d (map class_of ts) os = Ok vs -> Forall2 has_type ts vs.
Proof.
  intros D ts os vs F. revert vs. induction F as [|t o ts os F1 F2 IH]; intros vs H; cbn in H; [injection H as <-; constructor|].
  apply bind_inv in H as (v & H1 & H). apply bind_inv in H as (vs' & H2 & H). injection H as <-. constructor; auto. eapply read_dok; eauto.
Qed.
Lemma dstep_dok hf i d d' : hostfp_ok hf -> fine i -> dok d -> dstep hf i d = Some (Ok d') -> dok d'.
Proof.
  intros HF I D H. pose proof D as [A O B G]. destruct i; cbn [dstep EmitTyped.fine] in H, I; try discriminate H; injection H as H.
  - apply bind_inv in H as (v & H1 & H). eapply write_dok; eauto. eapply read_dok; eauto.
  - destruct I as [I1 I2]. destruct (_ && _); [discriminate|]. apply bind_inv in H as (args & H1 & H). apply bind_inv in H as ([s x] & H2 & H). cbn [fst snd] in H.
    destruct (sop_range hf HF _ _ _ _ _ I1 G (read_all_dok d D _ _ _ I2 H1) H2) as [G' X].
    assert (D' : dok (if sets_ptr o then set_ptr (set_inst d s) (cur_ptr s) else set_inst d s)) by (destruct (sets_ptr o); constructor; auto).
    unfold write_opt in H. destruct (sop_res o), d0, x; try (injection H as <-; exact D'). eapply write_dok; eauto.
  - unfold do_select in H. apply bind_inv in H as (k & _ & H). apply bind_inv in H as (v & H1 & H). apply bind_inv in H as (rf & H2 & H). injection H as <-.
    constructor; cbn; auto; [eapply rok_set; eauto using rok_get|eapply off_wr; [eapply wr_set; eauto|exact O]].
  - destruct (nth_error _ _) as [[]|] eqn:N; try discriminate; try (injection H as <-; auto; fail). eapply (write_dok d CRef (DReg _)); eauto. split; [reflexivity|exact Logic.I].
  - apply bind_inv in H as (v & H1 & H). eapply (write_dok d CRef (DLoc _)); eauto using rok_get.
  - congruence.
Qed.

Definition lbl (n : nat) (l : label) : Prop := l_ret l <= n /\ l_ip l <= n.
Definition regs8 (rs : list reg) : Prop := length rs <= 8 /\ Forall reg16 rs.
Record vok (C : list instr) (v : vs) : Prop := { vk_d : dok (s_d v); vk_l : Forall (lbl (length C)) (s_labels v); vk_r : regs8 (s_ret v) }.
Definition yok (y : yield) : Prop := match y with YInvoke _ args rs => Forall val_ok args /\ regs8 rs | _ => True end.
Lemma skipn_Forall {A} (P : A -> Prop) n : forall l, Forall P l -> Forall P (skipn n l).
Proof. induction n; intros [|x l] H; cbn; auto. inversion H; auto. Qed.
Lemma tl_Forall {A} (P : A -> Prop) l : Forall P l -> Forall P (tl l).
Proof. destruct 1; cbn; auto. Qed.
Lemma branch_vok C v n t src tgt v' : vok C v -> hv (branch v n t src tgt) = Some v' -> vok C v'.
Proof.
  intros [[A O B G] L R]. unfold branch. intros H. apply hres_inv in H as (rf & H1 & H). injection H as <-.
  assert (K : rok rf /\ off_ok rf).
  { destruct src; [injection H1 as <-; auto|]. destruct tgt; [injection H1 as <-; auto|]. split; [eapply rok_copies; eauto|eapply off_wr; [eapply wr_copies; eauto|exact O]]. }
  destruct K. constructor; cbn; auto; [constructor; cbn; auto|]. unfold pop_to, truncate. now apply skipn_Forall.
Qed.
Lemma regs8_of rs x : Forall reg16 rs -> arrayvec8 rs = Ok x -> regs8 x.
Proof. intros F H. unfold arrayvec8 in H. destruct (Nat.leb_spec (length rs) 8); [|discriminate]. injection H as <-. split; auto. Qed.
Lemma end_halt_vok C v src v' : Forall reg16 src -> vok C v -> hv (end_halt (length C) v src) = Some v' -> vok C v'.
Proof. intros F [D L R] H. unfold end_halt in H. apply hres_inv in H as (rs & H1 & H). injection H as <-. constructor; cbn; auto. eapply regs8_of; eauto. Qed.
Lemma hstep_vok hf M C v v' : hostfp_ok hf -> Forall fine C -> code_ok C -> vok C v -> hv (hstep hf M C v) = Some v' -> vok C v'.
Proof.
  intros HF CK CO V. unfold hstep. destruct (nth_error C (s_pc v)) as [i|] eqn:N; [|destruct (Nat.eqb _ _); intros H; [injection H as <-; auto|discriminate]].
  assert (FI : fine i) by (rewrite Forall_forall in CK; apply CK; eapply nth_error_In; eauto). assert (LT : s_pc v < length C) by (apply nth_error_Some; congruence).
  assert (PL : placed C (s_pc v) i) by apply (proj2 (proj2 (proj2 CO)) _ _ N).
  intros H. pose proof V as [D L R]. destruct i;
    try (match type of H with context[dstep hf ?i ?d] => destruct (dstep hf i d) as [[d'| |]|] eqn:E; try discriminate H; injection H as <-; constructor; cbn; auto; eapply dstep_dok; eauto end; fail).
  - hinv H. injection H as <-. constructor; auto.
  - hinv H. injection H as <-. constructor; auto.
  - hinv H. injection H as <-. constructor; auto.
  - hinv H. injection H as <-. constructor; auto. cbn. eapply regs8_of; eauto.
  - injection H as <-. constructor; cbn [s_d s_labels s_ret]; auto. destruct (Nat.ltb _ _); auto using tl_Forall.
  - injection H as <-. constructor; cbn; auto. constructor; auto. split; cbn; lia.
  - cbn [placed] in PL. destruct PL as (m & (C1 & C2 & C3 & C4) & SM & PL).
    assert (T : else_target <= length C) by (destruct has_else; [destruct PL as (j & J1 & J2 & J3 & ->)|subst]; lia).
    hinv H; injection H as <-; constructor; cbn; auto; constructor; auto; split; cbn; lia.
  - destruct (Nat.leb _ _); [eapply end_halt_vok; eauto|]. apply hres_inv in H as (rf & H1 & H). cbn zeta in H.
    assert (V' : vok C {| s_d := set_rf (s_d v) rf; s_labels := tl (s_labels v); s_ret := s_ret v; s_pc := s_pc v |}).
    { destruct D as [A O B G]. constructor; cbn; auto using tl_Forall. constructor; cbn; auto; [eapply rok_copies; eauto|eapply off_wr; [eapply wr_copies; eauto|exact O]]. }
    destruct (_ && _); [eapply end_halt_vok; [|exact V'|exact H]; auto|]. injection H as <-. destruct V'. constructor; auto.
  - eapply branch_vok; eauto.
  - apply hres_inv in H as (k & _ & H). destruct (Z.eqb _ _); [injection H as <-; constructor; auto|eapply branch_vok; eauto].
  - apply hres_inv in H as (k & _ & H). match type of H with context [match ?x with (_, _) => _ end] => destruct x as [[dd tt] rr] end. eapply branch_vok; eauto.
  - discriminate.
Qed.
Definition hyok (o : hout) : Prop := match o with HYield y _ => yok y | _ => True end.
Lemma hyok_res {A} (r : res A) k : (forall a, r = Ok a -> hyok (k a)) -> hyok (hres r k).
Proof. destruct r; cbn; auto. Qed.
Lemma hstep_yok hf M C v : Forall fine C -> vok C v -> hyok (hstep hf M C v).
Proof.
  intros CK [[A O B G] L R]. unfold hstep. destruct (nth_error C (s_pc v)) as [i|] eqn:N; [|destruct (Nat.eqb _ _); exact Logic.I].
  assert (FI : fine i) by (rewrite Forall_forall in CK; apply CK; eapply nth_error_In; eauto).
  assert (BR : forall n t s g, hyok (branch v n t s g)) by (intros; unfold branch; apply hyok_res; intros; exact Logic.I).
  destruct i; try (match goal with |- context[dstep hf ?i ?d] => destruct (dstep hf i d) as [[]|] end; exact Logic.I); try exact Logic.I.
  - apply hyok_res; intros; exact Logic.I.
  - apply hyok_res; intros k _. apply hyok_res; intros f _. destruct (nth_error (md_funcs M) f); [|exact Logic.I]. destruct (nth_error (md_types M) ty); [|exact Logic.I]. destruct (ftype_eqb _ _); [|exact Logic.I].
    apply hyok_res; intros args H. apply hyok_res; intros rs H'. cbn. split; [eapply rok_get_vals; eauto|eapply regs8_of; eauto].
  - destruct (nth_error (md_funcs M) _); [|exact Logic.I]. apply hyok_res; intros args H. apply hyok_res; intros rs H'. cbn. split; [eapply rok_get_vals; eauto|eapply regs8_of; eauto].
  - apply hyok_res; intros; exact Logic.I.
  - apply hyok_res; intros k _. destruct (negb _); [exact Logic.I|]. destruct has_else; exact Logic.I.
  - destruct (Nat.leb _ _); [unfold end_halt; apply hyok_res; intros; exact Logic.I|]. apply hyok_res; intros rf _. cbn zeta. destruct (_ && _); [unfold end_halt; apply hyok_res; intros|]; exact Logic.I.
  - apply BR.
  - apply hyok_res; intros k _. destruct (Z.eqb _ _); [exact Logic.I|apply BR].
  - apply hyok_res; intros k _. match goal with |- context [match ?x with (_, _) => _ end] => destruct x as [[dd tt] rr] end. apply BR.
Qed.
(** ** frames and the run loop *)
Definition dok_out (C : list instr) (o : dout) : Prop :=
  match o with
  | DHalt v | DYield YReturn v => vok C v
  | DYield y v => vok C v /\ lv C v /\ yok y
  | DCheckpoint v => vok C v /\ lv C v
  | _ => True
  end.
Lemma advance_vok hf M E C : hostfp_ok hf -> Forall fine C -> code_ok C -> forall n p v o t, vok C v -> lv C v -> tco_advance hf M E C n p v = Some (o, t) -> dok_out C o.
Proof.
  intros HF CK CO. induction n as [|n IH]; intros p v o t V LV H; cbn [tco_advance] in H; [discriminate|].
  destruct (poll E p) as [b q]. destruct b; [injection H as <- <-; cbn; auto|].
  pose proof (hstep_vok hf M C v) as HV. pose proof (hstep_yok hf M C v CK V) as HY. pose proof (hstep_lv hf M C v CO LV) as HL.
  destruct (hstep hf M C v) as [v'|v'|y v'|x|]; cbn [Runtime.handled hv hyok] in *; try specialize (HV v' HF CK CO V eq_refl).
  - eapply IH; eauto.
  - injection H as <- <-. exact HV.
  - injection H as <- <-. destruct y; cbn; auto.
  - injection H as <- <-. exact Logic.I.
  - injection H as <- <-. exact Logic.I.
Qed.
Record fgood (M : modul) (fd : fdef) (f : frame) : Prop := {
  fg_fn : nth_error (md_funcs M) (f_fn f) = Some (FWasm fd); fg_n : f_n f = length (snd (fd_type fd));
  fg_loc : Forall val_ok (f_loc f); fg_lbl : Forall (lbl (length (fd_code fd))) (f_labels f);
  fg_lv : level (fd_code fd) (top_ip (f_labels f)) (length (f_labels f));
  fg_ret : regs8 (f_ret f); fg_res : regs8 (f_res f) }.
Record sgood (M : modul) (st : rstate) : Prop := {
  sg_r : rok (r_rf st); sg_o : off_ok (r_rf st); sg_i : iok (r_inst st); sg_f : Forall (fun p => exists fd, fgood M fd (snd p)) (r_frames st) }.
Definition fines (M : modul) : Prop := forall f fd, nth_error (md_funcs M) f = Some (FWasm fd) -> Forall fine (fd_code fd).
Lemma regs8_nil : regs8 []. Proof. split; cbn; auto; lia. Qed.
Lemma writes_iok s ws : iok s -> Forall (fun w => is_byte (snd w)) ws -> iok (apply_writes s ws).
Proof.
  intros K W. unfold apply_writes. destruct (i_mem s) as [m|] eqn:E; auto. apply iok_mem; auto. pose proof (ik_m s K m E) as B. revert B. generalize (m_data m).
  induction W as [|w ws W1 W2 IH]; intros d B; cbn; auto. apply IH. now apply Forall_upd'.
Qed.
Lemma default_locals_ok : forall ts ds, default_locals ts = Ok ds -> Forall val_ok ds.
Proof.
  induction ts as [|t ts IH]; intros ds H; cbn in H; [injection H as <-; constructor|]. apply bind_inv in H as (v & H1 & H). apply bind_inv in H as (vs & H2 & H). injection H as <-. constructor; auto.
  destruct t; cbn in H1; try discriminate; injection H1 as <-; cbn; unfold in_s, in_u; lia.
Qed.
Lemma write_back_good M fd f v : code_ok (fd_code fd) -> fgood M fd f -> vok (fd_code fd) v -> lv (fd_code fd) v -> fgood M fd (write_back f v).
Proof.
  intros CO [A B C0 D E F G] [[R O L I] LB RT] LV. pose proof (level_ne _ _ _ CO LV) as NE. destruct (s_labels v) as [|l ls] eqn:Q; [now destruct NE|].
  constructor; cbn [write_back f_fn f_n f_loc f_labels f_ret f_res]; rewrite ?Q; auto.
  - destruct LV as (_ & _ & LE). inversion LB as [|? ? H1 H2]; subst. destruct H1. cbn. constructor; auto. split; cbn; auto.
  - unfold lv in LV. rewrite Q in LV. exact LV.
Qed.
Lemma round_good hf host M E D en0 k st o : hostfp_ok hf -> host_ok host -> mod_ok M -> fines M -> sgood M st -> run_round hf host M E D en0 k st = Some o ->
  match o with RRun st' | RCheckpoint st' => sgood M st' | _ => True end.
Proof.
  intros HF HO MO FM [A O I FS] H. unfold run_round in H. destruct (r_frames st) as [|[en f] rest]; [injection H as <-; exact Logic.I|].
  inversion FS as [|? ? [fd FG] FR]; subst. cbn [snd] in FG. pose proof FG as [FN NN LC LB LV RT RS]. rewrite FN in H. pose proof (MO _ _ FN) as CO. pose proof (FM _ _ FN) as CK.
  set (v := resume f (r_rf st) (r_inst st) (f_ptr f)) in *.
  assert (V : vok (fd_code fd) v) by (constructor; cbn; auto; constructor; cbn; auto). assert (VL : lv (fd_code fd) v) by exact LV.
  rewrite dispatch_advance in H by auto. destruct (tco_advance _ _ _ _ _ _ _) as [[q t]|] eqn:T; [|discriminate].
  pose proof (advance_vok _ _ _ _ HF CK CO _ _ _ _ _ V VL T) as K. cbv zeta in H. injection H as H.
  assert (RET : forall v', vok (fd_code fd) v' ->
    match (match rest with
                | [] => rres (r_log st) (rf_get_vals (d_rf (s_d v')) (firstn (f_n f) (s_ret v'))) (fun vals => RDone vals (d_inst (s_d v')) (r_log st))
                | (en', g) :: rest' =>
                    rres (r_log st) (rf_get_vals (d_rf (s_d v')) (s_ret v')) (fun vals =>
                    rres (r_log st) (rf_set_vals (rf_restore (d_rf (s_d v'))) (f_res g) vals) (fun rf =>
                      RRun {| r_rf := rf; r_frames := (en', with_res (with_ptr g (cur_ptr (d_inst (s_d v')))) []) :: rest';
                              r_inst := d_inst (s_d v'); r_log := r_log st; r_t := t |}))
                end) with RRun st' | RCheckpoint st' => sgood M st' | _ => True end).
  { intros v' [[A' O' L' I'] LB' RT']. destruct rest as [|[en' g] rest'].
    - destruct (rf_get_vals _ _); exact Logic.I.
    - destruct (rf_get_vals _ _) as [vals| |] eqn:G1; cbn [rres]; auto. destruct (rf_set_vals _ _ _) as [rf| |] eqn:G2; cbn [rres]; auto.
      inversion FR as [|? ? [gd GG] FR']; subst. cbn [snd] in GG. constructor; cbn [r_rf r_inst r_frames].
      + eapply rok_set_vals; [apply rok_restore; exact A'|eapply rok_get_vals; [exact A'|exact G1]|exact G2].
      + eapply off_wr; [eapply wr_set_vals; exact G2|]. now apply off_restore.
      + exact I'.
      + constructor; auto. exists gd. destruct GG. constructor; cbn; auto using regs8_nil. }
  destruct q as [v'|[|w args r|g args rs] v'|x|v'|]; cbn [dok_out] in K; subst o; auto.
  - apply RET; auto.
  - apply RET; auto.
  - destruct K as (V' & LV' & _). pose proof V' as [[A' O' L' I'] LB' RT']. destruct (host _) as [| | |z|ov ws] eqn:HH; auto. destruct (HO _ _ _ HH) as [HO1 HO2].
    destruct (match r with Some _ => _ | None => _ end) as [rf| |] eqn:G1; cbn [rres]; auto. constructor; cbn [r_rf r_inst r_frames].
    + destruct r as [r|]; [|injection G1 as <-; auto]. destruct ov as [x|]; [|injection G1 as <-; auto]. eapply rok_set_val; eauto.
    + destruct r as [r|]; [|injection G1 as <-; auto]. destruct ov as [x|]; [|injection G1 as <-; auto]. eapply off_wr; [eapply wr_set_val; exact G1|auto].
    + now apply writes_iok.
    + constructor; auto. exists fd. now apply write_back_good.
  - destruct K as (V' & LV' & YA & YR). pose proof V' as [[A' O' L' I'] LB' RT']. destruct (nth_error (md_funcs M) g) as [[gd|]|] eqn:NG; auto.
    destruct (default_locals _) as [ds| |] eqn:DL; cbn [rres]; auto. constructor; cbn [r_rf r_inst r_frames].
    + now apply rok_save.
    + now apply off_save.
    + exact I'.
    + constructor; [|constructor; auto].
      * exists gd. constructor; cbn [snd f_fn f_n f_loc f_labels f_ret f_res]; auto using regs8_nil.
        -- apply Forall_app. split; auto. eapply default_locals_ok; eauto.
        -- constructor; auto. split; cbn; lia.
        -- destruct (MO _ _ NG) as (_ & LG & _). split; [|split]; cbn; try lia. intros _. now rewrite height_0.
      * exists fd. destruct (write_back_good _ _ _ _ CO FG V' LV'). constructor; auto.
  - destruct K as (V' & LV'). pose proof V' as [[A' O' L' I'] LB' RT']. constructor; cbn [r_rf r_inst r_frames]; auto. constructor; auto. exists fd. now apply write_back_good.
Qed.
Lemma loop_good hf host M E D en0 k : hostfp_ok hf -> host_ok host -> mod_ok M -> fines M -> forall n st, sgood M st ->
  match run_loop hf host M E D en0 k n st with RRun st' | RCheckpoint st' => sgood M st' | _ => True end.
Proof.
  intros HF HO MO FM. induction n as [|n IH]; intros st S; cbn [run_loop]; auto. pose proof (round_good hf host M E D en0 k st) as K.
  destruct (run_round _ _ _ _ _ _ _ _) as [[st'| | | |st'|]|]; auto.
  - exact (IH st' (K _ HF HO MO FM S eq_refl)).
  - exact (K _ HF HO MO FM S eq_refl).
Qed.
Lemma outermost_Forall (P : frame -> Prop) en fs : Forall (fun p => P (snd p)) fs -> Forall (fun p => P (snd p)) (set_outermost en fs).
Proof.
  intros H. unfold set_outermost. apply Forall_rev in H. destruct (rev fs) as [|[b f] r]; auto. apply Forall_rev. inversion H; subst. constructor; auto.
Qed.
Lemma run_good hf host M E D en0 k n st : hostfp_ok hf -> host_ok host -> mod_ok M -> fines M -> sgood M st ->
  match run hf host M E D en0 k n st with RRun st' | RCheckpoint st' => sgood M st' | _ => True end.
Proof.
  intros HF HO MO FM [A O I F]. unfold run. apply loop_good; auto. constructor; cbn [r_rf r_inst r_frames]; auto.
  exact (outermost_Forall (fun f => exists fd, fgood M fd f) en0 _ F).
Qed.
Lemma start_good M s f args st : mod_ok M -> Forall val_ok args -> iok s -> start M s f args = Ok st -> sgood M st.
Proof.
  intros MO A I H. unfold start in H. destruct (nth_error _ _) as [[fd|]|] eqn:N; try discriminate. destruct (Nat.eqb _ _); [|discriminate]. injection H as <-.
  constructor; cbn [r_rf r_inst r_frames]; auto.
  - apply rok_save. intros []; constructor.
  - apply off_save. split; cbn; auto.
  - constructor; auto. exists fd. constructor; cbn [snd f_fn f_n f_loc f_labels f_ret f_res]; auto using regs8_nil.
    + apply Forall_app. split; auto. apply Forall_forall. intros x X. apply in_map_iff in X as (t & <- & _). apply (proj2 (isv_default (class_of t))).
    + constructor; auto. split; cbn; lia.
    + destruct (MO _ _ N) as (_ & LG & _). split; [|split]; cbn; try lia. intros _. now rewrite height_0.
Qed.
Lemma restore_globals_Forall (P : val -> Prop) : forall gs vals r, Forall P gs -> Forall P vals -> restore_globals gs vals = Some r -> Forall P r.
Proof.
  induction gs as [|g gs IH]; intros [|v vals] r G V H; cbn in H; try (injection H as <-; auto; fail).
  destruct (cls_eqb _ _); [|discriminate]. destruct (restore_globals gs vals) eqn:E; [|discriminate]. injection H as <-. inversion G; inversion V; subst. constructor; eauto.
Qed.
Lemma restore_good M s st g log t st' : sgood M st -> iok s -> checkpoint st = Some g -> restore M s g log t = Some st' -> sgood M st'.
Proof.
  intros [A O [IG IM ID] F] [JG JM JD] CK H. unfold checkpoint in CK. destruct (ser_state st); [|discriminate]. injection CK as <-.
  unfold restore in H. cbn [g_mem g_globals g_funcs g_rf g_frames] in H.
  destruct (match i_mem s with Some _ => _ | None => _ end) as [s1|] eqn:E1; [|discriminate].
  assert (K1 : iok s1).
  { destruct (i_mem s) as [m|] eqn:EM; [|injection E1 as <-; constructor; rewrite ?EM; auto; discriminate].
    destruct (i_mem (r_inst st)) as [m'|] eqn:EM'; cbn in E1; [|discriminate]. injection E1 as <-. constructor; cbn; auto. intros x [= <-]. cbn. auto. }
  destruct (if Nat.eqb _ _ then _ else _) as [s2|] eqn:E2; [|discriminate].
  assert (K2 : iok s2).
  { destruct (Nat.eqb _ _); [|injection E2 as <-; auto]. destruct (restore_globals _ _) as [gs|] eqn:RG; [|discriminate]. injection E2 as <-. destruct K1. constructor; cbn; auto. exact (restore_globals_Forall _ _ _ _ ik_g0 IG RG). }
  destruct (forallb _ _); [|discriminate]. injection H as <-. constructor; cbn [r_rf r_inst r_frames]; auto.
  rewrite (map_combine_frames (r_frames st) (fun n g => (false, {| f_fn := n; f_loc := g_loc g; f_ptr := cur_ptr s2; f_labels := g_labels g; f_ret := g_ret g; f_res := g_res g; f_n := g_n g |}))).
  apply Forall_forall. intros x X. apply in_map_iff in X as ([b f] & <- & X). rewrite Forall_forall in F. destruct (F _ X) as [fd FG]. exists fd. destruct FG. constructor; auto.
Qed.
