(** Where chiwawa's handlers and the standard part ([diverges]); elsewhere they agree. *)
From Coq Require Import ZArith List Bool Lia ZifyBool ZifyNat.
From Verif Require Import Word Value Numeric WasmNum NumericProofs Float WasmFloat FloatProofs NumFacts Mem WasmMem MemProofs
  MemFacts Store StoreSpec StoreProofs Regs IR Machine Wasm WasmTyping WasmPrims.
Import ListNotations.
Open Scope Z_scope.

(** The operations chiwawa does not perform as the standard says (each is refuted in
    Properties_Num.v / Properties_Mem.v):
    - loads, stores, copies and fills outside memory (not checked, C11, C13),
    - zero-length memory.init and table.fill outside the bounds (C13, C16), wrapping table.fill,
    - memory.grow with an operand of 2^31 or more, or whose new size is 2^15 pages or more and
      either is granted by the standard or does not fit 31 bits (C12),
    - i32.trunc_f32 at one pattern per signedness (C07),
    - memory.grow and memory.init on memories above 2^31-1 bytes (unreachable without the above). *)
Definition diverges (o : sop) (s : inst) (args : list val) : bool :=
  match o, args, i_mem s with
  | SCvt (C_trunc W32 FT32 Sx), [a], _ => pattern a =? 0x4F000000
  | SCvt (C_trunc W32 FT32 Ux), [a], _ => pattern a =? 0x4F800000
  | SLoad op off, [p], Some m => mlen (m_data m) <? pattern p + off + load_bytes op
  | SStore op off, [p; _], Some m => mlen (m_data m) <? pattern p + off + store_bytes_n op
  | SMemGrow, [n], Some m =>
      (2 ^ 31 <=? pattern n) || (2 ^ 31 <=? pages (m_data m) + pattern n) || (isize_max <? mlen (m_data m))
      || ((2 ^ 15 <=? pages (m_data m) + pattern n) &&
          match wasm_grow (m_data m) (m_max m) (pattern n) with Some _ => true | None => false end)
  | SMemCopy, [d; sr; n], Some m =>
      (mlen (m_data m) <? pattern sr + pattern n) || (mlen (m_data m) <? pattern d + pattern n)
  | SMemFill, [d; _; n], Some m => mlen (m_data m) <? pattern d + pattern n
  | SMemInit k, [d; sr; n], Some m =>
      (isize_max <? mlen (m_data m)) ||
      ((pattern n =? 0) && match nth_error (i_datas s) k with
                           | Some seg => (mlen seg <? pattern sr) || (mlen (m_data m) <? pattern d)
                           | None => true
                           end)
  | STableFill t _, [i; _; n], _ =>
      match nth_error (i_tables s) t with
      | Some tb => (Z.of_nat (length tb) <? pattern i + pattern n) && ((pattern n =? 0) || (2 ^ 32 <=? pattern i + pattern n))
      | None => true
      end
  | _, _, _ => false
  end.

(** what the standard does at such a point *)
Definition at_divergence (o : sop) (s : inst) (args : list val) : res (inst * option val) :=
  match o, args, i_mem s with
  | SMemGrow, [n], Some m =>
      match wasm_grow (m_data m) (m_max m) (pattern n) with
      | Some d => Ok (with_mem s {| m_data := d; m_max := m_max m; m_gen := S (m_gen m) |}, Some (VI32 (pages (m_data m))))
      | None => Ok (s, Some (VI32 (-1)))
      end
  | SMemInit k, [d; sr; n], Some m =>
      match nth_error (i_datas s) k with
      | Some seg =>
          if (mlen seg <? pattern sr + pattern n) || (mlen (m_data m) <? pattern d + pattern n) then Trap TOutOfBounds
          else Ok (with_mem s (with_data m (splice (m_data m) (Z.to_nat (pattern d))
                     (firstn (Z.to_nat (pattern n)) (skipn (Z.to_nat (pattern sr)) seg)))), None)
      | None => Trap TOutOfBounds
      end
  | _, _, _ => Trap TOutOfBounds
  end.
(** WebAssembly's primitives, with chiwawa's choice where the standard leaves one *)
Definition wasm_prims (hf : hostfp) : prims :=
  {| p_op := fun o s args => if diverges o s args then at_divergence o s args else sop_eval hf o s args;
     p_func := table_func;
     p_default := fun t => Ok (default_of (class_of t));
     p_ind_host := true |}.

(** host floats are bit patterns of the right width *)
Record hostfp_ok (hf : hostfp) : Prop := {
  hk_bin : forall f o a b, in_u (fw (ff f)) (h_bin hf (ff f) o a b);
  hk_round : forall f o a, in_u (fw (ff f)) (h_round hf (ff f) o a);
  hk_int : forall f z, in_u (fw (ff f)) (h_of_int hf (ff f) z);
  hk_demote : forall b, in_u 32 (h_demote hf b);
  hk_promote : forall b, in_u 64 (h_promote hf b)
}.

(** ** values *)
Lemma wz_cases w : wz w = 32 \/ wz w = 64. Proof. destruct w; cbn; auto. Qed.
Lemma ff_cases f : ff f = F32 \/ ff f = F64. Proof. destruct f; cbn; auto. Qed.
Lemma int_arg w v : has_type (ity w) v -> exists z, v = ival w z /\ in_s (wz w) z /\ payload v = z /\ pattern v = unsigned (wz w) z.
Proof. intros [A B]. destruct w, v; cbn in *; try discriminate; eauto. Qed.
Lemma flt_arg f v : has_type (fvt f) v -> exists z, v = fval f z /\ in_u (fw (ff f)) z /\ payload v = z /\ pattern v = z.
Proof. intros [A B]. destruct f, v; cbn in *; try discriminate; eauto. Qed.
Lemma i32_arg v : has_type TI32 v -> exists z, v = VI32 z /\ in_s 32 z.
Proof. intros H. destruct (int_arg W32 v H) as (z & -> & I & _). eauto. Qed.
Lemma ref_arg t v : class_of t = CRef -> has_type t v -> exists r, v = VRef r.
Proof. intros C [A _]. rewrite C in A. destruct v; cbn in *; try discriminate; eauto. Qed.

Lemma f2_0 l : Forall2 has_type [] l -> l = [].
Proof. now inversion 1. Qed.
Lemma f2_1 t l : Forall2 has_type [t] l -> exists a, l = [a] /\ has_type t a.
Proof. inversion 1 as [|? a ? l' A B]; subst. apply f2_0 in B. subst. eauto. Qed.
Lemma f2_2 t u l : Forall2 has_type [t; u] l -> exists a b, l = [a; b] /\ has_type t a /\ has_type u b.
Proof. inversion 1 as [|? a ? l' A B]; subst. apply f2_1 in B as (b & -> & B). eauto. Qed.
Lemma f2_3 t u v l : Forall2 has_type [t; u; v] l -> exists a b c, l = [a; b; c] /\ has_type t a /\ has_type u b /\ has_type v c.
Proof. inversion 1 as [|? a ? l' A B]; subst. apply f2_2 in B as (b & c & -> & B & C). eauto 7. Qed.
Ltac args H := cbn [sop_args] in H;
  first [ apply f2_3 in H; destruct H as (a1 & a2 & a3 & -> & A1 & A2 & A3)
        | apply f2_2 in H; destruct H as (a1 & a2 & -> & A1 & A2)
        | apply f2_1 in H; destruct H as (a1 & -> & A1)
        | apply f2_0 in H; subst ].

Lemma gives_i32_b s z : z = 0 \/ z = 1 -> gives_i32 s z (Ok (s, Some (VI32 z))).
Proof. intros [->| ->]; eexists; repeat split; cbn; try reflexivity; lia. Qed.
Lemma unsigned_cast w z : (w = 32 \/ w = 64) -> in_s w z -> unsigned w z = z mod 2 ^ w.
Proof. intros Hw Hz. apply unsigned_mod; auto. lia. Qed.

Section Num.
  Variable hf : hostfp.
  Hypothesis HF : hostfp_ok hf.
  Lemma num1_spec s o a : exists_op (SNum1 o) = true -> has_type (op1_arg o) a ->
    spec1 hf s o (pattern a) (Ok (s, Some (op1_eval hf o (payload a)))).
  Proof.
    intros EX HA. destruct o as [w o|w|f o]; cbn [op1_arg op1_eval spec1] in *.
    - destruct (int_arg w a HA) as (z & -> & Hz & -> & ->). exists (unop (wz w) o z). split; [reflexivity|].
      destruct (wz_cases w) as [E|E]; rewrite E in *.
      + apply i32_unop_ok; auto. intros ->. destruct w; discriminate.
      + now apply i64_unop_ok.
    - destruct (int_arg w a HA) as (z & -> & Hz & -> & ->). rewrite eqz_ok by (auto using wz_cases).
      apply gives_i32_b. unfold wasm_eqz, bool_i32. destruct (_ =? 0); auto.
    - destruct (flt_arg f a HA) as (z & -> & Hz & -> & ->). destruct (signops_ok (ff f) z z (ff_cases f) Hz Hz) as [(A & B & _) K].
      destruct o as [q| |]; cbn [spec1]; eexists; (split; [reflexivity|]); split; auto.
      + apply (hk_round hf HF).
      + intros k Hk. apply (K k Hk).
      + intros k Hk. apply (K k Hk).
  Qed.
  Lemma minmax_range F a b : F = F32 \/ F = F64 -> in_u (fw F) a -> in_u (fw F) b ->
    in_u (fw F) (f_min F a b) /\ in_u (fw F) (f_max F a b).
  Proof.
    intros HFm Ha Hb. assert (N : in_u (fw F) (fnan F) /\ in_u (fw F) (fnegzero F) /\ in_u (fw F) 0).
    { destruct HFm as [->| ->]; repeat split; vm_compute; congruence. }
    destruct N as (N1 & N2 & N3). unfold f_min, f_max, rust_min, rust_max.
    split; repeat match goal with |- context [if ?c then _ else _] => destruct c end; auto.
  Qed.
  Lemma num2_spec s o a b : has_type (op2_arg o) a -> has_type (op2_arg o) b ->
    spec2 hf s o (pattern a) (pattern b) (let* v := op2_eval hf o (payload a) (payload b) in Ok (s, Some v)).
  Proof.
    intros HA HB. destruct o as [w o|w o|f o|f o]; cbn [op2_arg op2_eval spec2] in *.
    - destruct (int_arg w a HA) as (x & -> & Hx & -> & ->). destruct (int_arg w b HB) as (y & -> & Hy & -> & ->).
      pose proof (binop_ok (wz w) o x y (wz_cases w) Hx Hy) as K. unfold ok_bin in K. unfold rmap.
      destruct (binop (wz w) o x y) as [v|t|]; cbn [bind]; [|rewrite K; eexists; reflexivity|tauto].
      destruct K as [Iv E]. rewrite E. exists v. auto.
    - destruct (int_arg w a HA) as (x & -> & Hx & -> & ->). destruct (int_arg w b HB) as (y & -> & Hy & -> & ->).
      cbn [bind]. rewrite <- rel_ok by (auto using wz_cases). apply gives_i32_b. apply rel_result_i32.
    - destruct (flt_arg f a HA) as (x & -> & Hx & -> & ->). destruct (flt_arg f b HB) as (y & -> & Hy & -> & ->).
      destruct (minmax_range (ff f) x y (ff_cases f) Hx Hy) as [R1 R2].
      destruct (minmax_ok (ff f) x y (ff_cases f) Hx Hy) as [M1 M2].
      destruct (signops_ok (ff f) x y (ff_cases f) Hx Hy) as [(_ & _ & C1) K].
      destruct o as [q| | |]; cbn [bind]; eexists; (split; [reflexivity|]); split; auto.
      + apply (hk_bin hf HF).
      + intros k Hk. apply (K k Hk).
    - destruct (flt_arg f a HA) as (x & -> & Hx & -> & ->). destruct (flt_arg f b HB) as (y & -> & Hy & -> & ->).
      cbn [bind]. destruct (relf_ok (ff f) o x y (ff_cases f) Hx Hy) as [[-> R]|[-> R]]; [left|right]; split; auto; apply gives_i32_b; auto.
  Qed.
  Lemma wrap_of w x z v : in_s (wz w) v -> z = match x with Sx => v | Ux => unsigned (wz w) v end ->
    unsigned (wz w) v = wrap_int w z.
  Proof.
    intros Iv ->. unfold wrap_int. destruct x; [apply unsigned_cast; auto using wz_cases|].
    symmetry. apply Z.mod_small. apply unsigned_range; auto. destruct w; cbn; lia.
  Qed.
  Lemma trunc_spec s w f x a r v : has_type (fvt f) a -> trunc_agrees (ff f) x (wz w) (pattern a) r ->
    v = rmap (ival w) r -> spec_cvt hf s (C_trunc w f x) (pattern a) (let* v := v in Ok (s, Some v)).
  Proof.
    intros HA [(z & -> & Iz & T)|(t & -> & T)] ->; cbn [rmap bind spec_cvt].
    - left. eexists. split; [exact T|]. exists z. split; [reflexivity|]. split; auto. eapply wrap_of; eauto.
    - right. split; auto. now exists t.
  Qed.
  Lemma cvt_spec s c a : diverges (SCvt c) s [a] = false -> has_type (cvt_arg c) a ->
    spec_cvt hf s c (pattern a) (let* v := cvt_eval hf c (payload a) in Ok (s, Some v)).
  Proof.
    intros ND HA. destruct c as [|x|w f x|w f x|f w x| | |w|w]; cbn [cvt_arg cvt_eval] in *.
    - destruct (int_arg W64 a HA) as (z & -> & Hz & -> & ->). destruct (convs_ok z) as (K & _). destruct (K Hz). cbn. eexists; eauto.
    - destruct (int_arg W32 a HA) as (z & -> & Hz & -> & ->). destruct (convs_ok z) as (_ & K1 & K2 & _).
      destruct x; cbn [spec_cvt bind]; [destruct (K1 Hz)|destruct (K2 Hz)]; eexists; repeat split; eauto; apply H.
    - destruct (flt_arg f a HA) as (z & Ea & Hz & Pa & Qa). rewrite Pa. destruct w; eapply trunc_spec; eauto.
      + rewrite Qa. apply trunc32_ok; auto using ff_cases. intros Ef. destruct f; cbn in Ef; [|discriminate].
        cbn [diverges] in ND. destruct x; rewrite Qa in ND; lia.
      + rewrite Qa. apply trunc64_ok; auto using ff_cases.
    - destruct (flt_arg f a HA) as (z & -> & Hz & -> & ->). cbn [bind spec_cvt].
      destruct (sat_ok (wz w) (ff f) x z (wz_cases w) (ff_cases f) Hz) as [I1 E1]. eexists. split; [reflexivity|]. split; auto.
      rewrite <- E1. eapply wrap_of; eauto.
    - destruct (int_arg w a HA) as (z & -> & Hz & -> & ->). cbn [bind spec_cvt]. eexists. split; [reflexivity|]. split; [apply (hk_int hf HF)|].
      unfold conv_src. destruct x; f_equal.
      + symmetry. apply signed_unsigned; auto. destruct w; cbn; lia.
      + unfold cast_u. rewrite <- unsigned_cast; auto using wz_cases.
    - destruct (flt_arg FT64 a HA) as (z & -> & Hz & -> & ->). cbn. eexists. split; [reflexivity|]. split; auto. apply (hk_demote hf HF).
    - destruct (flt_arg FT32 a HA) as (z & -> & Hz & -> & ->). cbn. eexists. split; [reflexivity|]. split; auto. apply (hk_promote hf HF).
    - destruct (flt_arg (fty_of w) a HA) as (z & -> & Hz & -> & ->). destruct (reinterpret_ok (wz w) z 0 (wz_cases w)) as [K _].
      destruct w; cbn in *; destruct (K Hz) as (K1 & K2 & K3); eexists; eauto.
    - destruct (int_arg w a HA) as (z & -> & Hz & -> & ->). destruct (reinterpret_ok (wz w) 0 z (wz_cases w)) as [_ K].
      destruct w; cbn in *; destruct (K Hz) as (K1 & K2 & K3); eexists; eauto.
  Qed.
End Num.

(** ** instance operations *)
Lemma upd_replaced {A} (l : list A) i x : (i < length l)%nat -> replaced_at l (upd l i x) i x.
Proof. intros H. split; [apply upd_length|]. split; [now apply upd_nth_eq|]. intros j Hj. apply upd_nth_ne. auto. Qed.
Lemma has_mem h s : inst_ok h s -> sh_mem h = true -> exists m, i_mem s = Some m /\ mem_ok m.
Proof. intros H E. pose proof (io_mem h s H) as K. now rewrite E in K. Qed.
Lemma global_at h s i t : inst_ok h s -> nth_error (sh_globals h) i = Some t -> exists v, nth_error (i_globals s) i = Some v /\ has_type t v.
Proof.
  intros H E. pose proof (io_globals h s H) as K. revert i E. induction K as [|x y l l' Hx K IH]; intros [|i] E; try discriminate; cbn in *.
  - injection E as <-. eauto.
  - eauto.
Qed.
Lemma table_at h s t : inst_ok h s -> (t < sh_tables h)%nat -> exists tb, nth_error (i_tables s) t = Some tb /\ Z.of_nat (length tb) < 2 ^ 32.
Proof.
  intros H E. rewrite <- (io_tables h s H) in E. destruct (nth_error (i_tables s) t) as [tb|] eqn:N; [|apply nth_error_None in N; lia].
  exists tb. split; auto. pose proof (io_small h s H) as K. rewrite Forall_forall in K. apply K. eapply nth_error_In; eauto.
Qed.
Lemma data_at h s k : inst_ok h s -> (k < sh_datas h)%nat -> exists d, nth_error (i_datas s) k = Some d /\ bytes_ok d /\ mlen d < 2 ^ 32.
Proof.
  intros H E. rewrite <- (io_datas h s H) in E. destruct (nth_error (i_datas s) k) as [d|] eqn:N; [|apply nth_error_None in N; lia].
  exists d. split; auto. pose proof (io_bytes h s H) as K. rewrite Forall_forall in K. apply K. eapply nth_error_In; eauto.
Qed.
Lemma vt_eqb_eq a b : valtype_eqb a b = true -> a = b.
Proof. destruct a, b; cbn; congruence. Qed.
Ltac bools := repeat match goal with H : _ && _ = true |- _ => apply andb_prop in H; destruct H end.

Lemma unsigned_zero_iff z : in_s 32 z -> (unsigned 32 z = 0 <-> z = 0).
Proof. unfold in_s, unsigned. intros. destruct (z <? 0) eqn:E; lia. Qed.
Lemma store_type op : class_of (vt_of_cls (store_cls op)) = store_cls op.
Proof. destruct op; reflexivity. Qed.
Lemma u32_nat i : in_s 32 i -> cast_u 32 i = unsigned 32 i.
Proof. intros H. now destruct (u32 i H). Qed.

Lemma splice_replaced m seg d sr n : bytes_ok m -> bytes_ok seg -> 0 <= d -> 0 <= sr -> 0 <= n -> sr + n <= mlen seg -> d + n <= mlen m ->
  replaced m (splice m (Z.to_nat d) (firstn (Z.to_nat n) (skipn (Z.to_nat sr) seg))) d n (fun k => byte_at seg (sr + k)).
Proof.
  intros Bm Bs Hd Hs Hn H1 H2. pose proof (sub_length seg sr n Hs Hn H1) as SL.
  assert (ML : mlen (firstn (Z.to_nat n) (skipn (Z.to_nat sr) seg)) = n) by (unfold mlen; lia).
  split.
  - apply splice_length. unfold mlen in *. lia.
  - intros k Hk. rewrite splice_byte_at by (rewrite ?ML; lia). rewrite ML.
    destruct ((d <=? k) && (k <? d + n)) eqn:E; [|reflexivity]. apply sub_byte_at; lia.
Qed.

Section Ops.
  Variable hf : hostfp.
  Hypothesis HF : hostfp_ok hf.
  Variable h : shape.

  Lemma sop_conforms o s args : inst_ok h s -> op_in h o = true -> exists_op o = true ->
    Forall2 has_type (sop_args o) args -> diverges o s args = false -> op_spec hf o s args (sop_eval hf o s args).
  Proof.
    intros HI OI EX HA ND. destruct o as [o|o|c|op off|op off| | | |k| |k|t i|t i|t| |t e|t e|t e]; args HA.
    - cbn [sop_eval op_spec]. now apply num1_spec.
    - cbn [sop_eval op_spec]. now apply num2_spec.
    - cbn [sop_eval op_spec]. now apply cvt_spec.
    - (* load *)
      cbn [op_in] in OI. bools. destruct (has_mem h s HI H) as (m & EM & (B & Lm & _)).
      destruct (i32_arg _ A1) as (p & -> & Hp). cbn [sop_eval op_spec diverges pattern payload] in *. unfold raw_mem. rewrite EM in *. cbn [of_opt bind].
      destruct (mem_load_ok op (m_data m) p off B Lm Hp ltac:(lia) ltac:(lia)) as (v & -> & -> & _). reflexivity.
    - (* store *)
      cbn [op_in] in OI. bools. destruct (has_mem h s HI H) as (m & EM & (B & Lm & _)).
      destruct (i32_arg _ A1) as (p & -> & Hp). cbn [sop_eval op_spec diverges pattern payload] in *. unfold raw_mem. rewrite EM in *. cbn [of_opt bind].
      destruct A2 as [C V]. rewrite store_type in C.
      destruct (mem_store_ok op (m_data m) p off _ B Lm Hp ltac:(lia) V C ltac:(lia)) as (d & -> & W & _). left. eauto.
    - (* size *)
      cbn [op_in] in OI. destruct (has_mem h s HI OI) as (m & EM & (B & Lm & _)). cbn [sop_eval op_spec]. unfold need_mem. rewrite EM. cbn [bind].
      rewrite size_ok by lia. assert (R : 0 <= pages (m_data m) <= 65536).
      { unfold pages, mlen, page in *. split; [apply Z.div_pos; lia|]. apply Z.div_le_upper_bound; lia. }
      eexists. repeat split; try (cbn; lia). unfold unsigned. replace (_ <? 0) with false by lia. reflexivity.
    - (* grow *)
      cbn [op_in] in OI. destruct (has_mem h s HI OI) as (m & EM & (B & Lm & Lp & Mx)).
      destruct (i32_arg _ A1) as (n & -> & Hn). cbn [sop_eval op_spec diverges pattern payload] in *. unfold need_mem. rewrite EM in *. cbn [bind].
      assert (Un : unsigned 32 n = n). { unfold unsigned, in_s in *. destruct (n <? 0) eqn:E; [|auto]. lia. }
      rewrite Un in *. destruct (mem_grow_ok m n ltac:(lia) Lp Mx ltac:(unfold unsigned in Un; destruct (n <? 0) eqn:E; lia) ltac:(lia)) as (m' & r & -> & Em & K).
      { intros d' Ed. rewrite Ed in ND. lia. }
      cbn [bind fst snd]. destruct (wasm_grow (m_data m) (m_max m) n) as [d|] eqn:W.
      + destruct K as [K1 ->]. exists (m_gen m'). subst d. rewrite <- Em. destruct m'; reflexivity.
      + destruct K as [-> ->]. unfold with_mem. rewrite <- EM. destruct s; reflexivity.
    - (* copy *)
      cbn [op_in] in OI. destruct (has_mem h s HI OI) as (m & EM & (B & Lm & Lp & Mx)).
      destruct (i32_arg _ A1) as (d & -> & Hd). destruct (i32_arg _ A2) as (sr & -> & Hs). destruct (i32_arg _ A3) as (n & -> & Hn).
      cbn [sop_eval op_spec diverges pattern payload] in *. unfold need_mem. rewrite EM in *. cbn [bind].
      destruct (mem_copy_ok (m_data m) d sr n B Hd Hs Hn ltac:(lia) ltac:(lia)) as (b & -> & W & _). left. eauto.
    - (* init *)
      cbn [op_in] in OI. bools. destruct (has_mem h s HI H) as (m & EM & (B & Lm & Lp & Mx)).
      destruct (i32_arg _ A1) as (d & -> & Hd). destruct (i32_arg _ A2) as (sr & -> & Hs). destruct (i32_arg _ A3) as (n & -> & Hn).
      destruct (data_at h s k HI ltac:(now apply Nat.ltb_lt)) as (seg & Es & Bs & Ls).
      cbn [sop_eval op_spec diverges pattern payload] in *. unfold need_mem. rewrite EM, Es in *. cbn [bind].
      unfold isize_max in *. destruct (Z.eq_dec n 0) as [->|Hn0].
      + unfold mem_init. rewrite Es. change (cast_u 32 0) with 0. cbn [Z.ltb Z.compare bind]. left. exists (m_data m). split; [|reflexivity].
        cbn in ND. unfold wasm_init. change (unsigned 32 0) with 0 in *. rewrite !Z.add_0_r.
        destruct (mlen seg <? unsigned 32 sr) eqn:Q1; [lia|]. destruct (mlen (m_data m) <? unsigned 32 d) eqn:Q2; [lia|]. cbn [orb].
        eexists. split; [reflexivity|]. split; [reflexivity|]. intros j Hj. replace (_ && _) with false by lia. reflexivity.
      + destruct (mem_init_ok (m_data m) (i_datas s) k seg d sr n B Bs ltac:(lia) Ls Es Hd Hs Hn Hn0) as [(b & -> & W & _)|(t & -> & W)]; cbn [bind].
        * left. eauto.
        * right. split; auto. now exists t.
    - (* fill *)
      cbn [op_in] in OI. destruct (has_mem h s HI OI) as (m & EM & (B & Lm & Lp & Mx)).
      destruct (i32_arg _ A1) as (d & -> & Hd). destruct (i32_arg _ A2) as (v & -> & Hv). destruct (i32_arg _ A3) as (n & -> & Hn).
      cbn [sop_eval op_spec diverges pattern payload] in *. unfold need_mem. rewrite EM in *. cbn [bind].
      destruct (mem_fill_ok (m_data m) d v n B Hd Hv Hn ltac:(lia)) as (b & -> & W & _). left. eauto.
    - (* drop *)
      cbn [op_in] in OI. apply Nat.ltb_lt in OI. cbn [sop_eval op_spec]. exists (data_drop (i_datas s) k). split; [|reflexivity].
      apply upd_replaced. now rewrite (io_datas h s HI).
    - (* global.get *)
      cbn [op_in] in OI. destruct (nth_error (sh_globals h) i) as [t'|] eqn:G; [|discriminate]. apply vt_eqb_eq in OI. subst t'.
      destruct (global_at h s i t HI G) as (v & Ev & C & _). cbn [sop_eval op_spec]. exists v. split; auto.
      unfold global_get. rewrite Ev, C, cls_eqb_refl. reflexivity.
    - (* global.set *)
      cbn [op_in] in OI. destruct (nth_error (sh_globals h) i) as [t'|] eqn:G; [|discriminate]. apply vt_eqb_eq in OI. subst t'.
      destruct (global_at h s i t HI G) as (v & Ev & C & _). cbn [sop_eval op_spec]. destruct A1 as [C' _].
      unfold global_set. rewrite Ev, C, C', cls_eqb_refl. cbn [bind]. eexists. split; [|reflexivity]. apply upd_replaced. apply nth_error_Some. congruence.
    - reflexivity.
    - destruct (ref_arg TFuncRef _ eq_refl A1) as (r & ->). destruct r; reflexivity.
    - (* table.get *)
      cbn [op_in] in OI. destruct (table_at h s t HI ltac:(now apply Nat.ltb_lt)) as (tb & Et & Lt). destruct (i32_arg _ A1) as (i & -> & Hi).
      cbn [sop_eval op_spec pattern payload]. unfold table_get. rewrite Et, u32_nat by auto. destruct (nth_error tb _); cbn [bind]; [reflexivity|now eexists].
    - (* table.set *)
      cbn [op_in] in OI. destruct (table_at h s t HI ltac:(now apply Nat.ltb_lt)) as (tb & Et & Lt). destruct (i32_arg _ A1) as (i & -> & Hi).
      destruct (ref_arg e _ (ltac:(destruct e; cbn in EX |- *; congruence)) A2) as (r & ->).
      cbn [sop_eval op_spec pattern payload vref]. unfold table_set. rewrite Et, u32_nat by auto. destruct (u32 i Hi) as [_ R].
      destruct (Z.of_nat (length tb) <=? unsigned 32 i) eqn:E.
      + replace (_ <? _) with false by lia. cbn. now eexists.
      + replace (_ <? _) with true by lia. cbn [bind]. do 2 eexists. split; [|split; [|reflexivity]].
        * apply upd_replaced. lia.
        * apply upd_replaced. apply nth_error_Some. rewrite Et. discriminate.
    - (* table.fill *)
      cbn [op_in] in OI. destruct (table_at h s t HI ltac:(now apply Nat.ltb_lt)) as (tb & Et & Lt). destruct (i32_arg _ A1) as (i & -> & Hi).
      destruct (ref_arg e _ (ltac:(destruct e; cbn in EX |- *; congruence)) A2) as (r & ->). destruct (i32_arg _ A3) as (n & -> & Hn).
      cbn [sop_eval op_spec pattern payload vref diverges] in *. unfold table_fill. rewrite Et in *. rewrite (u32_nat i), (u32_nat n) by auto. cbv zeta.
      destruct (u32 i Hi) as [_ Ri], (u32 n Hn) as [_ Rn]. set (a := unsigned 32 i) in *. set (b := unsigned 32 n) in *.
      destruct (Z.of_nat (length tb) <? a + b) eqn:E.
      + cbn [andb] in ND. assert (U : usize (a + b) = a + b) by (unfold usize; apply Z.mod_small; lia). rewrite U.
        set (c := Z.to_nat (Z.min (a + b - a) (Z.of_nat (length tb) + 1))). pose proof (fill_loop_spec c tb a r ltac:(lia)) as K.
        replace (a + Z.of_nat c <=? Z.of_nat (length tb)) with false in K by lia. destruct K as [K|(t' & ->)]; [lia|]. cbn. now eexists.
      + assert (U : usize (a + b) = a + b) by (unfold usize; apply Z.mod_small; lia). rewrite U.
        set (c := Z.to_nat (Z.min (a + b - a) (Z.of_nat (length tb) + 1))). pose proof (fill_loop_spec c tb a r ltac:(lia)) as K.
        assert (Ec : Z.of_nat c = b) by lia. rewrite Ec in K. replace (a + b <=? Z.of_nat (length tb)) with true in K by lia.
        destruct K as (tb' & -> & L' & K). cbn [bind]. exists tb'. eexists. split; [auto|]. split; [exact K|]. split; [|reflexivity].
        apply upd_replaced. apply nth_error_Some. rewrite Et. discriminate.
  Qed.

  Lemma divergence_conforms o s args : inst_ok h s -> op_in h o = true -> exists_op o = true ->
    Forall2 has_type (sop_args o) args -> diverges o s args = true -> op_spec hf o s args (at_divergence o s args).
  Proof.
    intros HI OI EX HA DV. destruct o as [o|o|c|op off|op off| | | |k| |k|t i|t i|t| |t e|t e|t e]; args HA; try discriminate DV.
    - destruct c as [|x|w f x|w f x|f w x| | |w|w]; try discriminate DV. destruct w; [|discriminate DV]. destruct f; [|destruct x; discriminate DV].
      cbn [op_spec spec_cvt]. right. split; [|now eexists]. cbn [diverges] in DV.
      destruct x; apply Z.eqb_eq in DV; rewrite DV; vm_compute; right; (split; [|reflexivity]); intros [_ K]; discriminate.
    - cbn [op_in] in OI. bools. destruct (has_mem h s HI H) as (m & EM & (B & Lm & _)).
      cbn [op_spec diverges at_divergence] in *. rewrite EM in *. unfold wasm_load.
      destruct (load_spec_bytes op) as [E _]. destruct (load_spec op) as [[t n] x]. cbn in E. replace (mlen (m_data m) <? pattern a1 + off + n) with true by lia.
      now eexists.
    - cbn [op_in] in OI. bools. destruct (has_mem h s HI H) as (m & EM & (B & Lm & _)).
      cbn [op_spec diverges at_divergence] in *. rewrite EM in *. right. split; [|now eexists]. unfold wasm_store.
      destruct (store_spec_bytes op) as [E _]. destruct (store_spec op) as [t n]. cbn in E. replace (mlen (m_data m) <? pattern a1 + off + n) with true by lia.
      reflexivity.
    - cbn [op_in] in OI. destruct (has_mem h s HI OI) as (m & EM & _). cbn [op_spec at_divergence]. rewrite EM. destruct (wasm_grow _ _ _); eauto.
    - cbn [op_in] in OI. destruct (has_mem h s HI OI) as (m & EM & _). cbn [op_spec at_divergence diverges] in *. rewrite EM in *. right.
      split; [|now eexists]. unfold wasm_copy. now rewrite DV.
    - cbn [op_in] in OI. bools. destruct (has_mem h s HI H) as (m & EM & (B & _)). destruct (data_at h s k HI ltac:(now apply Nat.ltb_lt)) as (seg & Es & Bs & Ls).
      destruct (i32_arg _ A1) as (d & -> & Hd). destruct (i32_arg _ A2) as (sr & -> & Hs). destruct (i32_arg _ A3) as (n & -> & Hn).
      cbn [op_spec at_divergence diverges pattern] in *. rewrite EM, Es in *. unfold gives_mem, wasm_init.
      destruct (u32 d Hd) as [_ Rd], (u32 n Hn) as [_ Rn], (u32 sr Hs) as [_ Rs].
      destruct ((mlen seg <? unsigned 32 sr + unsigned 32 n) || (mlen (m_data m) <? unsigned 32 d + unsigned 32 n)) eqn:O; [right; split; [auto|now eexists]|].
      left. eexists. split; [|reflexivity]. eexists. split; [reflexivity|]. apply splice_replaced; auto; lia.
    - cbn [op_in] in OI. destruct (has_mem h s HI OI) as (m & EM & _). cbn [op_spec at_divergence diverges] in *. rewrite EM in *. right.
      split; [|now eexists]. unfold wasm_fill. now rewrite DV.
    - cbn [op_in] in OI. destruct (table_at h s t HI ltac:(now apply Nat.ltb_lt)) as (tb & Et & Lt).
      cbn [op_spec diverges at_divergence] in *. rewrite Et in *. apply andb_prop in DV as [D1 D2]. 
      destruct (ref_arg e _ (ltac:(destruct e; cbn in EX |- *; congruence)) A2) as (r & ->).
      rewrite D1. now eexists.
  Qed.
End Ops.

Lemma table_func_spec h s t i : inst_ok h s -> (t < sh_tables h)%nat -> in_s 32 i -> func_spec (i_tables s) t i (table_func (i_tables s) t i).
Proof.
  intros HI Ht Hi. destruct (table_at h s t HI Ht) as (tb & Et & _). unfold func_spec, table_func. rewrite Et, u32_nat by auto.
  destruct (nth_error tb _) as [[]|]; eauto.
Qed.
Lemma wasm_prims_conforming hf : hostfp_ok hf -> wasm_conforming hf (wasm_prims hf).
Proof.
  intros HF. constructor; try reflexivity.
  - intros h o s args HI OI EX HA. cbn [wasm_prims p_op]. destruct (diverges o s args) eqn:D; [eapply divergence_conforms|eapply sop_conforms]; eauto.
  - intros h s t i HI Ht Hi. cbn [wasm_prims p_func]. eapply table_func_spec; eauto.
Qed.

(** ** the standard's operators keep instances well-formed and produce values of their type *)
Lemma bytes_ok_at m : (forall k, 0 <= k < mlen m -> is_byte (byte_at m k)) -> bytes_ok m.
Proof.
  intros H. unfold bytes_ok. apply Forall_forall. intros x Hx. destruct (In_nth m x 0 Hx) as (n & Hn & <-).
  specialize (H (Z.of_nat n)). unfold byte_at, mlen in H. rewrite Nat2Z.id in H. apply H. lia.
Qed.
Lemma is_byte_mod z : is_byte (z mod 256).
Proof. unfold is_byte. apply Z.mod_pos_bound. lia. Qed.
Lemma replaced_bytes m m' d n f : bytes_ok m -> (forall k, 0 <= k < n -> is_byte (f k)) -> replaced m m' d n f ->
  bytes_ok m' /\ length m' = length m.
Proof.
  intros B Bf [L K]. split; auto. apply bytes_ok_at. intros k Hk. assert (Hk' : 0 <= k < mlen m) by (unfold mlen in *; lia). rewrite (K k Hk').
  destruct (_ && _) eqn:E; [apply Bf; lia|now apply byte_at_ok].
Qed.
Lemma stored_bytes m m' a n c : bytes_ok m -> stored m m' a n c -> bytes_ok m' /\ length m' = length m.
Proof.
  intros B [L K]. split; auto. apply bytes_ok_at. intros k Hk. assert (Hk' : 0 <= k < mlen m) by (unfold mlen in *; lia). rewrite (K k Hk').
  destruct (_ && _) eqn:E; [apply is_byte_mod|now apply byte_at_ok].
Qed.
Lemma inst_with_mem h s m d : inst_ok h s -> i_mem s = Some m -> mem_ok m -> bytes_ok d -> length d = length (m_data m) ->
  inst_ok h (with_mem s (with_data m d)).
Proof.
  intros HI EM MO B L. pose proof (io_mem h s HI) as K. destruct HI. constructor; auto. destruct (sh_mem h).
  - eexists. split; [reflexivity|]. destruct MO as (M1 & M2 & M3 & M4). unfold mem_ok, mlen in *. cbn. rewrite L. auto.
  - congruence.
Qed.
Lemma load_type op : val_cls (load_conv op 0) = class_of (vt_of_cls (load_cls op)).
Proof. destruct op; reflexivity. Qed.
Lemma wasm_load_type op m i off v : bytes_ok m -> 0 <= i -> 0 <= off -> wasm_load op m i off = Some v -> has_type (vt_of_cls (load_cls op)) v.
Proof.
  intros B Hi Ho. unfold wasm_load. destruct (load_spec_bytes op) as [E1 E2].
  destruct (load_spec op) as [[t n] x] eqn:LS. destruct (mlen m <? i + off + n) eqn:O; [discriminate|]. intros H. injection H as <-.
  cbn in E1. set (c := le_sum (Z.to_nat n) m (i + off)). 
  assert (Rc : 0 <= c < 2 ^ (8 * load_bytes op)).
  { unfold c. rewrite le_sum_decode by lia. pose proof (le_decode_range (firstn (Z.to_nat n) (skipn (Z.to_nat (i+off)) m)) (sub_bytes m _ _ B)) as R.
    unfold mlen in R. rewrite sub_length in R by (unfold mlen in *; lia). rewrite E1, <- pow256 by lia. rewrite Z2Nat.id in R by lia. exact R. }
  pose proof (load_conv_ok op c Rc) as [K1 K2]. rewrite LS in K1.
  match goal with |- has_type _ ?v => assert (E : v = load_conv op c) by (symmetry; exact K1); rewrite E end.
  split; [|exact K2]. destruct op; reflexivity.
Qed.
Lemma has_int w z : in_s (wz w) z -> has_type (ity w) (ival w z).
Proof. destruct w; split; cbn; auto. Qed.
Lemma has_flt f b : in_u (fw (ff f)) b -> has_type (fvt f) (fval f b).
Proof. destruct f; split; cbn; auto. Qed.
Lemma has_i32 z : in_s 32 z -> has_type TI32 (VI32 z). Proof. apply (has_int W32). Qed.
Lemma nth_error_ext {A} (l l' : list A) : (forall n, nth_error l n = nth_error l' n) -> l = l'.
Proof.
  revert l'. induction l as [|x l IH]; intros [|y l'] H; auto; try (specialize (H 0%nat); discriminate).
  pose proof (H 0%nat) as H0. cbn in H0. injection H0 as ->. f_equal. apply IH. intros n. exact (H (S n)).
Qed.
Lemma f2_replaced h (l l' : list val) i v : Forall2 has_type h l -> replaced_at l l' i v ->
  (forall t, nth_error h i = Some t -> has_type t v) -> Forall2 has_type h l'.
Proof.
  revert l l' i. induction h as [|t h IH]; intros l l' i F (L & N & O) T.
  - inversion F; subst. destruct l'; [constructor|discriminate].
  - inversion F as [|? a ? l1 F1 F2]; subst. destruct l' as [|a' l1']; [discriminate|]. destruct i as [|i].
    + cbn in N. injection N as ->. constructor; [now apply T|].
      assert (l1' = l1); [|now subst]. apply nth_error_ext. intros n. exact (O (S n) ltac:(lia)).
    + pose proof (O 0%nat ltac:(lia)) as O0. cbn in O0. injection O0 as ->. constructor; auto. apply (IH l1 l1' i); auto.
      repeat split; auto. intros j Hj. exact (O (S j) ltac:(lia)).
Qed.
Lemma forall_replaced {A} (P : A -> Prop) l l' i x : Forall P l -> replaced_at l l' i x -> P x -> Forall P l'.
Proof.
  intros F (L & N & O) Px. apply Forall_forall. intros y Hy. apply In_nth_error in Hy as (n & Hn). destruct (Nat.eq_dec n i) as [->|Hne].
  - congruence.
  - rewrite O in Hn by auto. rewrite Forall_forall in F. apply F. eapply nth_error_In; eauto.
Qed.

Definition result_ok (h : shape) (o : sop) (s' : inst) (v : option val) : Prop :=
  inst_ok h s' /\ match sop_res o, v with Some t, Some v => has_type t v | None, None => True | _, _ => False end.
Lemma int_result h s o w u s' v : sop_res o = Some (ity w) -> inst_ok h s -> gives_int s w u (Ok (s', v)) -> result_ok h o s' v.
Proof. intros E HI (z & K & I1 & _). injection K as -> ->. split; auto. rewrite E. now apply has_int. Qed.
Lemma flt_result h s o f ok s' v : sop_res o = Some (fvt f) -> inst_ok h s -> gives_flt s f ok (Ok (s', v)) -> result_ok h o s' v.
Proof. intros E HI (z & K & I1 & _). injection K as -> ->. split; auto. rewrite E. now apply has_flt. Qed.
Lemma mem_result h s o m (spec : option (list Z) -> Prop) s' v : sop_res o = None -> inst_ok h s -> i_mem s = Some m -> mem_ok m ->
  (forall d, spec (Some d) -> bytes_ok d /\ length d = length (m_data m)) -> gives_mem s m spec (Ok (s', v)) -> result_ok h o s' v.
Proof.
  intros E HI EM MO K [(d & S1 & S2)|(_ & t & S2)]; [|discriminate]. injection S2 as -> ->. destruct (K d S1) as [B L].
  split; [eapply inst_with_mem; eauto|]. now rewrite E.
Qed.

Lemma op_spec_ok hf h o s args s' v : inst_ok h s -> op_in h o = true -> exists_op o = true -> Forall2 has_type (sop_args o) args ->
  op_spec hf o s args (Ok (s', v)) -> result_ok h o s' v.
Proof.
  intros HI OI EX HA SP. destruct o as [o|o|c|op off|op off| | | |k| |k|t i|t i|t| |t e|t e|t e]; args HA; cbn [op_spec] in SP.
  - destruct o as [w o|w|f o]; cbn [spec1] in SP; [eapply int_result; eauto; reflexivity|apply (int_result h s (SNum1 (U_eqz w)) W32 _ s' v eq_refl HI SP)|].
    destruct o; eapply flt_result; eauto; reflexivity.
  - destruct o as [w o|w o|f o|f o]; cbn [spec2] in SP.
    + destruct (wasm_ibinop _ _ _ _); [eapply int_result; eauto; reflexivity|destruct SP; discriminate].
    + apply (int_result h s (SNum2 (B_irel w o)) W32 _ s' v eq_refl HI SP).
    + destruct o; eapply flt_result; eauto; reflexivity.
    + destruct SP as [[SP _]|[SP _]]; apply (int_result h s (SNum2 (B_frel f o)) W32 _ s' v eq_refl HI SP).
  - destruct c as [|x|w f x|w f x|f w x| | |w|w]; cbn [spec_cvt] in SP.
    + apply (int_result h s (SCvt C_wrap) W32 _ s' v eq_refl HI SP).
    + destruct x; [apply (int_result h s (SCvt (C_ext Sx)) W64 _ s' v eq_refl HI SP)|apply (int_result h s (SCvt (C_ext Ux)) W64 _ s' v eq_refl HI SP)].
    + destruct SP as [(z & _ & SP)|(_ & t & SP)]; [eapply int_result; eauto; reflexivity|discriminate].
    + eapply int_result; eauto; reflexivity.
    + eapply flt_result; eauto; reflexivity.
    + apply (flt_result h s (SCvt C_demote) FT32 _ s' v eq_refl HI SP).
    + apply (flt_result h s (SCvt C_promote) FT64 _ s' v eq_refl HI SP).
    + eapply int_result; eauto; reflexivity.
    + eapply flt_result; eauto; reflexivity.
  - cbn [op_in] in OI. bools. destruct (has_mem h s HI H) as (m & EM & (B & Lm & _)). rewrite EM in SP.
    destruct (i32_arg _ A1) as (p & -> & Hp). cbn [pattern] in SP. destruct (u32 p Hp) as [_ Rp].
    destruct (wasm_load op (m_data m) (unsigned 32 p) off) eqn:W; [|destruct SP; discriminate]. injection SP as -> ->. split; auto.
    cbn [sop_res]. eapply wasm_load_type; [exact B|exact (proj1 Rp)| |exact W]. lia.
  - cbn [op_in] in OI. bools. destruct (has_mem h s HI H) as (m & EM & MO). rewrite EM in SP. eapply (mem_result h s (SStore op off) m); eauto.
    intros d. unfold wasm_store. destruct (store_spec op) as [ty n]. cbv zeta. destruct (mlen (m_data m) <? _); [discriminate|]. intros (m' & E & K). injection E as <-. eapply stored_bytes; eauto. apply MO.
  - cbn [op_in] in OI. destruct (has_mem h s HI OI) as (m & EM & MO). rewrite EM in SP. apply (int_result h s SMemSize W32 _ s' v eq_refl HI SP).
  - cbn [op_in] in OI. destruct (has_mem h s HI OI) as (m & EM & MO). rewrite EM in SP. destruct MO as (B & Lm & Lp & Mx).
    assert (R : 0 <= pages (m_data m) <= 65536).
    { unfold pages, mlen, page in *. split; [apply Z.div_pos; lia|]. apply Z.div_le_upper_bound; lia. }
    unfold wasm_grow in SP. destruct (i32_arg _ A1) as (n & -> & Hn). cbn [pattern] in SP. destruct (u32 n Hn) as [_ Rn].
    destruct ((65536 <? pages (m_data m) + unsigned 32 n) || _) eqn:G.
    + injection SP as -> ->. split; auto. cbn [sop_res]. apply has_i32. unfold in_s; lia.
    + destruct SP as (g & SP). injection SP as -> ->. split; [|cbn [sop_res]; apply has_i32; unfold in_s; lia].
      destruct HI. constructor; auto. rewrite OI in *. eexists. split; [reflexivity|]. unfold mem_ok. cbn [m_data m_max].
      assert (ML : mlen (m_data m ++ repeat 0 (Z.to_nat (unsigned 32 n * page))) = (pages (m_data m) + unsigned 32 n) * page).
      { unfold mlen. rewrite app_length, repeat_length. unfold pages, mlen in *.
        pose proof (Z.div_mod (Z.of_nat (length (m_data m))) page ltac:(unfold page; lia)) as DM. unfold page in *. lia. }
      repeat split; auto.
      * unfold bytes_ok in *. apply Forall_app. split; auto. apply repeat_bytes. unfold is_byte; lia.
      * rewrite ML. unfold page. lia.
      * rewrite ML. apply Z.mod_mul. unfold page; lia.
  - cbn [op_in] in OI. destruct (has_mem h s HI OI) as (m & EM & MO). rewrite EM in SP. eapply (mem_result h s SMemCopy m); eauto.
    intros d. unfold wasm_copy. destruct (_ || _); [discriminate|]. intros (m' & E & K). injection E as <-. eapply replaced_bytes; eauto; [apply MO|].
    intros j Hj. apply byte_at_ok. apply MO.
  - cbn [op_in] in OI. bools. destruct (has_mem h s HI H) as (m & EM & MO). rewrite EM in SP. destruct (data_at h s k HI ltac:(now apply Nat.ltb_lt)) as (seg & Es & Bs & Ls).
    rewrite Es in SP. eapply (mem_result h s (SMemInit k) m); eauto.
    intros d. unfold wasm_init. destruct (_ || _); [discriminate|]. intros (m' & E & K). injection E as <-. eapply replaced_bytes; eauto; [apply MO|].
    intros j Hj. apply byte_at_ok. apply Bs.
  - cbn [op_in] in OI. destruct (has_mem h s HI OI) as (m & EM & MO). rewrite EM in SP. eapply (mem_result h s SMemFill m); eauto.
    intros d. unfold wasm_fill. destruct (_ <? _); [discriminate|]. intros (m' & E & K). injection E as <-. eapply replaced_bytes; eauto; [apply MO|].
    intros j Hj. apply is_byte_mod.
  - destruct SP as (ds & RP & SP). injection SP as -> ->. split; [|exact I]. pose proof (io_bytes h s HI) as IB. pose proof (io_datas h s HI) as ID.
    destruct HI. constructor; auto. cbn [with_datas i_datas].
    + destruct RP. congruence.
    + eapply forall_replaced; eauto. split; [constructor|cbn; lia].
  - destruct SP as (x & Ex & SP). injection SP as -> ->. split; auto. cbn [sop_res op_in] in *.
    destruct (nth_error (sh_globals h) i) as [t'|] eqn:G; [|discriminate]. apply vt_eqb_eq in OI. subst t'.
    destruct (global_at h s i t HI G) as (w & Ew & T). congruence.
  - destruct SP as (gs & RP & SP). injection SP as -> ->. split; [|exact I]. pose proof (io_globals h s HI) as IG. destruct HI. constructor; auto. cbn [with_globals i_globals].
    eapply f2_replaced; eauto. intros t' Ht. cbn [op_in] in OI. rewrite Ht in OI. apply vt_eqb_eq in OI. now subst.
  - injection SP as -> ->. split; auto. cbn [sop_res]. split; [cbn in EX |- *; destruct t; cbn in *; congruence|exact I].
  - destruct (ref_arg TFuncRef _ eq_refl A1) as (r & ->). destruct r; injection SP as -> ->; split; auto; cbn [sop_res]; apply has_i32; unfold in_s; lia.
  - destruct (nth_error (i_tables s) t) as [tb|]; [|tauto]. destruct (nth_error tb _); [|destruct SP; discriminate]. injection SP as -> ->. split; auto.
    cbn [sop_res]. split; [cbn in EX |- *; destruct e; cbn in *; congruence|exact I].
  - destruct (ref_arg e _ (ltac:(destruct e; cbn in EX |- *; congruence)) A2) as (r & ->).
    destruct (nth_error (i_tables s) t) as [tb|] eqn:Et; [|tauto]. destruct (_ <=? _); [destruct SP; discriminate|].
    destruct SP as (tb' & ts & R1 & R2 & SP). injection SP as -> ->. split; [|exact I]. pose proof (io_small h s HI) as IS. pose proof (io_tables h s HI) as IT.
    destruct HI. constructor; auto; cbn [with_tables i_tables].
    + destruct R2. congruence.
    + eapply forall_replaced; eauto. cbn. destruct R1 as [-> _]. rewrite Forall_forall in IS. apply (IS tb). eapply nth_error_In; eauto.
  - destruct (ref_arg e _ (ltac:(destruct e; cbn in EX |- *; congruence)) A2) as (r & ->).
    destruct (nth_error (i_tables s) t) as [tb|] eqn:Et; [|tauto]. destruct (_ <? _); [destruct SP; discriminate|].
    destruct SP as (tb' & ts & L & _ & R2 & SP). injection SP as -> ->. split; [|exact I]. pose proof (io_small h s HI) as IS. pose proof (io_tables h s HI) as IT.
    destruct HI. constructor; auto; cbn [with_tables i_tables].
    + destruct R2. congruence.
    + eapply forall_replaced; eauto. cbn. rewrite L. rewrite Forall_forall in IS. apply (IS tb). eapply nth_error_In; eauto.
Qed.
