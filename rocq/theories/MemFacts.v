(** Final lemmas for the memory/store properties. *)
From Coq Require Import ZArith List Bool Lia ZifyBool ZifyNat.
From Verif Require Import Word Value WasmNum NumericProofs Mem WasmMem MemProofs Store StoreSpec StoreProofs.
Import ListNotations.
Open Scope Z_scope.

Lemma store_then_load sop lop m p off v :
  bytes_ok m -> mlen m <= 2^32 -> in_s 32 p -> 0 <= off -> val_ok v -> val_cls v = store_cls sop ->
  load_cls lop = store_cls sop -> load_bytes lop = store_bytes_n sop ->
  unsigned 32 p + off + store_bytes_n sop <= mlen m ->
  exists m', mem_store sop m p off v = Ok m' /\
    mem_load lop m' p off =
    Ok (let '(t, n, x) := load_spec lop in
        let c := pattern v mod 256 ^ n in
        of_pattern t (match x with XSigned => wasm_extend_s (8 * n) (bitsize t) c | _ => c end)).
Proof.
  intros Hb Hm Hp Ho Hv Hc Hl Hn H.
  destruct (mem_store_ok sop m p off v Hb Hm Hp Ho Hv Hc H) as (m' & E & HS & Hb' & HL). exists m'. split; auto.
  destruct (mem_load_ok lop m' p off) as (w & E2 & HW & _); auto.
  - unfold mlen in *. lia.
  - unfold mlen in *. lia.
  - rewrite E2. f_equal. pose proof (unsigned_range 32 p ltac:(lia) Hp) as [H1 H2].
    rewrite (store_load lop sop m m' _ off v) in HW; auto. congruence.
Qed.
Lemma store_then_load_same sop lop m p off v :
  In (sop, lop) [(SI32, LI32); (SI64, LI64); (SF32, LF32); (SF64, LF64)] ->
  bytes_ok m -> mlen m <= 2^32 -> in_s 32 p -> 0 <= off -> val_ok v -> val_cls v = store_cls sop ->
  unsigned 32 p + off + store_bytes_n sop <= mlen m ->
  exists m', mem_store sop m p off v = Ok m' /\ mem_load lop m' p off = Ok v.
Proof.
  intros Hin Hb Hm Hp Ho Hv Hc H.
  assert (load_bytes lop = store_bytes_n sop).
  { simpl in Hin. repeat (destruct Hin as [Hin|Hin]; [injection Hin as <- <-; reflexivity|]). contradiction. }
  destruct (mem_store_ok sop m p off v Hb Hm Hp Ho Hv Hc H) as (m' & E & HS & Hb' & HL). exists m'. split; auto.
  destruct (mem_load_ok lop m' p off) as (w & E2 & HW & _); auto; try (unfold mlen in *; lia).
  rewrite E2. f_equal. pose proof (unsigned_range 32 p ltac:(lia) Hp) as [H1 H2].
  rewrite (store_load_same lop sop m m' _ off v) in HW; auto. congruence.
Qed.

Lemma grow_negative_refuted : exists m delta,
  in_s 32 delta /\ wasm_grow (m_data m) (m_max m) (unsigned 32 delta) = None /\
  ~ exists m' r, mem_grow m delta = Ok (m', r).
Proof.
  exists {| m_data := []; m_max := None; m_gen := 0 |}, (-1). repeat split; try (vm_compute; congruence).
  intros (m' & r & H). discriminate H.
Qed.
Lemma grow_truncates_refuted : exists m delta m' r,
  0 <= delta < 2^31 /\ mlen (m_data m) = page /\ m_max m = None /\
  wasm_grow (m_data m) (m_max m) delta = None /\
  mem_grow m delta = Ok (m', r) /\ r = 1 /\ m_data m' = [].
Proof.
  set (d := repeat 0 (Z.to_nat page)).
  assert (L : mlen d = page) by (unfold mlen, d; rewrite repeat_length; unfold page; lia).
  set (m := {| m_data := d; m_max := None; m_gen := 0 |}).
  assert (P : pages (m_data m) = 1) by (unfold pages; change (m_data m) with d; rewrite L; reflexivity).
  destruct (mem_grow_truncates m (2^31 - 1)) as (m' & E & D).
  - change (m_data m) with d. rewrite L. unfold page, isize_max. lia.
  - reflexivity.
  - lia.
  - right. rewrite P. reflexivity.
  - exists m, (2^31-1), m', 1. rewrite P in E.     split; [lia|]. split; [exact L|]. split; [reflexivity|]. split.
    { unfold wasm_grow. rewrite P. reflexivity. }
    auto.
Qed.
Lemma grow_panics_refuted : exists m delta,
  0 <= delta < 2^31 /\ mlen (m_data m) = page /\ m_max m = None /\
  (exists d', wasm_grow (m_data m) (m_max m) delta = Some d') /\ mem_grow m delta = Trap THost.
Proof.
  set (d := repeat 0 (Z.to_nat page)).
  assert (L : mlen d = page) by (unfold mlen, d; rewrite repeat_length; unfold page; lia).
  set (m := {| m_data := d; m_max := None; m_gen := 0 |}).
  assert (P : pages (m_data m) = 1) by (unfold pages; change (m_data m) with d; rewrite L; reflexivity).
  exists m, (2^15 - 1). split; [lia|]. split; [exact L|]. split; [reflexivity|]. split.
  - unfold wasm_grow. rewrite P. eexists. reflexivity.
  - apply mem_grow_big; auto; try lia.
    + change (m_data m) with d. rewrite L. unfold page, isize_max. lia.
Qed.
(** whatever happens, memory.size reports the number of whole pages *)
Lemma size_ok m : mlen (m_data m) <= 2^32 -> mem_size m = pages (m_data m).
Proof.
  intros H. unfold mem_size. fold (pages (m_data m)). apply cast_s_id; [lia|].
  assert (0 <= pages (m_data m)) by (unfold pages, mlen; apply Z.div_pos; unfold page; lia).
  assert (pages (m_data m) < 2^17). { unfold pages. apply Z.div_lt_upper_bound; unfold page; lia. }
  unfold in_s; lia.
Qed.
Lemma fill_zero_refuted : exists ts : list table,
  wasm_table_traps ts (TFill 0 5 RNull 0) /\ t_step ts (TFill 0 5 RNull 0) = Ok ts.
Proof. exists [[RNull; RNull]]. split; vm_compute; reflexivity. Qed.
Lemma fill_wrap_refuted : exists ts : list table,
  wasm_table_traps ts (TFill 0 1 RNull (-1)) /\ t_step ts (TFill 0 1 RNull (-1)) = Ok ts.
Proof. exists [[RNull; RFunc 3]]. split; vm_compute; reflexivity. Qed.
