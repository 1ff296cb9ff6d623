(** Property theorems C10-C16. *)
From Coq Require Import ZArith List Bool Lia.
From Verif Require Import Word Value WasmNum Mem WasmMem Store StoreSpec MemFacts MemProofs StoreProofs NumericProofs.
Import ListNotations.
Open Scope Z_scope.

(** ** C10 *)
Theorem C10_load : forall op m p off,
  bytes_ok m -> mlen m <= 2^32 -> in_s 32 p -> 0 <= off ->
  unsigned 32 p + off + load_bytes op <= mlen m ->
  exists v, mem_load op m p off = Ok v /\ wasm_load op m (unsigned 32 p) off = Some v
            /\ val_cls v = load_cls op /\ val_ok v.
Proof. exact mem_load_ok. Qed.
Print Assumptions C10_load.
Theorem C10_store : forall op m p off v,
  bytes_ok m -> mlen m <= 2^32 -> in_s 32 p -> 0 <= off -> val_ok v -> val_cls v = store_cls op ->
  unsigned 32 p + off + store_bytes_n op <= mlen m ->
  exists m', mem_store op m p off v = Ok m' /\ wasm_store op m (unsigned 32 p) off v (Some m')
             /\ bytes_ok m' /\ length m' = length m.
Proof. exact mem_store_ok. Qed.
Print Assumptions C10_store.
Theorem C10_store_then_load : forall sop lop m p off v,
  In (sop, lop) [(SI32, LI32); (SI64, LI64); (SF32, LF32); (SF64, LF64)] ->
  bytes_ok m -> mlen m <= 2^32 -> in_s 32 p -> 0 <= off -> val_ok v -> val_cls v = store_cls sop ->
  unsigned 32 p + off + store_bytes_n sop <= mlen m ->
  exists m', mem_store sop m p off v = Ok m' /\ mem_load lop m' p off = Ok v.
Proof. exact store_then_load_same. Qed.
Print Assumptions C10_store_then_load.
(** narrow accesses: the value comes back truncated and extended *)
Theorem C10_narrow_store_then_load : forall sop lop m p off v,
  bytes_ok m -> mlen m <= 2^32 -> in_s 32 p -> 0 <= off -> val_ok v -> val_cls v = store_cls sop ->
  load_cls lop = store_cls sop -> load_bytes lop = store_bytes_n sop ->
  unsigned 32 p + off + store_bytes_n sop <= mlen m ->
  exists m', mem_store sop m p off v = Ok m' /\
    mem_load lop m' p off =
    Ok (let '(t, n, x) := load_spec lop in
        let c := pattern v mod 256 ^ n in
        of_pattern t (match x with XSigned => wasm_extend_s (8 * n) (bitsize t) c | _ => c end)).
Proof. exact store_then_load. Qed.
Print Assumptions C10_narrow_store_then_load.
Example C10_ex : mem_store SI32_16 [1;2;3;4;5] 1 1 (VI32 (-2)) = Ok [1;2;254;255;5]
  /\ mem_load LI32_16s [1;2;254;255;5] 1 1 = Ok (VI32 (-2))
  /\ mem_load LI64_16u [1;2;254;255;5] 2 0 = Ok (VI64 65534)
  /\ unsigned 32 1 + 1 + store_bytes_n SI32_16 <= mlen [1;2;3;4;5].
Proof. repeat split; vm_compute; congruence. Qed.

(** ** C11 is false of the code: effective addresses wrap and nothing is bounds-checked. *)
Theorem C11_load_wraps_refuted : exists m p off v,
  bytes_ok m /\ in_s 32 p /\ 0 <= off < 2^32 /\
  mlen m < unsigned 32 p + off + 1 /\ wasm_load LI32_8u m (unsigned 32 p) off = None /\
  mem_load LI32_8u m p off = Ok v.
Proof. exact load_wraps. Qed.
Print Assumptions C11_load_wraps_refuted.
Theorem C11_store_wraps_refuted : exists m p off m',
  bytes_ok m /\ in_s 32 p /\ 0 <= off < 2^32 /\
  wasm_store SI32_8 m (unsigned 32 p) off (VI32 9) None /\
  mem_store SI32_8 m p off (VI32 9) = Ok m' /\ m' <> m.
Proof. exact store_wraps. Qed.
Print Assumptions C11_store_wraps_refuted.
(** without wrap-around, every out-of-bounds load is an unchecked access (never a trap) *)
Theorem C11_unchecked_refuted : forall op m p off,
  in_s 32 p -> 0 <= off < 2^32 -> mlen m < unsigned 32 p + off + load_bytes op ->
  unsigned 32 p + off < 2^32 -> mem_load op m p off = UB.
Proof. exact mem_load_oob. Qed.
Print Assumptions C11_unchecked_refuted.
(** What holds: the code performs the standard's access at the address taken modulo 2^32, and nothing is
    checked: where that access would be out of bounds the behaviour is undefined.  No access traps. *)
Lemma eff_addr_wrap p off : in_s 32 p -> 0 <= off < 2^32 ->
  exists q, in_s 32 q /\ unsigned 32 q = (unsigned 32 p + off) mod 2^32 /\ eff_addr p off = eff_addr q 0 /\ eff_addr q 0 = unsigned 32 q.
Proof.
  intros Hp Ho. set (a := (unsigned 32 p + off) mod 2^32). assert (A : 0 <= a < 2^32) by (apply Z.mod_pos_bound; lia).
  pose proof (unsigned_range 32 p ltac:(lia) Hp) as HU.
  exists (cast_s 32 a). assert (I : in_s 32 (cast_s 32 a)) by (apply cast_s_range; lia).
  assert (U : unsigned 32 (cast_s 32 a) = a).
  { rewrite unsigned_mod by (auto; lia). rewrite cast_s_mod by lia. apply Z.mod_small. lia. }
  split; auto. split; auto. unfold eff_addr, usize, cast_u.
  rewrite <- (unsigned_mod 32 p), <- (unsigned_mod 32 (cast_s 32 a)), U, Z.mod_0_l, Z.add_0_r by (auto; lia).
  rewrite (Z.mod_small off) by lia. rewrite (Z.mod_small a) by lia. auto.
Qed.
Theorem C11_load_partial : forall op m p off,
  bytes_ok m -> mlen m <= 2^32 -> in_s 32 p -> 0 <= off < 2^32 ->
  mem_load op m p off = match wasm_load op m ((unsigned 32 p + off) mod 2^32) 0 with Some v => Ok v | None => UB end.
Proof.
  intros op m p off Hb Hm Hp Ho. destruct (eff_addr_wrap p off Hp Ho) as (q & Hq & <- & E & _).
  replace (mem_load op m p off) with (mem_load op m q 0) by (unfold mem_load; now rewrite E).
  pose proof (load_spec_bytes op) as [HS _].
  destruct (Z.leb_spec (unsigned 32 q + 0 + load_bytes op) (mlen m)) as [L|L].
  - destruct (mem_load_ok op m q 0 Hb Hm Hq ltac:(lia) L) as (v & -> & -> & _). reflexivity.
  - pose proof (unsigned_range 32 q ltac:(lia) Hq) as [HQ1 HQ2]. rewrite mem_load_oob by (auto; lia). unfold wasm_load. destruct (load_spec op) as [[t n] x]. cbn [fst snd] in HS. rewrite HS in *.
    replace (mlen m <? unsigned 32 q + 0 + n) with true by lia. reflexivity.
Qed.
Print Assumptions C11_load_partial.
Theorem C11_store_partial : forall op m p off v,
  bytes_ok m -> mlen m <= 2^32 -> in_s 32 p -> 0 <= off < 2^32 -> val_ok v -> val_cls v = store_cls op ->
  match mem_store op m p off v with
  | Ok m' => wasm_store op m ((unsigned 32 p + off) mod 2^32) 0 v (Some m')
  | UB => wasm_store op m ((unsigned 32 p + off) mod 2^32) 0 v None
  | Trap _ => False
  end.
Proof.
  intros op m p off v Hb Hm Hp Ho Hv Hc. destruct (eff_addr_wrap p off Hp Ho) as (q & Hq & <- & E & E').
  replace (mem_store op m p off v) with (mem_store op m q 0 v) by (unfold mem_store; now rewrite E).
  pose proof (store_spec_bytes op) as [HS HR].
  destruct (Z.leb_spec (unsigned 32 q + 0 + store_bytes_n op) (mlen m)) as [L|L].
  - destruct (mem_store_ok op m q 0 v Hb Hm Hq ltac:(lia) Hv Hc L) as (m' & -> & W & _). exact W.
  - unfold mem_store, raw_write. rewrite E'. unfold mlen at 1. rewrite le_encode_length, Z2Nat.id by lia. replace (_ && _) with false by lia.
    unfold wasm_store. destruct (store_spec op) as [t n]. cbn [snd] in HS. rewrite HS in *. replace (mlen m <? unsigned 32 q + 0 + n) with true by lia. reflexivity.
Qed.
Print Assumptions C11_store_partial.
Example C11_wrap_ex : mem_load LI32_8u [7; 8] (-1) 2 = Ok (VI32 8) /\ (unsigned 32 (-1) + 2) mod 2^32 = 1.
Proof. split; reflexivity. Qed.
Example C11_ex : mem_load LI32 [1;2;3] 0 0 = UB.
Proof. reflexivity. Qed.

(** ** C12: full agreement with the standard for every non-negative delta as long as the standard
    does not succeed with 2^15 pages or more and the page count does not pass 2^31; refuted outside. *)
Theorem C12_grow_partial : forall m delta,
  mlen (m_data m) <= isize_max -> mlen (m_data m) mod page = 0 ->
  (match m_max m with Some x => 0 <= x <= 65536 | None => True end) ->
  0 <= delta -> pages (m_data m) + delta < 2^31 ->
  (forall d', wasm_grow (m_data m) (m_max m) delta = Some d' -> pages (m_data m) + delta < 2^15) ->
  exists m' r, mem_grow m delta = Ok (m', r) /\ m_max m' = m_max m /\
    match wasm_grow (m_data m) (m_max m) delta with
    | Some d' => m_data m' = d' /\ r = pages (m_data m)
    | None => m' = m /\ r = -1
    end.
Proof. exact mem_grow_ok. Qed.
Print Assumptions C12_grow_partial.
(** The exact outcome for every 32-bit delta, the divergent ones included: a negative delta traps; a
    growth the standard refuses is refused, unless the page count passes 2^31, when the memory shrinks
    to the wrapped page count and the call reports success; a growth the standard allows happens below
    2^15 pages, panics from there on, and at exactly 65536 pages empties the memory. *)
Theorem C12_every_delta_partial : forall m delta,
  mlen (m_data m) <= isize_max -> mlen (m_data m) mod page = 0 ->
  (match m_max m with Some x => 0 <= x <= 65536 | None => True end) ->
  in_s 32 delta ->
  let q := pages (m_data m) + delta in
  (delta < 0 -> mem_grow m delta = Trap TParamCount) /\
  (0 <= delta -> q < 2^31 -> wasm_grow (m_data m) (m_max m) delta = None -> mem_grow m delta = Ok (m, -1)) /\
  (0 <= delta -> forall d', wasm_grow (m_data m) (m_max m) delta = Some d' ->
     (q < 2^15 -> exists m', mem_grow m delta = Ok (m', pages (m_data m)) /\ m_data m' = d' /\ m_max m' = m_max m) /\
     (2^15 <= q < 65536 -> mem_grow m delta = Trap THost) /\
     (q = 65536 -> exists m', mem_grow m delta = Ok (m', pages (m_data m)) /\ m_data m' = [] /\ m_max m' = m_max m)) /\
  (2^31 <= q -> wasm_grow (m_data m) (m_max m) delta = None /\
     exists m', mem_grow m delta = Ok (m', pages (m_data m)) /\ m_max m' = m_max m /\
       m_data m' = firstn (Z.to_nat ((q - 2^31) * page)) (m_data m) /\
       mlen (m_data m') = (q - 2^31) * page /\ mlen (m_data m') < mlen (m_data m)).
Proof. exact mem_grow_every. Qed.
Print Assumptions C12_every_delta_partial.
Theorem C12_size : forall m, mlen (m_data m) <= 2^32 -> mem_size m = pages (m_data m).
Proof. exact size_ok. Qed.
Print Assumptions C12_size.
Theorem C12_negative_delta_refuted : exists m delta,
  in_s 32 delta /\ wasm_grow (m_data m) (m_max m) (unsigned 32 delta) = None /\
  ~ exists m' r, mem_grow m delta = Ok (m', r).
Proof. exact grow_negative_refuted. Qed.
Print Assumptions C12_negative_delta_refuted.
Theorem C12_grow_truncates_refuted : exists m delta m' r,
  0 <= delta < 2^31 /\ mlen (m_data m) = page /\ m_max m = None /\
  wasm_grow (m_data m) (m_max m) delta = None /\
  mem_grow m delta = Ok (m', r) /\ r = 1 /\ m_data m' = [].
Proof. exact grow_truncates_refuted. Qed.
Print Assumptions C12_grow_truncates_refuted.
Theorem C12_grow_panics_refuted : exists m delta,
  0 <= delta < 2^31 /\ mlen (m_data m) = page /\ m_max m = None /\
  (exists d', wasm_grow (m_data m) (m_max m) delta = Some d') /\ mem_grow m delta = Trap THost.
Proof. exact grow_panics_refuted. Qed.
Print Assumptions C12_grow_panics_refuted.
Example C12_ex : let m := {| m_data := []; m_max := Some 3; m_gen := 0 |} in
  (exists m', mem_grow m 1 = Ok (m', 0)) /\ mem_grow m 4 = Ok (m, -1).
Proof. split; [eexists|]; reflexivity. Qed.

Example C12_every_delta_ex : let m := {| m_data := [] ; m_max := None; m_gen := 0 |} in
  mlen (m_data m) <= isize_max /\ mlen (m_data m) mod page = 0 /\
  wasm_grow (m_data m) (m_max m) 40000 <> None /\ 2^15 <= pages (m_data m) + 40000 < 65536 /\
  mem_grow m 40000 = Trap THost /\ mem_grow m 65537 = Ok (m, -1) /\ mem_grow m (-5) = Trap TParamCount.
Proof.
  cbv zeta. split; [discriminate|]. split; [reflexivity|]. split; [|split; [|repeat split; reflexivity]].
  - unfold wasm_grow. change ((65536 <? pages _ + 40000) || _) with false. cbv iota. discriminate.
  - change (pages _) with 0. lia.
Qed.

(** ** C13: in bounds, the three bulk operations are exact; init also traps exactly (n <> 0). *)
Theorem C13_copy_partial : forall m d s n, bytes_ok m -> in_s 32 d -> in_s 32 s -> in_s 32 n ->
  unsigned 32 s + unsigned 32 n <= mlen m -> unsigned 32 d + unsigned 32 n <= mlen m ->
  exists m', mem_copy m d s n = Ok m' /\ wasm_copy m (unsigned 32 d) (unsigned 32 s) (unsigned 32 n) (Some m')
             /\ bytes_ok m' /\ length m' = length m.
Proof. exact mem_copy_ok. Qed.
Print Assumptions C13_copy_partial.
Theorem C13_fill_partial : forall m d v n, bytes_ok m -> in_s 32 d -> in_s 32 v -> in_s 32 n ->
  unsigned 32 d + unsigned 32 n <= mlen m ->
  exists m', mem_fill m d v n = Ok m' /\ wasm_fill m (unsigned 32 d) (unsigned 32 v) (unsigned 32 n) (Some m')
             /\ bytes_ok m' /\ length m' = length m.
Proof. exact mem_fill_ok. Qed.
Print Assumptions C13_fill_partial.
Theorem C13_init_nonempty : forall m datas k data d s n,
  bytes_ok m -> bytes_ok data -> mlen m < 2^32 -> mlen data < 2^32 -> nth_error datas k = Some data ->
  in_s 32 d -> in_s 32 s -> in_s 32 n -> n <> 0 ->
  (exists m', mem_init m datas k d s n = Ok m' /\ wasm_init m data (unsigned 32 d) (unsigned 32 s) (unsigned 32 n) (Some m')
             /\ bytes_ok m' /\ length m' = length m) \/
  (exists t, mem_init m datas k d s n = Trap t /\ wasm_init m data (unsigned 32 d) (unsigned 32 s) (unsigned 32 n) None).
Proof. exact mem_init_ok. Qed.
Print Assumptions C13_init_nonempty.
Theorem C13_zero_length_init_refuted : exists m data d,
  bytes_ok m /\ in_s 32 d /\ wasm_init m data (unsigned 32 d) 0 0 None /\ mem_init m [data] 0 d 0 0 = Ok m.
Proof. exact init_zero_len_refuted. Qed.
Print Assumptions C13_zero_length_init_refuted.
Theorem C13_copy_out_of_bounds_refuted : exists m d s n,
  bytes_ok m /\ in_s 32 d /\ in_s 32 s /\ in_s 32 n /\
  wasm_copy m (unsigned 32 d) (unsigned 32 s) (unsigned 32 n) None /\ mem_copy m d s n = UB.
Proof. exact copy_oob_refuted. Qed.
Print Assumptions C13_copy_out_of_bounds_refuted.
Theorem C13_fill_out_of_bounds_refuted : exists m d n,
  bytes_ok m /\ in_s 32 d /\ in_s 32 n /\
  wasm_fill m (unsigned 32 d) 0 (unsigned 32 n) None /\ mem_fill m d 0 n = UB.
Proof. exact fill_oob_refuted. Qed.
Print Assumptions C13_fill_out_of_bounds_refuted.
(** What happens outside the part above: no bytes, nothing happens wherever the ranges lie; some bytes
    and a range outside the memory, copy and fill access the host's memory. *)
Theorem C13_no_bytes_partial : forall m d s v datas k data, nth_error datas k = Some data ->
  mem_copy m d s 0 = Ok m /\ mem_fill m d v 0 = Ok m /\ mem_init m datas k d s 0 = Ok m.
Proof. exact bulk_zero. Qed.
Print Assumptions C13_no_bytes_partial.
Theorem C13_outside_partial : forall m d s v n, in_s 32 d -> in_s 32 s -> in_s 32 n -> n <> 0 ->
  (mlen m < unsigned 32 s + unsigned 32 n \/ mlen m < unsigned 32 d + unsigned 32 n -> mem_copy m d s n = UB) /\
  (mlen m < unsigned 32 d + unsigned 32 n -> mem_fill m d v n = UB).
Proof. intros m d s v n Hd Hs Hn N. split; [exact (copy_outside m d s n Hd Hs Hn N)|exact (fill_outside m d v n Hd Hn N)]. Qed.
Print Assumptions C13_outside_partial.
Example C13_outside_ex : mem_copy [1;2;3] 1 0 3 = UB /\ mem_copy [1;2;3] 0 2 2 = UB /\ mem_fill [1;2;3] (-1) 0 1 = UB
  /\ mem_copy [1;2;3] 9 9 0 = Ok [1;2;3].
Proof. repeat split; vm_compute; reflexivity. Qed.
Example C13_ex : mem_copy [1;2;3;4;5] 1 0 3 = Ok [1;1;2;3;5] /\ mem_copy [1;2;3;4;5] 0 1 3 = Ok [2;3;4;4;5]
  /\ mem_fill [1;2;3] 1 511 2 = Ok [1;255;255] /\ mem_init [0;0;0] [[7;8;9]] 0 1 1 2 = Ok [0;8;9]
  /\ mem_init [0;0;0] [[7;8;9]] 0 1 1 3 = Trap THost.
Proof. repeat split; vm_compute; reflexivity. Qed.

(** ** C14: any history with a drop of segment k in it, then an init of k *)
Theorem C14_dropped_forever : forall m0 ds0 h1 k h2 m ds d s n,
  (k < length ds0)%nat -> d_run (m0, ds0) (h1 ++ DDrop k :: h2) = Ok (m, ds) ->
  in_s 32 s -> in_s 32 n -> n <> 0 -> exists t, mem_init m ds k d s n = Trap t.
Proof. exact drop_history. Qed.
Print Assumptions C14_dropped_forever.
Theorem C14_drop_frame : forall ds k, data_drop (data_drop ds k) k = data_drop ds k /\
  length (data_drop ds k) = length ds /\ forall j, j <> k -> nth_error (data_drop ds k) j = nth_error ds j.
Proof. exact drop_other. Qed.
Print Assumptions C14_drop_frame.
Example C14_ex : exists st, d_run ([0;0], [[1;2];[3]]) [DInit 0 0 0 2; DDrop 0; DInit 1 1 0 1; DDrop 0] = Ok st
  /\ st = ([1;3], [[];[3]]).
Proof. eexists; split; vm_compute; reflexivity. Qed.

(** ** C15 *)
Theorem C15_globals_history : forall gs0 h gs, g_run gs0 h = Ok gs ->
  length gs = length gs0 /\
  forall i v0, nth_error gs0 i = Some v0 ->
    exists v, global_get (val_cls v0) gs i = Ok v /\ val_cls v = val_cls v0 /\
              v = match last_set i h with Some v => v | None => v0 end.
Proof. exact globals_history. Qed.
Print Assumptions C15_globals_history.
Theorem C15_set_succeeds_and_frames : forall gs i v old, nth_error gs i = Some old -> val_cls old = val_cls v ->
  exists gs', global_set gs i v = Ok gs' /\ nth_error gs' i = Some v /\
    length gs' = length gs /\ forall j, j <> i -> nth_error gs' j = nth_error gs j.
Proof. exact global_set_total. Qed.
Print Assumptions C15_set_succeeds_and_frames.
Theorem C15_wrong_type_traps : forall gs i v old, nth_error gs i = Some old -> val_cls old <> val_cls v ->
  exists t, global_set gs i v = Trap t.
Proof. exact global_set_wrong_type. Qed.
Print Assumptions C15_wrong_type_traps.
Example C15_ex : g_run [VI32 1; VI64 2] [GSet 0 (VI32 5); GGet CI64 1; GSet 0 (VI32 7)] = Ok [VI32 7; VI64 2].
Proof. reflexivity. Qed.

(** ** C16: the restriction on fills ([i + n] below 2^32; for traps also n <> 0) is forced by the code *)
Theorem C16_tables_history_partial : forall h ts0 ts, tables_small ts0 -> Forall operands_ok h ->
  Forall (fun o => match o with TFill _ i _ n => unsigned 32 i + unsigned 32 n < 2^32 | _ => True end) h ->
  t_run ts0 h = Ok ts ->
  map (@length ref) ts = map (@length ref) ts0 /\
  forall t j tb0, nth_error ts0 t = Some tb0 -> 0 <= j < Z.of_nat (length tb0) ->
    exists tb, nth_error ts t = Some tb /\
      nth_error tb (Z.to_nat j) = match last_write t j h with Some r => Some r | None => nth_error tb0 (Z.to_nat j) end.
Proof. exact tables_history. Qed.
Print Assumptions C16_tables_history_partial.
Theorem C16_get_reads_entry : forall (ts : list table) t (tb : table) i r, in_s 32 i -> nth_error ts t = Some tb ->
  nth_error tb (Z.to_nat (unsigned 32 i)) = Some r -> table_get ts t i = Ok r.
Proof. exact table_get_value. Qed.
Print Assumptions C16_get_reads_entry.
Theorem C16_trap_condition_partial : forall ts o, tables_small ts -> operands_ok o ->
  (match o with TFill _ i _ n => n <> 0 /\ unsigned 32 i + unsigned 32 n < 2^32 | _ => True end) ->
  (exists t, t_step ts o = Trap t) <-> wasm_table_traps ts o.
Proof. exact t_step_trap. Qed.
Print Assumptions C16_trap_condition_partial.
(** Every history and every operation: a fill whose range passes 2^32 writes nothing, and the entries
    are those of the history without such fills; an operation traps exactly as the standard says, but
    for those fills and the fills of no entries, which trap only when there is no such table. *)
Theorem C16_every_history_partial : forall h ts0 ts, tables_small ts0 -> Forall operands_ok h ->
  t_run ts0 h = Ok ts ->
  map (@length ref) ts = map (@length ref) ts0 /\
  forall t j tb0, nth_error ts0 t = Some tb0 -> 0 <= j < Z.of_nat (length tb0) ->
    exists tb, nth_error ts t = Some tb /\
      nth_error tb (Z.to_nat j) =
        match last_write t j (filter (fun o => match o with
                                | TFill _ i _ n => unsigned 32 i + unsigned 32 n <? 2^32 | _ => true end) h)
        with Some r => Some r | None => nth_error tb0 (Z.to_nat j) end.
Proof. exact tables_history_every. Qed.
Print Assumptions C16_every_history_partial.
Theorem C16_every_trap_partial : forall ts o, tables_small ts -> operands_ok o ->
  (exists t, t_step ts o = Trap t) <->
  match o with
  | TFill t i _ n => nth_error ts t = None \/ (n <> 0 /\ unsigned 32 i + unsigned 32 n < 2^32 /\ wasm_table_traps ts o)
  | _ => wasm_table_traps ts o
  end.
Proof. exact t_step_trap_every. Qed.
Print Assumptions C16_every_trap_partial.
Example C16_every_ex : t_run [[RNull; RNull]] [TFill 0 1 (RFunc 7) (-1); TSet 0 1 (RFunc 4); TFill 0 9 (RFunc 7) 0]
  = Ok [[RNull; RFunc 4]] /\ (exists t, t_step [[RNull]] (TFill 0 0 RNull 2) = Trap t)
  /\ (exists t, t_step [[RNull]] (TFill 1 0 RNull 0) = Trap t).
Proof. split; [|split]; [vm_compute; reflexivity|eexists; vm_compute; reflexivity..]. Qed.
Theorem C16_zero_fill_refuted : exists ts : list table,
  wasm_table_traps ts (TFill 0 5 RNull 0) /\ t_step ts (TFill 0 5 RNull 0) = Ok ts.
Proof. exact fill_zero_refuted. Qed.
Print Assumptions C16_zero_fill_refuted.
Theorem C16_wrapping_fill_refuted : exists ts : list table,
  wasm_table_traps ts (TFill 0 1 RNull (-1)) /\ t_step ts (TFill 0 1 RNull (-1)) = Ok ts.
Proof. exact fill_wrap_refuted. Qed.
Print Assumptions C16_wrapping_fill_refuted.
Example C16_ex : t_run [[RNull; RNull; RNull]] [TSet 0 1 (RFunc 4); TFill 0 0 (RFunc 2) 1; TGet 0 2]
  = Ok [[RFunc 2; RFunc 4; RNull]] /\ t_step [[RNull]] (TSet 0 (-1) RNull) = Trap THost.
Proof. split; vm_compute; reflexivity. Qed.
