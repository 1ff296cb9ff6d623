(** Linear memory: model meets specification. *)
From Coq Require Import ZArith List Bool Lia ZifyBool ZifyNat.
From Verif Require Import Word Value WasmNum NumericProofs Mem WasmMem.
Import ListNotations.
Open Scope Z_scope.

(** ** lists *)
Lemma splice_length m p bs : (p + length bs <= length m)%nat -> length (splice m p bs) = length m.
Proof.
  intros H. unfold splice. rewrite !app_length, firstn_length, skipn_length. lia.
Qed.
Lemma splice_nth m p bs k : (p + length bs <= length m)%nat ->
  nth k (splice m p bs) 0 =
  if ((p <=? k) && (k <? p + length bs))%nat then nth (k - p) bs 0 else nth k m 0.
Proof.
  intros H. unfold splice. assert (Lf : length (firstn p m) = p) by (rewrite firstn_length; lia).
  destruct (Nat.leb_spec p k); destruct (Nat.ltb_spec k (p + length bs)); cbn [andb].
  - rewrite app_nth2 by lia. rewrite app_nth1 by lia. now rewrite Lf.
  - rewrite app_nth2 by lia. rewrite app_nth2 by lia. rewrite Lf.
    rewrite <- (firstn_skipn (p + length bs) m) at 2. rewrite app_nth2 by (rewrite firstn_length; lia).
    f_equal. rewrite firstn_length. lia.
  - rewrite app_nth1 by lia. rewrite <- (firstn_skipn p m) at 2. rewrite app_nth1 by lia. reflexivity.
  - lia.
Qed.
Lemma splice_bytes m p bs : bytes_ok m -> bytes_ok bs -> bytes_ok (splice m p bs).
Proof.
  intros Hm Hb. unfold bytes_ok, splice in *. apply Forall_app. split; [|apply Forall_app; split].
  - rewrite <- (firstn_skipn p m) in Hm. now apply Forall_app in Hm.
  - auto.
  - rewrite <- (firstn_skipn (p + length bs) m) in Hm. now apply Forall_app in Hm.
Qed.
Lemma splice_byte_at m p bs k : 0 <= p -> p + mlen bs <= mlen m -> 0 <= k ->
  byte_at (splice m (Z.to_nat p) bs) k = if (p <=? k) && (k <? p + mlen bs) then byte_at bs (k - p) else byte_at m k.
Proof.
  intros Hp H Hk. unfold byte_at, mlen in *. rewrite splice_nth by lia.
  replace ((Z.to_nat p <=? Z.to_nat k) && (Z.to_nat k <? Z.to_nat p + length bs))%nat
    with ((p <=? k) && (k <? p + Z.of_nat (length bs))) by lia.
  destruct (_ && _) eqn:E; [f_equal; lia|reflexivity].
Qed.
Lemma sub_length m p n : 0 <= p -> 0 <= n -> p + n <= mlen m ->
  length (firstn (Z.to_nat n) (skipn (Z.to_nat p) m)) = Z.to_nat n.
Proof. intros. unfold mlen in *. rewrite firstn_length, skipn_length. lia. Qed.
Lemma nth_skipn {A} (l : list A) n k d : nth k (skipn n l) d = nth (n + k) l d.
Proof. revert n. induction l as [|x l IH]; intros [|n]; cbn; auto. destruct k; auto. Qed.
Lemma nth_firstn {A} (l : list A) n k d : (k < n)%nat -> nth k (firstn n l) d = nth k l d.
Proof. revert n k. induction l as [|x l IH]; intros [|n] [|k] H; cbn; auto; try lia. apply IH. lia. Qed.
Lemma sub_byte_at m p n k : 0 <= p -> 0 <= k < n -> p + n <= mlen m ->
  byte_at (firstn (Z.to_nat n) (skipn (Z.to_nat p) m)) k = byte_at m (p + k).
Proof.
  intros Hp Hk H. unfold byte_at. rewrite nth_firstn by lia. rewrite nth_skipn. f_equal. lia.
Qed.
Lemma sub_bytes m p n : bytes_ok m -> bytes_ok (firstn n (skipn p m)).
Proof.
  unfold bytes_ok. intros H. rewrite <- (firstn_skipn p m) in H. apply Forall_app in H. destruct H as [_ H].
  rewrite <- (firstn_skipn n (skipn p m)) in H. now apply Forall_app in H.
Qed.
Lemma byte_at_ok m k : bytes_ok m -> is_byte (byte_at m k).
Proof.
  intros H. unfold byte_at. destruct (Nat.lt_ge_cases (Z.to_nat k) (length m)).
  - apply (proj1 (Forall_nth is_byte m) H); auto.
  - rewrite nth_overflow by lia. unfold is_byte; lia.
Qed.
Lemma repeat_bytes n b : is_byte b -> bytes_ok (repeat b n).
Proof. intros H. unfold bytes_ok. apply Forall_forall. intros x Hx. apply repeat_spec in Hx. now subst. Qed.

(** ** little endian *)
Lemma le_decode_range l : bytes_ok l -> 0 <= le_decode l < 256 ^ mlen l.
Proof.
  induction 1 as [|b l Hb Hl IH]; cbn [le_decode]; [cbn; lia|].
  unfold mlen in *. cbn [length]. rewrite Nat2Z.inj_succ, Z.pow_succ_r by lia. unfold is_byte in Hb. nia.
Qed.
Lemma le_encode_length n z : length (le_encode n z) = n.
Proof. revert z. induction n; cbn; auto. Qed.
Lemma le_encode_bytes n z : bytes_ok (le_encode n z).
Proof.
  revert z. induction n; intros z; cbn; [constructor|]. constructor; [|apply IHn].
  unfold is_byte. apply Z.mod_pos_bound. lia.
Qed.
Lemma le_encode_nth n z k : (k < n)%nat -> nth k (le_encode n z) 0 = (z / 256 ^ Z.of_nat k) mod 256.
Proof.
  revert z k. induction n; intros z k H; [lia|]. cbn [le_encode nth]. destruct k as [|k].
  - cbn [Z.of_nat]. rewrite Z.pow_0_r, Z.div_1_r. reflexivity.
  - rewrite IHn by lia. rewrite Nat2Z.inj_succ, Z.pow_succ_r by lia.
    rewrite Z.div_div by lia. reflexivity.
Qed.
Lemma le_decode_encode n z : le_decode (le_encode n z) = z mod 256 ^ Z.of_nat n.
Proof.
  revert z. induction n; intros z; cbn [le_encode le_decode].
  - cbn. now rewrite Z.mod_1_r.
  - rewrite IHn. rewrite Nat2Z.inj_succ, Z.pow_succ_r by lia.
    rewrite Z.rem_mul_r by lia. reflexivity.
Qed.
Lemma le_sum_decode n m a : 0 <= a -> a + Z.of_nat n <= mlen m ->
  le_sum n m a = le_decode (firstn n (skipn (Z.to_nat a) m)).
Proof.
  revert a. induction n as [|n IH]; intros a Ha H; [reflexivity|].
  cbn [le_sum]. rewrite IH by (unfold mlen in *; lia). unfold byte_at, mlen in *.
  destruct (skipn (Z.to_nat a) m) as [|x l] eqn:E.
  { apply (f_equal (@length Z)) in E. rewrite skipn_length in E. cbn in E. lia. }
  cbn [firstn le_decode]. f_equal.
  - rewrite <- (Nat.add_0_r (Z.to_nat a)), <- nth_skipn, E. reflexivity.
  - f_equal. f_equal. f_equal. replace (Z.to_nat (a+1)) with (1 + Z.to_nat a)%nat by lia.
    change (skipn (1 + Z.to_nat a) m) with (skipn (1 + Z.to_nat a) m).
    assert (HS : forall (i : nat) (q : list Z), skipn (1 + i) q = skipn 1 (skipn i q)).
    { induction i; intros q; cbn; auto. destruct q; auto. cbn in IHi. apply IHi. }
    rewrite HS, E. reflexivity.
Qed.
Lemma le_sum_ext n m m' a a' : (forall k, 0 <= k < Z.of_nat n -> byte_at m (a + k) = byte_at m' (a' + k)) ->
  le_sum n m a = le_sum n m' a'.
Proof.
  revert a a'. induction n as [|n IH]; intros a a' H; cbn [le_sum]; [reflexivity|].
  rewrite (IH (a+1) (a'+1)).
  - specialize (H 0). rewrite !Z.add_0_r in H. rewrite H by lia. reflexivity.
  - intros k Hk. specialize (H (k+1)). rewrite <- !Z.add_assoc, (Z.add_comm 1). apply H. lia.
Qed.

(** ** addresses *)
Lemma eff_addr_ok p off n m : in_s 32 p -> 0 <= off -> 1 <= n -> mlen m <= 2^32 ->
  unsigned 32 p + off + n <= mlen m -> eff_addr p off = unsigned 32 p + off.
Proof.
  intros Hp Ho Hn Hm H. pose proof (unsigned_range 32 p ltac:(lia) Hp) as [H1 H2].
  unfold eff_addr, usize, cast_u. rewrite <- (unsigned_mod 32 p) by (auto; lia).
  rewrite (Z.mod_small off) by lia. rewrite Z.mod_small by lia. reflexivity.
Qed.

Lemma pow256 n : 0 <= n -> 256 ^ n = 2 ^ (8 * n).
Proof. intros. rewrite Z.pow_mul_r by lia. reflexivity. Qed.

Lemma cast_s_signed' w u : 0 < w -> 0 <= u < 2^w -> cast_s w u = signed w u.
Proof. intros. unfold cast_s, signed. rewrite Z.mod_small by lia. reflexivity. Qed.

(** the closure of a load = the standard's extension *)
Lemma load_conv_ok op c : 0 <= c < 2 ^ (8 * load_bytes op) ->
  load_conv op c = (let '(t, n, x) := load_spec op in
    of_pattern t (match x with XSigned => wasm_extend_s (8 * n) (bitsize t) c | _ => c end))
  /\ val_ok (load_conv op c).
Proof.
  intros Hc.
  assert (NX : forall v w, 0 < v -> v <= w -> 0 <= c < 2^v -> cast_s w (cast_s v c) = signed w (wasm_extend_s v w c)).
  { intros v w Hv Hw HC. assert (2^v <= 2^w) by (apply Z.pow_le_mono_r; lia).
    unfold wasm_extend_s. rewrite Z.mod_small by lia.
    assert (in_s w (signed v c)).
    { rewrite <- cast_s_signed' by lia. apply (in_s_mono v); try lia. apply cast_s_range; lia. }
    rewrite signed_unsigned by (auto; lia). rewrite (cast_s_signed' v c) by lia. apply cast_s_id; auto; lia. }
  destruct op; cbn [load_bytes Z.mul Pos.mul] in Hc; cbn [Z.mul Pos.mul load_conv load_spec of_pattern bitsize val_ok];
    (split; [|first [now apply cast_s_range | unfold in_u; lia]]); try (f_equal; rewrite cast_s_signed' by lia; reflexivity);
    try reflexivity; try (f_equal; apply NX; lia).
Qed.

Lemma load_spec_bytes op : load_bytes op = snd (fst (load_spec op)) /\ 1 <= load_bytes op <= 8.
Proof. destruct op; cbn; lia. Qed.

Lemma mem_load_ok op m p off :
  bytes_ok m -> mlen m <= 2^32 -> in_s 32 p -> 0 <= off ->
  unsigned 32 p + off + load_bytes op <= mlen m ->
  exists v, mem_load op m p off = Ok v /\ wasm_load op m (unsigned 32 p) off = Some v
            /\ val_cls v = load_cls op /\ val_ok v.
Proof.
  intros Hb Hm Hp Ho H. pose proof (load_spec_bytes op) as [HS HR].
  pose proof (unsigned_range 32 p ltac:(lia) Hp) as [HU1 HU2].
  exists (load_conv op (le_decode (firstn (Z.to_nat (load_bytes op)) (skipn (Z.to_nat (unsigned 32 p + off)) m)))).
  set (bs := firstn _ _).
  assert (Lbs : length bs = Z.to_nat (load_bytes op)) by (apply sub_length; lia).
  assert (Hbs : bytes_ok bs) by (apply sub_bytes; auto).
  assert (Hd : 0 <= le_decode bs < 2 ^ (8 * load_bytes op)).
  { pose proof (le_decode_range bs Hbs) as R. unfold mlen in R. rewrite Lbs, Z2Nat.id, pow256 in R by lia. auto. }
  destruct (load_conv_ok op (le_decode bs) Hd) as [HC HV].
  repeat split.
  - unfold mem_load, raw_read. rewrite (eff_addr_ok p off (load_bytes op) m) by (auto; lia).
    replace (_ && _) with true by lia. cbn [bind]. reflexivity.
  - unfold wasm_load. rewrite HC. destruct (load_spec op) as [[t n] x] eqn:E. cbn [fst snd] in HS. rewrite HS in *.
    replace (mlen m <? unsigned 32 p + off + n) with false by lia. f_equal.
    rewrite le_sum_decode by (unfold mlen in *; lia). unfold bs. rewrite HS. reflexivity.
  - destruct op; reflexivity.
  - auto.
Qed.

Lemma store_spec_bytes op : store_bytes_n op = snd (store_spec op) /\ 1 <= store_bytes_n op <= 8.
Proof. destruct op; cbn; lia. Qed.

Lemma payload_pattern op v k : val_ok v -> val_cls v = store_cls op -> 0 <= k < store_bytes_n op ->
  (payload v / 256 ^ k) mod 256 = (pattern v / 256 ^ k) mod 256.
Proof.
  intros Hv Hc Hk.
  assert (G : forall w z, 0 < w -> w mod 8 = 0 -> 8 * (k + 1) <= w -> in_s w z -> (z / 256^k) mod 256 = (unsigned w z / 256^k) mod 256).
  { intros w z Hw H8 Hk' Hz. unfold unsigned. destruct (Z.ltb_spec z 0); [|reflexivity].
    rewrite !pow256 by lia. replace w with (8*k + 8 + (w - 8*k - 8)) by lia.
    rewrite !Z.pow_add_r by lia. replace (2 ^ (8*k) * 2^8 * 2^(w - 8*k - 8)) with ((2^(w-8*k-8) * 256) * 2^(8*k)) by lia.
    rewrite Z.div_add by lia. rewrite Z.mod_add by lia. reflexivity. }
  destruct op, v; cbn in Hc; try discriminate; cbn [payload pattern store_bytes_n val_ok] in *; auto;
   apply G; auto; lia.
Qed.

Lemma mem_store_ok op m p off v :
  bytes_ok m -> mlen m <= 2^32 -> in_s 32 p -> 0 <= off -> val_ok v -> val_cls v = store_cls op ->
  unsigned 32 p + off + store_bytes_n op <= mlen m ->
  exists m', mem_store op m p off v = Ok m' /\ wasm_store op m (unsigned 32 p) off v (Some m')
             /\ bytes_ok m' /\ length m' = length m.
Proof.
  intros Hb Hm Hp Ho Hv Hc H. pose proof (store_spec_bytes op) as [HS HR].
  pose proof (unsigned_range 32 p ltac:(lia) Hp) as [HU1 HU2].
  unfold mem_store, raw_write. rewrite (eff_addr_ok p off (store_bytes_n op) m) by (auto; lia).
  set (bs := le_encode _ _).
  assert (Lbs : mlen bs = store_bytes_n op) by (unfold mlen, bs; rewrite le_encode_length; lia).
  rewrite Lbs. replace (_ && _) with true by lia.
  assert (L' : length (splice m (Z.to_nat (unsigned 32 p + off)) bs) = length m)
    by (apply splice_length; unfold mlen in *; lia).
  eexists; split; [reflexivity|]. repeat split; auto.
  - unfold wasm_store. destruct (store_spec op) as [t n] eqn:E. cbn [snd] in HS. rewrite HS in *.
    replace (mlen m <? unsigned 32 p + off + n) with false by lia. eexists; split; [reflexivity|].
    split; [auto|]. intros k Hk.
    rewrite splice_byte_at by lia. rewrite Lbs. destruct (_ && _) eqn:B; [|reflexivity].
    unfold byte_at at 1. unfold bs. rewrite le_encode_nth by lia.
    rewrite Z2Nat.id by lia. apply (payload_pattern op); auto. rewrite HS. lia.
  - apply splice_bytes; auto. apply le_encode_bytes.
Qed.

(** ** store then load *)
Lemma le_sum_stored n m' a c : 0 <= a ->
  (forall k, a <= k < a + Z.of_nat n -> byte_at m' k = (c / 256 ^ (k - a)) mod 256) ->
  le_sum n m' a = c mod 256 ^ Z.of_nat n.
Proof.
  revert a c. induction n as [|n IH]; intros a c Ha H; cbn [le_sum].
  - cbn. now rewrite Z.mod_1_r.
  - rewrite (H a) by lia. rewrite Z.sub_diag, Z.pow_0_r, Z.div_1_r.
    rewrite (IH (a+1) (c/256)).
    + rewrite Nat2Z.inj_succ, Z.pow_succ_r by lia. rewrite Z.rem_mul_r by lia. reflexivity.
    + lia.
    + intros k Hk. rewrite (H k) by lia. rewrite Z.div_div by lia. f_equal. f_equal.
      rewrite <- Z.pow_succ_r by lia. f_equal. lia.
Qed.
Lemma store_load lop sop m m' i off v :
  val_cls v = store_cls sop -> load_cls lop = store_cls sop -> load_bytes lop = store_bytes_n sop ->
  0 <= i -> 0 <= off -> wasm_store sop m i off v (Some m') ->
  wasm_load lop m' i off =
    Some (let '(t, n, x) := load_spec lop in
          let c := pattern v mod 256 ^ n in
          of_pattern t (match x with XSigned => wasm_extend_s (8 * n) (bitsize t) c | _ => c end)).
Proof.
  intros Hc Hlc Hn Hi Ho. unfold wasm_store, wasm_load.
  pose proof (store_spec_bytes sop) as [HS HR]. pose proof (load_spec_bytes lop) as [HL _].
  destruct (store_spec sop) as [t n]. destruct (load_spec lop) as [[t' n'] x]. cbn [fst snd] in *.
  assert (En : n' = n) by lia. clear HL Hn. rewrite En. clear En n'.
  destruct (Z.ltb_spec (mlen m) (i + off + n)); [intros E; discriminate E|]. intros (m1 & E & HL' & HB). injection E as <-.
  unfold mlen in *. rewrite HL'. replace (_ <? _) with false by lia. f_equal.
  replace (le_sum (Z.to_nat n) m' (i + off)) with (pattern v mod 256 ^ n); [reflexivity|].
  symmetry. rewrite (le_sum_stored _ _ _ (pattern v)).
  - now rewrite Z2Nat.id by lia.
  - lia.
  - intros k Hk. rewrite HB by lia. replace (_ && _) with true by lia. reflexivity.
Qed.
Lemma store_load_same lop sop m m' i off v :
  In (sop, lop) [(SI32, LI32); (SI64, LI64); (SF32, LF32); (SF64, LF64)] ->
  val_ok v -> val_cls v = store_cls sop -> 0 <= i -> 0 <= off ->
  wasm_store sop m i off v (Some m') -> wasm_load lop m' i off = Some v.
Proof.
  intros Hin Hv Hc Hi Ho H. rewrite (store_load lop sop m m' i off v); auto.
  2-3: simpl in Hin; repeat (destruct Hin as [Hin|Hin]; [injection Hin as <- <-; reflexivity|]); contradiction.
  f_equal. simpl in Hin.
  repeat (destruct Hin as [Hin|Hin]; [injection Hin as <- <-; destruct v; cbn in Hc; try discriminate; cbn [val_ok] in Hv;
     cbn [load_spec of_pattern pattern]; f_equal|]); try contradiction.
  - rewrite Z.mod_small by (change (256^4) with (2^32); apply (unsigned_range 32); auto; lia). apply signed_unsigned; auto; lia.
  - rewrite Z.mod_small by (change (256^8) with (2^64); apply (unsigned_range 64); auto; lia). apply signed_unsigned; auto; lia.
  - apply Z.mod_small. exact Hv.
  - apply Z.mod_small. exact Hv.
Qed.

(** ** bulk *)
Lemma u32 z : in_s 32 z -> cast_u 32 z = unsigned 32 z /\ 0 <= unsigned 32 z < 2^32.
Proof. intros H. split; [symmetry; apply (unsigned_mod 32); auto; lia|apply unsigned_range; auto; lia]. Qed.

Lemma mem_copy_ok m d s n : bytes_ok m -> in_s 32 d -> in_s 32 s -> in_s 32 n ->
  unsigned 32 s + unsigned 32 n <= mlen m -> unsigned 32 d + unsigned 32 n <= mlen m ->
  exists m', mem_copy m d s n = Ok m' /\ wasm_copy m (unsigned 32 d) (unsigned 32 s) (unsigned 32 n) (Some m')
             /\ bytes_ok m' /\ length m' = length m.
Proof.
  intros Hb Hd Hs Hn H1 H2. destruct (u32 d Hd) as [Ed Rd], (u32 s Hs) as [Es Rs], (u32 n Hn) as [En Rn].
  unfold mem_copy. rewrite Ed, Es, En. unfold wasm_copy.
  replace (_ || _) with false by lia.
  destruct (Z.eqb_spec (unsigned 32 n) 0) as [E|E].
  - exists m. repeat split; auto. exists m; split; auto. split; auto. intros k Hk.
    replace (_ && _) with false by lia. reflexivity.
  - unfold raw_read, raw_write. replace (_ && _) with true by lia. cbn [bind].
    set (bs := firstn _ _). assert (Lb : mlen bs = unsigned 32 n).
    { unfold mlen, bs. rewrite sub_length by lia. lia. }
    rewrite Lb. replace (_ && _) with true by lia.
    assert (L' : length (splice m (Z.to_nat (unsigned 32 d)) bs) = length m)
      by (apply splice_length; unfold mlen in *; lia).
    eexists; split; [reflexivity|]. repeat split; auto.
    + eexists; split; [reflexivity|]. split; auto. intros k Hk. rewrite splice_byte_at by lia. rewrite Lb.
      destruct (_ && _) eqn:B; [|reflexivity]. unfold bs. rewrite sub_byte_at by lia. reflexivity.
    + apply splice_bytes; auto. apply sub_bytes; auto.
Qed.

Lemma byte_at_repeat b n k : 0 <= k < n -> byte_at (repeat b (Z.to_nat n)) k = b.
Proof. intros H. unfold byte_at.
  assert (G : (Z.to_nat k < Z.to_nat n)%nat) by lia. revert G. generalize (Z.to_nat k) (Z.to_nat n). intros i j. revert i.
  induction j; intros [|i] G; cbn; auto; try lia. apply IHj. lia. Qed.

Lemma mem_fill_ok m d v n : bytes_ok m -> in_s 32 d -> in_s 32 v -> in_s 32 n ->
  unsigned 32 d + unsigned 32 n <= mlen m ->
  exists m', mem_fill m d v n = Ok m' /\ wasm_fill m (unsigned 32 d) (unsigned 32 v) (unsigned 32 n) (Some m')
             /\ bytes_ok m' /\ length m' = length m.
Proof.
  intros Hb Hd Hv Hn H2. destruct (u32 d Hd) as [Ed Rd], (u32 n Hn) as [En Rn].
  unfold mem_fill. rewrite Ed, En. unfold wasm_fill.
  replace (mlen m <? _) with false by lia.
  assert (HB : is_byte (cast_u 8 v)) by (unfold is_byte; apply (Z.mod_pos_bound v 256); lia).
  destruct (Z.eqb_spec (unsigned 32 n) 0) as [E|E].
  - exists m. repeat split; auto. exists m; split; auto. split; auto. intros k Hk.
    replace (_ && _) with false by lia. reflexivity.
  - unfold raw_write.
    assert (Lb : mlen (repeat (cast_u 8 v) (Z.to_nat (unsigned 32 n))) = unsigned 32 n) by (unfold mlen; rewrite repeat_length; lia).
    set (bs := repeat _ _) in *.
    rewrite Lb. replace (_ && _) with true by lia.
    assert (L' : length (splice m (Z.to_nat (unsigned 32 d)) bs) = length m)
      by (apply splice_length; unfold mlen in *; lia).
    eexists; split; [reflexivity|]. repeat split; auto.
    + eexists; split; [reflexivity|]. split; auto. intros k Hk. rewrite splice_byte_at by lia. rewrite Lb.
      destruct (_ && _) eqn:B; [|reflexivity]. unfold bs. rewrite byte_at_repeat by lia.
      unfold cast_u. destruct (unsigned_congr 32 v) as [j ->].
      change (2^8) with 256. replace (v + j * 2^32) with (v + (j * 2^24) * 256) by lia. now rewrite Z.mod_add by lia.
    + apply splice_bytes; auto. apply repeat_bytes; auto.
Qed.

(** memory.init traps exactly as the standard says except that a zero length is never checked *)
Lemma mem_init_ok m datas k data d s n :
  bytes_ok m -> bytes_ok data -> mlen m < 2^32 -> mlen data < 2^32 -> nth_error datas k = Some data ->
  in_s 32 d -> in_s 32 s -> in_s 32 n -> n <> 0 ->
  (exists m', mem_init m datas k d s n = Ok m' /\ wasm_init m data (unsigned 32 d) (unsigned 32 s) (unsigned 32 n) (Some m')
             /\ bytes_ok m' /\ length m' = length m) \/
  (exists t, mem_init m datas k d s n = Trap t /\ wasm_init m data (unsigned 32 d) (unsigned 32 s) (unsigned 32 n) None).
Proof.
  intros Hb Hbd Hm Hdl Hk Hd Hs Hn Hn0.
  destruct (u32 d Hd) as [Ed Rd], (u32 s Hs) as [Es Rs], (u32 n Hn) as [En Rn].
  assert (Hnp : 0 < unsigned 32 n).
  { unfold unsigned, in_s in *. destruct (Z.ltb_spec n 0); lia. }
  unfold mem_init. rewrite Hk, Ed, Es, En. unfold wasm_init.
  replace (0 <? unsigned 32 n) with true by lia.
  assert (SL : forall l a c, 0 <= a -> 0 < c -> c < 2^32 -> a < 2^32 -> mlen l < 2^32 ->
     slice l a (usize (a + c)) = if mlen l <? a + c then Trap THost else Ok (firstn (Z.to_nat c) (skipn (Z.to_nat a) l))).
  { intros l a c Ha Hc Hc' Ha' Hl. unfold slice, usize. destruct (Z.ltb_spec (mlen l) (a + c)) as [G|G].
    - replace (_ && _) with false; [reflexivity|]. symmetry. apply andb_false_iff.
      destruct (Z.lt_ge_cases (a + c) (2^32)).
      + right. rewrite Z.mod_small by lia. lia.
      + left. replace (a + c) with (a + c - 2^32 + 1 * 2^32) by lia. rewrite Z.mod_add by lia.
        rewrite Z.mod_small by lia. lia.
    - rewrite Z.mod_small by lia. replace (_ && _) with true by lia. do 2 f_equal. f_equal. lia. }
  rewrite SL by lia. destruct (Z.ltb_spec (mlen data) (unsigned 32 s + unsigned 32 n)) as [G|G]; cbn [bind orb].
  { right. eexists; split; reflexivity. }
  set (bs := firstn _ _).
  assert (Lb : mlen bs = unsigned 32 n). { unfold mlen, bs. rewrite sub_length by lia. lia. }
  unfold mem_init_at. rewrite Lb. rewrite SL by lia.
  destruct (Z.ltb_spec (mlen m) (unsigned 32 d + unsigned 32 n)) as [G'|G']; cbn [bind].
  { right. eexists; split; reflexivity. }
  left.
  assert (L' : length (splice m (Z.to_nat (unsigned 32 d)) bs) = length m)
    by (apply splice_length; unfold mlen in *; lia).
  eexists; split; [reflexivity|]. repeat split; auto.
  - eexists; split; [reflexivity|]. split; auto. intros q Hq. rewrite splice_byte_at by lia. rewrite Lb.
    destruct (_ && _) eqn:B; [|reflexivity]. unfold bs. rewrite sub_byte_at by lia. reflexivity.
  - apply splice_bytes; auto. apply sub_bytes; auto.
Qed.

(** ** grow *)
Lemma mem_grow_ok m delta :
  mlen (m_data m) <= isize_max -> mlen (m_data m) mod page = 0 ->
  (match m_max m with Some x => 0 <= x <= 65536 | None => True end) ->
  0 <= delta -> pages (m_data m) + delta < 2^31 ->
  (forall d', wasm_grow (m_data m) (m_max m) delta = Some d' -> pages (m_data m) + delta < 2^15) ->
  exists m' r, mem_grow m delta = Ok (m', r) /\ m_max m' = m_max m /\
    match wasm_grow (m_data m) (m_max m) delta with
    | Some d' => m_data m' = d' /\ r = pages (m_data m)
    | None => m' = m /\ r = -1
    end.
Proof.
  intros Hl Hp Hx Hd0 Hd Hs. unfold mem_grow, mem_grow_raw. replace (delta <? 0) with false by lia.
  unfold isize_max in *. set (P := pages (m_data m)) in *.
  assert (HP : mlen (m_data m) = P * page).
  { unfold P, pages. pose proof (Z.div_mod (mlen (m_data m)) page ltac:(unfold page; lia)). lia. }
  assert (HP0 : 0 <= P). { unfold P, pages, mlen. apply Z.div_pos; unfold page; lia. }
  assert (HP1 : P < 2^15) by (unfold page in *; lia).
  assert (Hsz : mem_size m = P).
  { unfold mem_size. fold P. replace (mlen (m_data m) / page) with P by reflexivity. apply cast_s_id; unfold in_s; lia. }
  rewrite Hsz. rewrite (cast_s_id 32 (P + delta)) by (unfold in_s; lia).
  unfold wasm_grow in *. fold P in Hs |- *.
  assert (HM : match m_max m with Some mx => cast_s 32 mx <? P + delta | None => false end
             = match m_max m with Some mx => mx <? P + delta | None => false end).
  { destruct (m_max m); auto. rewrite cast_s_id by (unfold in_s; lia). reflexivity. }
  rewrite HM. destruct (match m_max m with Some mx => mx <? P + delta | None => false end) eqn:E.
  { rewrite orb_true_r. do 2 eexists; split; [reflexivity|]. split; auto. }
  destruct (65536 <? P + delta) eqn:E2; cbn [orb] in *.
  { do 2 eexists; split; [reflexivity|]. split; auto. }
  specialize (Hs _ eq_refl).
  unfold usize, cast_u. rewrite (Z.mod_small (P + delta)) by lia. rewrite Z.mod_small by (unfold page; lia).
  replace (2^31 - 1 <? (P + delta) * page) with false by (unfold page; lia).
  do 2 eexists; split; [reflexivity|]. split; auto. split; auto. cbn [m_data].
  unfold resize. rewrite firstn_all2.
  - f_equal. f_equal. unfold mlen in HP. lia.
  - unfold mlen in HP. unfold page in *. lia.
Qed.

(** from 2^15 pages on, a growth the standard allows panics, and at exactly 65536 pages it
    truncates the memory to nothing *)
Lemma mem_grow_big m delta :
  mlen (m_data m) <= isize_max -> mlen (m_data m) mod page = 0 -> m_max m = None -> 0 <= delta ->
  2^15 <= pages (m_data m) + delta < 65536 -> mem_grow m delta = Trap THost.
Proof.
  intros Hl Hp Hx Hd0 Hd. unfold mem_grow, mem_grow_raw. replace (delta <? 0) with false by lia.
  unfold isize_max in *. set (P := pages (m_data m)) in *.
  assert (HP0 : 0 <= P). { unfold P, pages, mlen. apply Z.div_pos; unfold page; lia. }
  assert (Hsz : mem_size m = P).
  { unfold mem_size. replace (mlen (m_data m) / page) with P by reflexivity. apply cast_s_id; unfold in_s; lia. }
  rewrite Hx, Hsz. rewrite (cast_s_id 32 (P + delta)) by (unfold in_s; lia).
  replace (65536 <? P + delta) with false by lia.
  unfold usize, cast_u. rewrite (Z.mod_small (P + delta)) by lia. rewrite Z.mod_small by (unfold page; lia).
  replace (2^31 - 1 <? (P + delta) * page) with true by (unfold page; lia). reflexivity.
Qed.
Lemma mem_grow_truncates m delta :
  mlen (m_data m) <= isize_max -> m_max m = None -> 0 <= delta ->
  pages (m_data m) + delta = 65536 \/ pages (m_data m) + delta = 2^31 ->
  exists m', mem_grow m delta = Ok (m', pages (m_data m)) /\ m_data m' = [].
Proof.
  intros Hl Hx Hd0 Hd. unfold mem_grow, mem_grow_raw. replace (delta <? 0) with false by lia.
  unfold isize_max in *. set (P := pages (m_data m)) in *.
  assert (HP0 : 0 <= P). { unfold P, pages, mlen. apply Z.div_pos; unfold page; lia. }
  assert (HP1 : P < 2^31).
  { unfold P, pages. apply Z.div_lt_upper_bound; unfold page; lia. }
  assert (Hsz : mem_size m = P).
  { unfold mem_size. replace (mlen (m_data m) / page) with P by reflexivity. apply cast_s_id; unfold in_s; lia. }
  rewrite Hx, Hsz. destruct Hd as [-> | ->].
  - change (usize _) with 0. cbn. eexists; split; reflexivity.
  - change (usize _) with 0. cbn. eexists; split; reflexivity.
Qed.

(** the exact outcome for every 32-bit delta *)
Lemma mem_grow_every m delta :
  mlen (m_data m) <= isize_max -> mlen (m_data m) mod page = 0 ->
  (match m_max m with Some x => 0 <= x <= 65536 | None => True end) ->
  in_s 32 delta ->
  let q := pages (m_data m) + delta in
  (delta < 0 -> mem_grow m delta = Trap TParamCount) /\
  (0 <= delta -> q < 2^31 -> wasm_grow (m_data m) (m_max m) delta = None -> mem_grow m delta = Ok (m, -1)) /\
  (0 <= delta -> forall d', wasm_grow (m_data m) (m_max m) delta = Some d' ->
     (q < 2^15 -> exists m', mem_grow m delta = Ok (m', pages (m_data m)) /\ m_data m' = d' /\ m_max m' = m_max m) /\
     (2^15 <= q < 65536 -> mem_grow m delta = Trap THost) /\
     (q = 65536 -> exists m', mem_grow m delta = Ok (m', pages (m_data m)) /\ m_data m' = [] /\ m_max m' = m_max m)) /\
  (2^31 <= q -> wasm_grow (m_data m) (m_max m) delta = None /\
     exists m', mem_grow m delta = Ok (m', pages (m_data m)) /\ m_max m' = m_max m /\
       m_data m' = firstn (Z.to_nat ((q - 2^31) * page)) (m_data m) /\
       mlen (m_data m') = (q - 2^31) * page /\ mlen (m_data m') < mlen (m_data m)).
Proof.
  intros Hl Hp Hx Hd. cbv zeta.
  assert (HP : mlen (m_data m) = pages (m_data m) * page).
  { unfold pages. pose proof (Z.div_mod (mlen (m_data m)) page ltac:(unfold page; lia)). lia. }
  assert (HP0 : 0 <= pages (m_data m)). { unfold pages, mlen. apply Z.div_pos; unfold page; lia. }
  unfold isize_max in *.
  assert (HP1 : pages (m_data m) < 2^15) by (unfold page in *; lia).
  assert (Hsz : mem_size m = pages (m_data m)).
  { unfold mem_size. change (mlen (m_data m) / page) with (pages (m_data m)). apply cast_s_id; unfold in_s; lia. }
  set (P := pages (m_data m)) in *.
  split; [|split; [|split]].
  - intros Hn. unfold mem_grow. replace (delta <? 0) with true by lia. reflexivity.
  - intros H0 Hq E. destruct (mem_grow_ok m delta) as (m' & r & -> & _ & K); auto; try (unfold isize_max; fold P; lia).
    + rewrite E. discriminate.
    + rewrite E in K. destruct K as [-> ->]. reflexivity.
  - intros H0 d' E. split; [|split].
    + intros Hq. destruct (mem_grow_ok m delta) as (m' & r & G & Em & K); auto; try (unfold isize_max; lia).
      rewrite E in K. destruct K as [K1 K2]. subst r. exists m'. auto.
    + intros Hq. unfold wasm_grow in E. fold P in E.
      destruct ((65536 <? P + delta) || _) eqn:B; [discriminate|]. apply orb_false_iff in B as [B1 B2].
      unfold mem_grow, mem_grow_raw. replace (delta <? 0) with false by lia. cbv zeta.
      rewrite Hsz, (cast_s_id 32 (P + delta)) by (unfold in_s; lia). rewrite B1.
      assert (HM : match m_max m with Some mx => cast_s 32 mx <? P + delta | None => false end = false).
      { destruct (m_max m); auto. rewrite cast_s_id by (unfold in_s; lia). exact B2. }
      rewrite HM.
      unfold usize, cast_u. rewrite (Z.mod_small (P + delta)) by lia. rewrite Z.mod_small by (unfold page; lia).
      unfold isize_max. replace (2^31 - 1 <? (P + delta) * page) with true by (unfold page; lia). reflexivity.
    + intros Hq. unfold wasm_grow in E. fold P in E.
      destruct ((65536 <? P + delta) || _) eqn:B; [discriminate|]. apply orb_false_iff in B as [B1 B2].
      unfold mem_grow, mem_grow_raw. replace (delta <? 0) with false by lia. cbv zeta.
      rewrite Hsz, (cast_s_id 32 (P + delta)) by (unfold in_s; lia). rewrite B1.
      assert (HM : match m_max m with Some mx => cast_s 32 mx <? P + delta | None => false end = false).
      { destruct (m_max m); auto. rewrite cast_s_id by (unfold in_s; lia). exact B2. }
      rewrite HM, Hq. change (usize (cast_u 32 65536 * page)) with 0. cbn [Z.ltb].
      change (isize_max <? 0) with false. cbv iota. eexists. split; [reflexivity|]. split; reflexivity.
  - intros Hq. split.
    { unfold wasm_grow. fold P. replace (65536 <? P + delta) with true by lia. reflexivity. }
    unfold in_s in Hd.
    assert (C : cast_s 32 (P + delta) = P + delta - 2^32).
    { rewrite cast_s_signed, Z.mod_small by lia. unfold signed. replace (_ <? _) with false by lia. lia. }
    unfold mem_grow, mem_grow_raw. replace (delta <? 0) with false by lia. cbv zeta. rewrite Hsz, C.
    assert (HM : match m_max m with Some mx => cast_s 32 mx <? P + delta - 2^32 | None => false end = false).
    { destruct (m_max m); auto. rewrite cast_s_id by (unfold in_s; lia). lia. }
    rewrite HM. replace (65536 <? P + delta - 2^32) with false by lia.
    assert (U : usize (cast_u 32 (P + delta - 2^32) * page) = (P + delta - 2^31) * page).
    { unfold usize, cast_u. replace (P + delta - 2^32) with (P + delta + (-1) * 2^32) by lia.
      rewrite Z.mod_add by lia. rewrite (Z.mod_small (P + delta)) by lia.
      replace ((P + delta) * page) with ((P + delta - 2^31) * page + 2^15 * 2^32) by (unfold page; lia).
      rewrite Z.mod_add by lia. apply Z.mod_small. unfold page. lia. }
    rewrite U. replace (isize_max <? _) with false by (unfold isize_max, page in *; lia).
    eexists. split; [reflexivity|]. cbn [m_max m_data].
    assert (LT : (P + delta - 2^31) * page < mlen (m_data m)) by (rewrite HP; unfold page; lia).
    assert (E : resize (m_data m) (Z.to_nat ((P + delta - 2^31) * page)) = firstn (Z.to_nat ((P + delta - 2^31) * page)) (m_data m)).
    { unfold resize. unfold mlen in LT. replace (_ - _)%nat with 0%nat by (unfold page in *; lia). apply app_nil_r. }
    rewrite E. repeat split; auto; unfold mlen in *; rewrite firstn_length; unfold page in *; lia.
Qed.

(** the sign of the delta is not treated as unsigned *)
Lemma mem_grow_negative m delta : delta < 0 -> mem_grow m delta = Trap TParamCount.
Proof. intros. unfold mem_grow. replace (delta <? 0) with true by lia. reflexivity. Qed.

(** ** data.drop histories *)
Lemma upd_length {A} (l : list A) i x : length (upd l i x) = length l.
Proof. revert i. induction l as [|y l IH]; intros [|i]; cbn; auto. Qed.
Lemma upd_nth_eq {A} (l : list A) i x : (i < length l)%nat -> nth_error (upd l i x) i = Some x.
Proof. revert i. induction l as [|y l IH]; intros [|i] H; cbn in *; auto; try lia. apply IH. lia. Qed.
Lemma upd_nth_ne {A} (l : list A) i j x : i <> j -> nth_error (upd l i x) j = nth_error l j.
Proof. revert i j. induction l as [|y l IH]; intros [|i] [|j] H; cbn; auto; try lia. Qed.
Lemma upd_upd {A} (l : list A) i x y : upd (upd l i x) i y = upd l i y.
Proof. revert i. induction l as [|z l IH]; intros [|i]; cbn; auto. now rewrite IH. Qed.

(** ** what happens outside the bounds *)
Lemma mem_load_oob op m p off :
  in_s 32 p -> 0 <= off < 2^32 -> mlen m < unsigned 32 p + off + load_bytes op ->
  unsigned 32 p + off < 2^32 -> mem_load op m p off = UB.
Proof.
  intros Hp Ho H Hw. pose proof (unsigned_range 32 p ltac:(lia) Hp) as [H1 H2].
  unfold mem_load, raw_read, eff_addr, usize, cast_u. rewrite <- (unsigned_mod 32 p) by (auto; lia).
  rewrite (Z.mod_small off) by lia. rewrite Z.mod_small by lia. replace (_ && _) with false by lia. reflexivity.
Qed.
Lemma load_wraps : exists m p off v,
  bytes_ok m /\ in_s 32 p /\ 0 <= off < 2^32 /\
  mlen m < unsigned 32 p + off + 1 /\ wasm_load LI32_8u m (unsigned 32 p) off = None /\
  mem_load LI32_8u m p off = Ok v.
Proof.
  exists [7], (-1), 1, (VI32 7). repeat split; try (vm_compute; congruence).
  repeat constructor; unfold is_byte; lia.
Qed.
Lemma store_wraps : exists m p off m',
  bytes_ok m /\ in_s 32 p /\ 0 <= off < 2^32 /\
  wasm_store SI32_8 m (unsigned 32 p) off (VI32 9) None /\
  mem_store SI32_8 m p off (VI32 9) = Ok m' /\ m' <> m.
Proof.
  exists [7], (-1), 1, [9]. repeat split; try (vm_compute; congruence).
  repeat constructor; unfold is_byte; lia.
Qed.
Lemma init_zero_len_refuted : exists m data d,
  bytes_ok m /\ in_s 32 d /\ wasm_init m data (unsigned 32 d) 0 0 None /\ mem_init m [data] 0 d 0 0 = Ok m.
Proof. exists [1;2], [3], 5. repeat split; try (vm_compute; congruence). repeat constructor; unfold is_byte; lia. Qed.
Lemma copy_oob_refuted : exists m d s n,
  bytes_ok m /\ in_s 32 d /\ in_s 32 s /\ in_s 32 n /\
  wasm_copy m (unsigned 32 d) (unsigned 32 s) (unsigned 32 n) None /\ mem_copy m d s n = UB.
Proof. exists [1;2], 1, 0, 2. repeat split; try (vm_compute; congruence). repeat constructor; unfold is_byte; lia. Qed.
Lemma fill_oob_refuted : exists m d n,
  bytes_ok m /\ in_s 32 d /\ in_s 32 n /\
  wasm_fill m (unsigned 32 d) 0 (unsigned 32 n) None /\ mem_fill m d 0 n = UB.
Proof. exists [1;2], 1, 2. repeat split; try (vm_compute; congruence). repeat constructor; unfold is_byte; lia. Qed.
