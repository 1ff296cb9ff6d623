(** WASI calls: model meets specification. *)
From Coq Require Import ZArith List Bool Lia ZifyBool ZifyNat.
From Verif Require Import Word Value WasmNum NumericProofs Mem WasmMem MemProofs Wasi WasiSpec.
Import ListNotations.
Open Scope Z_scope.

Lemma usize_id z : 0 <= z < 2 ^ 32 -> usize z = z.
Proof. intros. unfold usize. now apply Z.mod_small. Qed.
Lemma range_length a n : length (range a n) = Z.to_nat n.
Proof. unfold range. now rewrite map_length, seq_length. Qed.
Lemma range_S a n : 0 < n -> range a n = a :: range (a + 1) (n - 1).
Proof.
  intros H. unfold range. replace (Z.to_nat n) with (S (Z.to_nat (n - 1))) by lia. cbn [seq map]. f_equal; [lia|].
  rewrite <- seq_shift, map_map. apply map_ext. intros k. lia.
Qed.
Lemma range_app a n k : 0 <= n -> 0 <= k -> range a (n + k) = range a n ++ range (a + n) k.
Proof.
  intros Hn Hk. unfold range. rewrite Z2Nat.inj_add, seq_app, map_app by lia. f_equal.
  cbn [plus]. replace (Z.to_nat n) with (Z.to_nat n + 0)%nat at 1 by lia.
  assert (G : forall c b, map (fun k0 => a + Z.of_nat k0) (seq (Z.to_nat n + b) c) = map (fun k0 => a + n + Z.of_nat k0) (seq b c)).
  { induction c as [|c IH]; intros b; cbn [seq map]; [auto|]. f_equal; [lia|]. rewrite <- IH. now replace (Z.to_nat n + S b)%nat with (S (Z.to_nat n + b)) by lia. }
  apply G.
Qed.
Lemma in_range x a n : In x (range a n) <-> a <= x < a + n.
Proof.
  unfold range. rewrite in_map_iff. split.
  - intros (k & <- & K). apply in_seq in K. lia.
  - intros H. exists (Z.to_nat (x - a)). split; [lia|]. apply in_seq. lia.
Qed.
Lemma bytes_at_length m a n : length (bytes_at m a n) = Z.to_nat n.
Proof. unfold bytes_at. now rewrite map_length, range_length. Qed.
Lemma bytes_at_byte m a n k : 0 <= k < n -> byte_at (bytes_at m a n) k = byte_at m (a + k).
Proof.
  intros H. unfold byte_at at 1, bytes_at, range. rewrite map_map.
  rewrite (nth_indep _ 0 (byte_at m (a + Z.of_nat 0))) by (rewrite map_length, seq_length; lia).
  rewrite (map_nth (fun k0 => byte_at m (a + Z.of_nat k0)) (seq 0 (Z.to_nat n)) 0%nat), seq_nth by lia. f_equal. lia.
Qed.
Lemma byte_at_ext l l' : length l = length l' -> (forall k, 0 <= k < mlen l -> byte_at l k = byte_at l' k) -> l = l'.
Proof.
  intros L H. apply nth_ext with (d := 0) (d' := 0); [auto|]. intros n N. specialize (H (Z.of_nat n)).
  unfold byte_at, mlen in H. rewrite Nat2Z.id in H. apply H. lia.
Qed.
Lemma raw_read_ok m a n : 0 <= a -> 0 <= n -> a + n <= mlen m -> raw_read m a n = Ok (bytes_at m a n).
Proof.
  intros Ha Hn H. unfold raw_read. replace (0 <=? a) with true by lia. replace (a + n <=? mlen m) with true by lia. cbn [andb]. f_equal.
  apply byte_at_ext.
  - now rewrite sub_length, bytes_at_length by lia.
  - intros k K. unfold mlen in K. rewrite sub_length in K by lia. rewrite sub_byte_at, bytes_at_byte by lia. auto.
Qed.
Lemma raw_write_ok m a bs : 0 <= a -> a + mlen bs <= mlen m -> raw_write m a bs = Ok (splice m (Z.to_nat a) bs).
Proof. intros Ha H. unfold raw_write. now replace (0 <=? a) with true by lia; replace (a + mlen bs <=? mlen m) with true by lia. Qed.
Lemma splice_mlen m a bs : 0 <= a -> a + mlen bs <= mlen m -> mlen (splice m (Z.to_nat a) bs) = mlen m.
Proof. intros. unfold mlen in *. rewrite splice_length by lia. auto. Qed.
Lemma bytes_at_ext m m' a n : (forall k, a <= k < a + n -> byte_at m k = byte_at m' k) -> bytes_at m a n = bytes_at m' a n.
Proof. intros H. unfold bytes_at. apply map_ext_in. intros k K. apply in_range in K. auto. Qed.
Lemma bytes_at_splice m a bs : 0 <= a -> a + mlen bs <= mlen m -> bytes_at (splice m (Z.to_nat a) bs) a (mlen bs) = bs.
Proof.
  intros Ha H. apply byte_at_ext.
  - rewrite bytes_at_length. unfold mlen. lia.
  - intros k K. unfold mlen in K. rewrite bytes_at_length in K. rewrite bytes_at_byte by (unfold mlen in *; lia).
    rewrite splice_byte_at by lia. replace ((a <=? a + k) && (a + k <? a + mlen bs)) with true by (unfold mlen in *; lia). f_equal. lia.
Qed.

Lemma mlen_encode n z : mlen (le_encode n z) = Z.of_nat n.
Proof. unfold mlen. now rewrite le_encode_length. Qed.
Lemma splice_stored m a n z : 0 <= a -> a + Z.of_nat n <= mlen m -> stored m (splice m (Z.to_nat a) (le_encode n z)) a (Z.of_nat n) z.
Proof.
  intros Ha H. split.
  - apply splice_length. rewrite le_encode_length. unfold mlen in H. lia.
  - intros k K. rewrite splice_byte_at by (rewrite ?mlen_encode; lia). rewrite mlen_encode. destruct ((a <=? k) && (k <? a + Z.of_nat n)) eqn:E; auto.
    unfold byte_at. rewrite le_encode_nth by lia. now rewrite Z2Nat.id by lia.
Qed.

(** ** iovecs *)
Lemma u32_at_ok m o : 0 <= o -> o + 4 <= mlen m -> mlen m <= 2 ^ 32 -> u32_at m o = Some (u32le m o).
Proof.
  intros Ho H Hm. unfold u32_at, idx.
  assert (G : forall k, 0 <= k < 4 -> nth_error m (Z.to_nat (usize (o + k))) = Some (byte_at m (o + k))).
  { intros k K. rewrite usize_id by lia. unfold byte_at. apply nth_error_nth'. unfold mlen in H. lia. }
  rewrite <- (Z.add_0_r o) at 1. rewrite !G by lia. rewrite !Z.add_0_r. f_equal.
  unfold u32le. cbn [le_sum le_decode]. replace (o + 1 + 1) with (o + 2) by lia. replace (o + 2 + 1) with (o + 3) by lia. auto.
Qed.
Lemma u32le_range m a : bytes_ok m -> 0 <= u32le m a < 2 ^ 32.
Proof.
  intros H. unfold u32le. cbn [le_sum]. pose proof (byte_at_ok m a H). pose proof (byte_at_ok m (a + 1) H). pose proof (byte_at_ok m (a + 1 + 1) H). pose proof (byte_at_ok m (a + 1 + 1 + 1) H).
  unfold is_byte in *. lia.
Qed.
Definition view (b : Z * Z) : option Z * Z := if snd b =? 0 then (None, 0) else (Some (fst b), snd b).
Definition entry_in (m : list Z) (p j : Z) : Prop :=
  p + 8 * j + 8 <= mlen m /\ (snd (iovec m p j) <> 0 -> fst (iovec m p j) + snd (iovec m p j) <= mlen m).
Definition entries (m : list Z) (p i : Z) (n : nat) : list (Z * Z) := map (fun k => iovec m p (i + Z.of_nat k)) (seq 0 n).
Lemma entries_S m p i n : entries m p i (S n) = iovec m p i :: entries m p (i + 1) n.
Proof. unfold entries. cbn [seq map]. f_equal; [f_equal; lia|]. rewrite <- seq_shift, map_map. apply map_ext. intros k. f_equal. lia. Qed.
Lemma entries_table m p n : entries m p 0 (Z.to_nat n) = table m p n.
Proof. unfold entries, table, range. rewrite map_map. reflexivity. Qed.

Lemma iovecs_checked m : bytes_ok m -> mlen m <= isize_max -> forall n p i, 0 <= p -> 0 <= i -> p + 8 * i + 8 < 2 ^ 32 ->
  (forall j, i <= j < i + Z.of_nat n -> p + 8 * j + 8 <= mlen m -> fst (iovec m p j) + snd (iovec m p j) < 2 ^ 32) ->
  (iovecs true m p i n = IOk (map view (entries m p i n)) /\ forall j, i <= j < i + Z.of_nat n -> entry_in m p j) \/
  (iovecs true m p i n = IFault /\ ~ forall j, i <= j < i + Z.of_nat n -> entry_in m p j).
Proof.
  intros B L. unfold isize_max in L. induction n as [|n IH]; intros p i Hp Hi Hw Hb.
  - left. split; [reflexivity|]. intros j J. lia.
  - cbn [iovecs]. rewrite (usize_id (i * 8)) by lia. rewrite (usize_id (p + i * 8)) by lia. rewrite (usize_id (p + i * 8 + 8)) by lia. cbn [andb].
    replace (p + i * 8) with (p + 8 * i) by lia.
    destruct (Z.ltb_spec (mlen m) (p + 8 * i + 8)) as [F|F].
    { right. split; [reflexivity|]. intros A. destruct (A i ltac:(lia)) as [A1 _]. lia. }
    rewrite !u32_at_ok by lia.
    assert (T : (forall j, i + 1 <= j < i + 1 + Z.of_nat n -> p + 8 * j + 8 <= mlen m -> fst (iovec m p j) + snd (iovec m p j) < 2 ^ 32)).
    { intros j J. apply Hb. lia. }
    specialize (IH p (i + 1) Hp ltac:(lia) ltac:(lia) T). specialize (Hb i ltac:(lia) F).
    pose proof (u32le_range m (p + 8 * i) B). pose proof (u32le_range m (p + 8 * i + 4) B).
    assert (STEP : entry_in m p i -> (forall j, i + 1 <= j < i + 1 + Z.of_nat n -> entry_in m p j) -> forall j, i <= j < i + Z.of_nat (S n) -> entry_in m p j).
    { intros E1 E2 j J. destruct (Z.eq_dec j i) as [->|N]; auto. apply E2. lia. }
    assert (TAIL : ~ (forall j, i + 1 <= j < i + 1 + Z.of_nat n -> entry_in m p j) -> ~ forall j, i <= j < i + Z.of_nat (S n) -> entry_in m p j).
    { intros N A. apply N. intros j J. apply A. lia. }
    rewrite entries_S. cbn [map]. unfold view at 1. cbn [iovec fst snd] in Hb |- *.
    destruct (Z.eqb_spec (u32le m (p + 8 * i + 4)) 0) as [Z0|Z0].
    + destruct IH as [[-> A]|[-> A]]; [left|right]; split; auto. apply STEP; auto. split; [lia|]. cbn [iovec fst snd]. lia.
    + rewrite usize_id by lia. destruct (Z.ltb_spec (mlen m) (u32le m (p + 8 * i) + u32le m (p + 8 * i + 4))) as [G|G].
      { right. split; [reflexivity|]. intros A. destruct (A i ltac:(lia)) as [_ A2]. cbn [iovec fst snd] in A2. lia. }
      destruct IH as [[-> A]|[-> A]]; [left|right]; split; auto. apply STEP; auto. split; [lia|]. cbn [iovec fst snd]. lia.
Qed.
Lemma iovecs_unchecked m : mlen m <= isize_max -> forall n p i, 0 <= p -> 0 <= i -> p + 8 * (i + Z.of_nat n) <= mlen m ->
  iovecs false m p i n = IOk (map view (entries m p i n)).
Proof.
  intros L. unfold isize_max in L. induction n as [|n IH]; intros p i Hp Hi H; [reflexivity|].
  cbn [iovecs]. rewrite (usize_id (i * 8)) by lia. rewrite (usize_id (p + i * 8)) by lia. cbn [andb].
  replace (p + i * 8) with (p + 8 * i) by lia. rewrite !u32_at_ok by lia. rewrite IH by lia. rewrite entries_S. cbn [map]. change (view (iovec m p i)) with (if u32le m (p + 8 * i + 4) =? 0 then (@None Z, 0) else (Some (u32le m (p + 8 * i)), u32le m (p + 8 * i + 4))).
  now destruct (u32le m (p + 8 * i + 4) =? 0).
Qed.

(** ** gathering and scattering *)
Lemma gather_view m l : (forall a n, In (a, n) l -> 0 <= a /\ 0 <= n) -> buffers_in m l ->
  gather m (map view l) = Ok (map (byte_at m) (addresses l)).
Proof.
  induction l as [|[a n] l IH]; intros P B; [reflexivity|].
  assert (B' : buffers_in m l) by (intros x k I; apply B; now right).
  assert (P' : forall x k, In (x, k) l -> 0 <= x /\ 0 <= k) by (intros x k I; apply P; now right).
  destruct (P a n (or_introl eq_refl)) as [P1 P2].
  cbn [map gather]. unfold view at 1. cbn [fst snd]. unfold addresses. cbn [map concat fst snd]. rewrite map_app.
  destruct (Z.eqb_spec n 0) as [->|N].
  - cbn [null_or fst snd]. change (0 =? 0) with true. cbv iota. cbn [bind]. rewrite IH by auto. reflexivity.
  - cbn [null_or fst snd]. destruct (Z.eqb_spec n 0) as [|_]; [contradiction|]. assert (BN : a + n <= mlen m) by (apply (B a n); [now left|auto]). rewrite raw_read_ok by auto.
    cbn [bind]. rewrite IH by auto. reflexivity.
Qed.
Lemma put_length l : forall m d, length (put m l d) = length m.
Proof. induction l as [|a l IH]; intros m [|b d]; cbn [put]; auto. now rewrite IH, upd_length. Qed.
Lemma put_app l1 : forall m l2 d, put m (l1 ++ l2) d = put (put m l1 (firstn (length l1) d)) l2 (skipn (length l1) d).
Proof.
  induction l1 as [|a l1 IH]; intros m l2 d; cbn [app length firstn skipn]; [now destruct d|].
  destruct d as [|b d]; cbn [put]; [now destruct l2|]. apply IH.
Qed.
Lemma upd_splice m p b bs : (p + S (length bs) <= length m)%nat -> splice m p (b :: bs) = splice (upd m p b) (S p) bs.
Proof.
  intros H. unfold splice.
  assert (G : forall (m : list Z) p b, (p < length m)%nat -> upd m p b = firstn p m ++ b :: skipn (S p) m).
  { clear. induction m as [|x m IH]; intros [|p] b H; cbn in H; try lia; cbn [upd firstn skipn app]; auto. f_equal. apply IH. lia. }
  rewrite G by lia. assert (F : length (firstn p m) = p) by (rewrite firstn_length; lia).
  assert (SS : forall (i j : nat) (q : list Z), skipn i (skipn j q) = skipn (j + i) q).
  { clear. intros i j. induction j as [|j IH]; intros q; [reflexivity|]. destruct q; [now rewrite !skipn_nil|]. cbn [skipn plus]. apply IH. }
  assert (E1 : firstn (S p) (firstn p m ++ b :: skipn (S p) m) = firstn p m ++ [b]).
  { replace (S p) with (length (firstn p m) + 1)%nat at 1 by lia. rewrite firstn_app_2. reflexivity. }
  assert (E2 : skipn (S p + length bs) (firstn p m ++ b :: skipn (S p) m) = skipn (S p + length bs) m).
  { rewrite skipn_app, (skipn_all2 (firstn p m)) by lia. rewrite F. replace (S p + length bs - p)%nat with (S (length bs)) by lia. rewrite skipn_cons, SS. reflexivity. }
  rewrite E1, E2, <- app_assoc. cbn [app length]. do 4 f_equal. lia.
Qed.
Lemma put_range bs : forall m a, 0 <= a -> a + mlen bs <= mlen m -> put m (range a (mlen bs)) bs = splice m (Z.to_nat a) bs.
Proof.
  induction bs as [|b bs IH]; intros m a Ha H.
  - unfold splice. cbn [length app]. rewrite Nat.add_0_r, firstn_skipn. reflexivity.
  - unfold mlen in *. cbn [length] in *. rewrite range_S by lia. cbn [put]. replace (Z.of_nat (S (length bs)) - 1) with (Z.of_nat (length bs)) by lia.
    rewrite IH by (rewrite ?upd_length; lia). rewrite upd_splice by lia. f_equal. lia.
Qed.
Lemma put_firstn l : forall m d, put m (firstn (length d) l) d = put m l d.
Proof. induction l as [|a l IH]; intros m [|b d]; cbn [length firstn put]; auto. Qed.
Lemma range_firstn a n k : (k <= Z.to_nat n)%nat -> firstn k (range a n) = range a (Z.of_nat k).
Proof.
  intros H. unfold range. rewrite Nat2Z.id, firstn_map. f_equal. replace (Z.to_nat n) with (k + (Z.to_nat n - k))%nat by lia.
  rewrite seq_app, firstn_app, seq_length, Nat.sub_diag. cbn [firstn]. rewrite app_nil_r. apply firstn_all2. now rewrite seq_length.
Qed.
Lemma scatter_cons m b l d : d <> [] -> scatter m (b :: l) d =
  match null_or b with
  | None => UB
  | Some (a, n) => let* m := match firstn (Z.to_nat n) d with [] => Ok m | _ => raw_write m a (firstn (Z.to_nat n) d) end in scatter m l (skipn (Z.to_nat n) d)
  end.
Proof. intros H. destruct d; [contradiction|]. reflexivity. Qed.
Lemma scatter_view l : (forall a n, In (a, n) l -> 0 <= a /\ 0 <= n) -> forall m d, buffers_in m l -> (length d <= length (addresses l))%nat ->
  scatter m (map view l) d = Ok (put m (addresses l) d).
Proof.
  induction l as [|[a n] l IH]; intros P m d B H.
  - destruct d; [reflexivity|]. cbn in H. lia.
  - destruct (P a n (or_introl eq_refl)) as [P1 P2].
    assert (P' : forall x k, In (x, k) l -> 0 <= x /\ 0 <= k) by (intros x k I; apply P; now right).
    unfold addresses. cbn [map concat fst snd]. change (concat (map (fun b : Z * Z => range (fst b) (snd b)) l)) with (addresses l).
    destruct d as [|b0 d0]. { cbn [map scatter]. now destruct (range a n ++ addresses l). }
    set (d := b0 :: d0) in *. assert (D : d <> []) by discriminate. clearbody d. cbn [map]. rewrite scatter_cons by auto.
    unfold addresses in H. cbn [map concat fst snd] in H. rewrite app_length, range_length in H. fold (addresses l) in H.
    rewrite put_app, range_length.
    unfold view at 1. cbn [fst snd]. destruct (Z.eqb_spec n 0) as [->|N].
    + cbn [null_or fst snd]. change (0 =? 0) with true. cbv iota. change (Z.to_nat 0) with 0%nat in *. cbn [firstn skipn bind].
      change (range a 0) with (@nil Z). cbn [put]. apply IH; auto.
      intros x k I. apply B. now right.
    + cbn [null_or fst snd].
      assert (BN : a + n <= mlen m) by (apply (B a n); [now left|auto]).
      set (x := firstn (Z.to_nat n) d). assert (X : mlen x <= n) by (unfold mlen, x; rewrite firstn_length; lia).
      assert (E : (match x with [] => Ok m | _ => raw_write m a x end) = Ok (splice m (Z.to_nat a) x)).
      { destruct x eqn:E; [|now rewrite raw_write_ok by lia]. unfold splice. cbn [length app]. now rewrite Nat.add_0_r, firstn_skipn. }
      rewrite E. cbn [bind]. rewrite IH; auto.
      * f_equal. f_equal. rewrite <- put_range by lia. rewrite <- (put_firstn (range a n)). f_equal.
        rewrite range_firstn by (unfold x; rewrite firstn_length; lia). reflexivity.
      * intros y k I K. rewrite splice_mlen by lia. apply B; [now right|auto].
      * rewrite skipn_length. lia.
Qed.

Lemma in_table m p n a k : In (a, k) (table m p n) <-> exists i, 0 <= i < n /\ iovec m p i = (a, k).
Proof. unfold table. rewrite in_map_iff. split; intros (i & A & B); exists i.
  - apply in_range in B. split; [lia|auto].
  - split; [auto|]. apply in_range. lia. Qed.
Lemma entries_in m p n : (forall j, 0 <= j < n -> entry_in m p j) <-> table_in m p n /\ buffers_in m (table m p n).
Proof.
  unfold table_in, buffers_in, entry_in. split.
  - intros H. split; [intros i I; apply H; auto|]. intros a k I N. apply in_table in I as (i & I & E). specialize (H i I). rewrite E in H. cbn in H. now apply H.
  - intros [H1 H2] j J. split; auto. intros N. apply H2; auto. apply in_table. exists j. now destruct (iovec m p j).
Qed.
Lemma table_pos m p n : bytes_ok m -> forall a k, In (a, k) (table m p n) -> 0 <= a /\ 0 <= k.
Proof.
  intros B a k I. apply in_table in I as (i & _ & E). pose proof (f_equal fst E) as E1. pose proof (f_equal snd E) as E2. cbn [iovec fst snd] in E1, E2. subst a k.
  pose proof (u32le_range m (p + 8 * i) B). pose proof (u32le_range m (p + 8 * i + 4) B). lia.
Qed.
Lemma u32_addr z : Wasi.u32 z = addr z. Proof. reflexivity. Qed.
Lemma addr_range z : 0 <= addr z < 2 ^ 32. Proof. unfold addr. apply Z.mod_pos_bound. lia. Qed.
Lemma cast_small e : 0 <= e < 2 ^ 16 -> cast_s 32 e = e.
Proof. intros H. unfold cast_s. rewrite Z.mod_small by lia. now replace (e <? 2 ^ (32 - 1)) with true by lia. Qed.
Lemma iovs_false m p n : mlen m <= isize_max -> 0 <= p -> 0 <= n < 2 ^ 28 -> p + 8 * n <= mlen m -> iovs false m p n = IOk (map view (table m p n)).
Proof.
  intros L P N H. unfold iovs. replace (isize_max <? 8 * n) with false by (unfold isize_max in *; lia).
  rewrite iovecs_unchecked by lia. now rewrite entries_table.
Qed.
Lemma view_table l : Forall2 (fun (b : Z * Z) (h : option Z * Z) => snd h = snd b /\ (snd b <> 0 -> fst h = Some (fst b))) l (map view l).
Proof.
  induction l as [|[a n] l IH]; constructor; auto. unfold view. cbn [fst snd]. destruct (Z.eqb_spec n 0); cbn [fst snd]; split; auto; try lia.
Qed.

(** ** argument lists *)
Lemma mlen_app a b : mlen (a ++ b) = mlen a + mlen b. Proof. unfold mlen. rewrite app_length. lia. Qed.
Lemma mlen_pos a : 0 <= mlen a. Proof. unfold mlen. lia. Qed.
Lemma byte_at_app1 x y k : 0 <= k < mlen x -> byte_at (x ++ y) k = byte_at x k.
Proof. intros H. unfold byte_at, mlen in *. apply app_nth1. lia. Qed.
Lemma byte_at_app2 x y k : 0 <= k -> byte_at (x ++ y) (mlen x + k) = byte_at y k.
Proof. intros H. unfold byte_at, mlen. rewrite app_nth2 by lia. f_equal. lia. Qed.
Lemma u32le_ext m m' a a' : (forall k, 0 <= k < 4 -> byte_at m (a + k) = byte_at m' (a' + k)) -> u32le m a = u32le m' a'.
Proof. intros H. apply le_sum_ext. exact H. Qed.
Lemma u32le_encode z r : 0 <= z < 2 ^ 32 -> u32le (le_encode 4 z ++ r) 0 = z.
Proof.
  intros H. rewrite (u32le_ext _ (le_encode 4 z) 0 0).
  - unfold u32le. rewrite le_sum_decode by (rewrite ?mlen_encode; lia). cbn [skipn Z.to_nat]. change 4%nat with (length (le_encode 4 z)) at 1.
    rewrite firstn_all, le_decode_encode. apply Z.mod_small. exact H.
  - intros k K. apply byte_at_app1. rewrite mlen_encode. lia.
Qed.
Lemma u32le_app2 x y k : 0 <= k -> u32le (x ++ y) (mlen x + k) = u32le y k.
Proof. intros H. apply u32le_ext. intros j J. rewrite <- Z.add_assoc. apply byte_at_app2. lia. Qed.
Lemma total_app a b : total (a ++ b) = total a + total b.
Proof. unfold total. induction a as [|x a IH]; cbn [app fold_right]; lia. Qed.
Lemma total_pos l : 0 <= total l. Proof. unfold total. induction l as [|x l IH]; cbn [fold_right]; [lia|]. pose proof (mlen_pos x). lia. Qed.
Lemma total_firstn_le i l s : nth_error l i = Some s -> total (firstn i l) + mlen s + 1 <= total l.
Proof.
  intros N. apply nth_error_split in N as (l1 & l2 & -> & <-). rewrite firstn_app, Nat.sub_diag, firstn_all, app_nil_r, total_app.
  unfold total at 3. cbn [fold_right]. pose proof (total_pos l2). unfold total in *. lia.
Qed.
Lemma args_buf_len l : mlen (args_buf l) = total l.
Proof.
  unfold args_buf, total. induction l as [|x l IH]; [reflexivity|]. cbn [map concat fold_right]. rewrite !mlen_app, IH. change (mlen [0]) with 1. lia.
Qed.
Lemma args_ptrs_len b l : forall off, mlen (args_ptrs b off l) = 4 * Z.of_nat (length l) + 4.
Proof. induction l as [|x l IH]; intros off; cbn [args_ptrs length]; rewrite ?mlen_app, ?mlen_encode, ?IH; lia. Qed.
Lemma args_ptr b l : forall off i, (i < length l)%nat -> 0 <= off -> 0 <= b -> b + off + total l < 2 ^ 32 ->
  u32le (args_ptrs b off l) (4 * Z.of_nat i) = b + off + total (firstn i l).
Proof.
  induction l as [|x l IH]; intros off i I O B T; cbn [length] in I; [lia|].
  unfold total in T. cbn [fold_right] in T. fold (total l) in T. pose proof (total_pos l). pose proof (mlen_pos x).
  cbn [args_ptrs]. assert (V : usize (b + Wasi.u32 off) = b + off).
  { change (Wasi.u32 off) with (off mod 2 ^ 32). rewrite Z.mod_small by lia. apply usize_id. lia. }
  rewrite V. destruct i as [|i]; cbn [firstn].
  - unfold total. cbn [fold_right]. change (4 * Z.of_nat 0) with 0. rewrite u32le_encode by lia. lia.
  - replace (4 * Z.of_nat (S i)) with (mlen (le_encode 4 (b + off)) + 4 * Z.of_nat i) by (rewrite mlen_encode; lia).
    rewrite u32le_app2 by lia. rewrite IH by lia. unfold total. cbn [fold_right]. lia.
Qed.
Lemma args_string l : forall i s, nth_error l i = Some s -> string_at (args_buf l) (total (firstn i l)) s.
Proof.
  intros i s N. apply nth_error_split in N as (l1 & l2 & -> & <-). rewrite firstn_app, Nat.sub_diag, firstn_all. cbn [firstn]. rewrite app_nil_r.
  assert (E : args_buf (l1 ++ s :: l2) = args_buf l1 ++ s ++ [0] ++ args_buf l2).
  { unfold args_buf. rewrite map_app, concat_app. cbn [map concat]. now rewrite <- app_assoc. }
  rewrite E, <- args_buf_len. pose proof (mlen_pos s). split.
  - apply byte_at_ext; [rewrite bytes_at_length; unfold mlen; lia|]. intros k K0. assert (K : 0 <= k < mlen s) by (unfold mlen in *; rewrite bytes_at_length in K0; lia).
    rewrite bytes_at_byte by lia. rewrite byte_at_app2 by lia. apply byte_at_app1. lia.
  - rewrite byte_at_app2 by lia. rewrite <- (Z.add_0_r (mlen s)), byte_at_app2 by lia. reflexivity.
Qed.
(** two writes, the second over the first *)
Lemma two_writes m p x b y k : 0 <= p -> p + mlen x <= mlen m -> 0 <= b -> b + mlen y <= mlen m ->
  wstore m p x (fun m => wstore m b y k) = k (splice (splice m (Z.to_nat p) x) (Z.to_nat b) y).
Proof. intros. unfold wstore. rewrite raw_write_ok by lia. rewrite raw_write_ok by (rewrite ?splice_mlen; lia). reflexivity. Qed.
Lemma two_bytes m p x b y k : 0 <= p -> p + mlen x <= mlen m -> 0 <= b -> b + mlen y <= mlen m -> 0 <= k ->
  byte_at (splice (splice m (Z.to_nat p) x) (Z.to_nat b) y) k =
  if (b <=? k) && (k <? b + mlen y) then byte_at y (k - b) else if (p <=? k) && (k <? p + mlen x) then byte_at x (k - p) else byte_at m k.
Proof. intros. rewrite splice_byte_at by (rewrite ?splice_mlen; lia). now rewrite splice_byte_at by lia. Qed.
Lemma string_at_splice m b y o s : 0 <= b -> b + mlen y <= mlen m -> 0 <= o -> o + mlen s + 1 <= mlen y ->
  string_at y o s -> string_at (splice m (Z.to_nat b) y) (b + o) s.
Proof.
  intros B Y O L [S1 S2]. pose proof (mlen_pos s). split.
  - rewrite <- S1 at 2. apply byte_at_ext; [now rewrite !bytes_at_length|]. intros k K0. assert (K : 0 <= k < mlen s) by (unfold mlen in *; rewrite bytes_at_length in K0; lia).
    rewrite !bytes_at_byte by lia. rewrite splice_byte_at by lia. replace ((b <=? b + o + k) && (b + o + k <? b + mlen y)) with true by lia. f_equal. lia.
  - rewrite splice_byte_at by lia. replace ((b <=? b + o + mlen s) && (b + o + mlen s <? b + mlen y)) with true by lia. rewrite <- S2. f_equal. lia.
Qed.

Lemma environ_ptrs_len b n ps : mlen (environ_ptrs b n ps) = 4 * Z.of_nat n + 4.
Proof.
  unfold environ_ptrs. rewrite mlen_app, mlen_encode.
  assert (G : forall f a k, mlen (concat (map (fun i => le_encode 4 (f i)) (seq a k))) = 4 * Z.of_nat k).
  { intros f a k. revert a. induction k as [|k IH]; intros a; cbn [seq map concat]; [reflexivity|]. rewrite mlen_app, mlen_encode, IH. lia. }
  rewrite G. lia.
Qed.
Lemma environ_ptr b n ps i o : (i < n)%nat -> nth i ps None = Some o -> 0 <= o -> 0 <= b -> b + o < 2 ^ 32 ->
  u32le (environ_ptrs b n ps) (4 * Z.of_nat i) = b + o.
Proof.
  intros I N O B L. unfold environ_ptrs.
  set (f := fun i => match nth i ps None with Some o => usize (b + Wasi.u32 o) | None => 0 end).
  assert (F : f i = b + o). { unfold f. rewrite N. change (Wasi.u32 o) with (o mod 2 ^ 32). rewrite Z.mod_small by lia. apply usize_id. lia. }
  assert (G : forall k a j r, (j < k)%nat -> f (a + j)%nat = b + o -> u32le (concat (map (fun i => le_encode 4 (f i)) (seq a k)) ++ r) (4 * Z.of_nat j) = b + o).
  { induction k as [|k IH]; intros a j r J FJ; [lia|]. cbn [seq map concat]. rewrite <- app_assoc. destruct j as [|j].
    - rewrite Nat.add_0_r in FJ. rewrite FJ. change (4 * Z.of_nat 0) with 0. apply u32le_encode. lia.
    - replace (4 * Z.of_nat (S j)) with (mlen (le_encode 4 (f a)) + 4 * Z.of_nat j) by (rewrite mlen_encode; lia). rewrite u32le_app2 by lia. apply IH; [lia|]. rewrite <- FJ. f_equal. lia. }
  apply (G n 0%nat i); auto.
Qed.
