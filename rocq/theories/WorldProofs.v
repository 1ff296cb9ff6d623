(** Running on the host through the interpreter's WASI functions is running on it directly. *)
From Coq Require Import ZArith List Bool Lia.
From Verif Require Import Word Value Numeric Float Mem WasmMem MemProofs Store Regs IR Machine Wasm Decoder Check Sim Restrict WasmPrims PrimFacts Soundness Correct ExecFacts
  Wasi WasiSpec WasiProofs Properties_Host WorldSpec World.
From Verif Require WasmTyping ModuleSpec Module TotalSpec Total Load LoadSpec Runtime MainProofs.
Import ListNotations.
Open Scope nat_scope.

(** ** runs depend only on the answers to the calls they make *)
Section Agree.
  Variables (P : prims) (h1 h2 : hostfn) (M : smodule) (A : list event -> Prop).
  Hypothesis closed : forall e l, A (e :: l) -> A l.
  Hypothesis same : forall l, A l -> h2 l = h1 l.
  Definition log_of (o : Wasm.out) : option (list event) :=
    match o with ONorm _ x | OBr _ _ x | ORet _ x => Some (x_log x) | OTrap _ l | OExit _ l => Some l | _ => None end.
  Definition ag (l0 : list event) (o1 o2 : Wasm.out) : Prop := forall l, log_of o1 = Some l -> A l -> o2 = o1 /\ A l0.
  Lemma ag_eq l0 o1 o2 : o2 = o1 -> (forall l, log_of o1 = Some l -> l = l0) -> ag l0 o1 o2.
  Proof. intros E H l L K. split; auto. now rewrite <- (H l L). Qed.
  Lemma ag_none l0 o1 o2 : log_of o1 = None -> ag l0 o1 o2.
  Proof. intros E l H. congruence. Qed.
  (** the result of a part, then the rest *)
  Lemma ag_seq l0 o1 o2 (k1 k2 : Wasm.out -> Wasm.out) :
    ag l0 o1 o2 ->
    (log_of o1 = None -> log_of (k1 o1) = None) ->
    (forall l, log_of o1 = Some l -> ag l (k1 o1) (k2 o1)) ->
    ag l0 (k1 o1) (k2 o2).
  Proof.
    intros H N K l L Al. destruct (log_of o1) as [l1|] eqn:E; [|rewrite N in L by auto; discriminate].
    destruct (K l1 eq_refl l L Al) as [K1 K2]. destruct (H l1 E K2) as [-> H2]. auto.
  Qed.
  Lemma ag_host w t args x k1 k2 : (forall vs y, ag (x_log y) (k1 vs y) (k2 vs y)) -> ag (x_log x) (do_host h1 w t args x k1) (do_host h2 w t args x k2).
  Proof.
    intros K l L Al. unfold do_host in *. cbv zeta in *. set (log := (w, args, mem_view (x_inst x)) :: x_log x) in *.
    assert (AL : A log).
    { destruct (h1 log) as [| | |z|o ws]; cbn in L; try discriminate; try (injection L as <-; exact Al).
      destruct (host_vals (snd t) o) as [vs|]; [|discriminate]. now destruct (K _ _ l L Al). }
    rewrite (same _ AL). split; [|now apply closed in AL].
    destruct (h1 log) as [| | |z|o ws]; auto. destruct (host_vals (snd t) o) as [vs|]; auto. now destruct (K _ _ l L Al).
  Qed.
  Lemma ag_finish l0 loc o1 o2 k1 k2 : ag l0 o1 o2 -> (forall vs y, ag (x_log y) (k1 vs y) (k2 vs y)) -> ag l0 (finish loc o1 k1) (finish loc o2 k2).
  Proof.
    intros H K. apply (ag_seq l0 o1 o2 (fun o => finish loc o k1) (fun o => finish loc o k2) H).
    - destruct o1 as [| [|] | | | | | |]; cbn; congruence.
    - intros l L. destruct o1 as [vs y| [|d] vs y |vs y| | | | |]; cbn in *; try discriminate; injection L as <-; first [apply (K vs (with_loc y loc)) | now apply ag_none | apply ag_eq; auto; cbn; congruence].
  Qed.
  Lemma ag_call n d args x k1 k2 :
    match n with O => True | S n' => forall c ls stk x, ag (x_log x) (exec P h1 M n' ls c stk x) (exec P h2 M n' ls c stk x) end ->
    (forall vs y, ag (x_log y) (k1 vs y) (k2 vs y)) -> ag (x_log x) (callf P h1 M n d args x k1) (callf P h2 M n d args x k2).
  Proof.
    intros IHn K. unfold callf. destruct n as [|n]; [now apply ag_none|].
    destruct (p_defaults P (sf_locals d)) as [ds| |]; [|apply ag_eq; cbn; congruence|now apply ag_none].
    apply ag_finish; auto. apply (IHn (sf_body d) [length (snd (sf_type d))] [] (with_loc x (args ++ ds))).
  Qed.
  (** the rest of a block, by how its body ended *)
  Definition after (kn kb : list val -> sst -> Wasm.out) (o : Wasm.out) : Wasm.out :=
    match o with ONorm vs x => kn vs x | OBr O vs x => kb vs x | OBr (S d) vs x => OBr d vs x | ORet v x => ORet v x | OTrap t l => OTrap t l | OExit z l => OExit z l | OUB => OUB | OFuel => OFuel | OStuck => OStuck end.
  Lemma ag_after l0 o1 o2 kn1 kb1 kn2 kb2 : ag l0 o1 o2 -> (forall vs y, ag (x_log y) (kn1 vs y) (kn2 vs y)) -> (forall vs y, ag (x_log y) (kb1 vs y) (kb2 vs y)) ->
    ag l0 (after kn1 kb1 o1) (after kn2 kb2 o2).
  Proof.
    intros H N B. apply (ag_seq l0 o1 o2 (after kn1 kb1) (after kn2 kb2) H).
    - destruct o1 as [| [|] | | | | | |]; cbn; congruence.
    - intros l L. destruct o1 as [vs y| [|d] vs y |vs y| | | | |]; cbn in *; try discriminate; injection L as <-; auto; apply ag_eq; auto; cbn; congruence.
  Qed.
  Ltac leaf := first [now apply ag_none | apply ag_eq; [reflexivity|cbn; congruence]].
  Lemma exec_hosts n : forall c ls stk x, ag (x_log x) (exec P h1 M n ls c stk x) (exec P h2 M n ls c stk x).
  Proof.
    induction n as [n IHn] using lt_wf_ind.
    assert (IH1 : match n with O => True | S n' => forall c ls stk x, ag (x_log x) (exec P h1 M n' ls c stk x) (exec P h2 M n' ls c stk x) end) by (destruct n; auto).
    clear IHn.
    induction c as [|b k IHk|lp ps rs body IHb k IHk|ps rs th IHt k IHk|ps rs th IHt el IHe k IHk|d k IHk|d k IHk|ds d k IHk|k IHk|k IHk|f k IHk|ty tb k IHk];
      intros ls stk x; try (destruct n; cbn; leaf; fail);
      try (assert (E : forall h, exec P h M n ls (CBr d k) stk x = match nth_error ls d with Some a => OBr d (firstn a stk) x | None => OStuck end) by (destruct n; reflexivity);
           rewrite !E; destruct (nth_error ls d); leaf);
      try (assert (E : forall h, exec P h M n ls (CBrTable ds d k) stk x = match stk with VI32 i :: stk => match nth_error ls (nth (Z.to_nat (i mod 2 ^ 32)) ds d) with Some a => OBr (nth (Z.to_nat (i mod 2 ^ 32)) ds d) (firstn a stk) x | None => OStuck end | _ => OStuck end) by (destruct n; reflexivity);
           rewrite !E; destruct stk as [|[i| | | | | ] stk]; try leaf; destruct (nth_error ls _); leaf).
    - rewrite !exec_basic. destruct (bexec P b stk x) as [[[s y]| |]|] eqn:B; cbn [lift]; try leaf.
      assert (E : x_log y = x_log x).
      { destruct b; cbn in B; repeat match type of B with match ?e with _ => _ end = _ => destruct e; try discriminate | Some (if ?e then _ else _) = _ => destruct e | (if ?e then _ else _) = _ => destruct e; try discriminate end; try (injection B as _ <-; reflexivity).
        injection B as B. destruct (p_op P o (x_inst x) _) as [r| |]; cbn [bind] in B; try discriminate. injection B as _ <-. reflexivity. }
      rewrite <- E. apply IHk.
    - rewrite !exec_block. destruct (take (length ps) stk) as [[args rest]|]; [|leaf].
      apply (ag_after (x_log x) (exec P h1 M n ((if lp then length ps else length rs) :: ls) body args x) (exec P h2 M n ((if lp then length ps else length rs) :: ls) body args x) (fun vs x => exec P h1 M n ls k (vs ++ rest) x)
        (fun vs x => if lp then match n with O => OFuel | S n' => exec P h1 M n' ls (CBlock lp ps rs body k) (vs ++ rest) x end else exec P h1 M n ls k (vs ++ rest) x)
        (fun vs x => exec P h2 M n ls k (vs ++ rest) x)
        (fun vs x => if lp then match n with O => OFuel | S n' => exec P h2 M n' ls (CBlock lp ps rs body k) (vs ++ rest) x end else exec P h2 M n ls k (vs ++ rest) x)); auto.
      intros vs y. destruct lp; auto. destruct n; [leaf|auto].
    - rewrite !exec_if. destruct stk as [|cv stk]; [leaf|]. destruct (is_true cv) as [b|]; [|leaf]. destruct (take (length ps) stk) as [[args rest]|]; [|leaf].
      destruct b; auto.
      apply (ag_after (x_log x) (exec P h1 M n (length rs :: ls) th args x) (exec P h2 M n (length rs :: ls) th args x) (fun vs x => exec P h1 M n ls k (vs ++ rest) x) (fun vs x => exec P h1 M n ls k (vs ++ rest) x)
        (fun vs x => exec P h2 M n ls k (vs ++ rest) x) (fun vs x => exec P h2 M n ls k (vs ++ rest) x)); auto.
    - rewrite !exec_ifelse. destruct stk as [|cv stk]; [leaf|]. destruct (is_true cv) as [b|]; [|leaf]. destruct (take (length ps) stk) as [[args rest]|]; [|leaf].
      apply (ag_after (x_log x) (if b then exec P h1 M n (length rs :: ls) th args x else exec P h1 M n (length rs :: ls) el args x) (if b then exec P h2 M n (length rs :: ls) th args x else exec P h2 M n (length rs :: ls) el args x) (fun vs x => exec P h1 M n ls k (vs ++ rest) x) (fun vs x => exec P h1 M n ls k (vs ++ rest) x)
        (fun vs x => exec P h2 M n ls k (vs ++ rest) x) (fun vs x => exec P h2 M n ls k (vs ++ rest) x)); auto.
      destruct b; auto.
    - rewrite !exec_brif. destruct stk as [|cv stk]; [leaf|]. destruct (is_true cv) as [[|]|]; try leaf; destruct (nth_error ls d); try leaf. auto.
    - rewrite !exec_call. destruct (nth_error (sm_funcs M) f) as [fn|]; [|leaf]. destruct (take _ stk) as [[args rest]|]; [|leaf]. destruct fn as [d|w t].
      + apply ag_call; auto.
      + apply ag_host; auto.
    - rewrite !exec_callind. destruct stk as [|[i| | | | | ] stk]; try leaf. destruct (nth_error (sm_types M) ty) as [t|]; [|leaf]. destruct (take _ stk) as [[args rest]|]; [|leaf].
      destruct (p_func P (i_tables (x_inst x)) tb i) as [f| |]; try leaf.
      destruct (nth_error (sm_funcs M) f) as [fn|] eqn:Nf; [|leaf]. destruct (ftype_eqb _ _); [|leaf]. destruct fn as [d|w tt].
      + apply ag_call; auto.
      + destruct (p_ind_host P); [|leaf]. apply ag_host; auto.
  Qed.
  Lemma invoke_hosts n f args s l : log_of (invoke P h1 M n f args s) = Some l -> A l -> invoke P h2 M n f args s = invoke P h1 M n f args s.
  Proof.
    unfold invoke. destruct (nth_error (sm_funcs M) f) as [[d|w t]|]; try discriminate.
    intros L Al. match goal with |- finish ?loc ?o2 ?k = finish _ ?o1 _ => assert (G : ag [] (finish loc o1 k) (finish loc o2 k)) end.
    { apply ag_finish; [|intros; leaf]. apply (exec_hosts n (sf_body d) _ [] {| x_loc := _; x_inst := s; x_log := [] |}). }
    now destruct (G l L Al).
  Qed.
End Agree.

(** ** one call *)
Open Scope Z_scope.
(** the writes turn the one memory into the other *)
Lemma image_writes m m' : length m' = length m -> fold_left (fun d w => upd d (fst w) (snd w)) (image m m') m = m'.
Proof.
  unfold image. intros L.
  assert (G : forall pre x y, length y = length x ->
    fold_left (fun (d : list Z) w => upd d (fst w) (snd w)) (map (fun t => (fst t, snd (snd t))) (filter (fun t => negb (fst (snd t) =? snd (snd t))) (combine (seq (length pre) (length x)) (combine x y)))) (pre ++ x) = pre ++ y).
  { clear m m' L. intros pre x. revert pre. induction x as [|a x IH]; intros pre [|b y] L; try discriminate; [reflexivity|]. injection L as L.
    cbn [length seq combine filter fst snd]. pose proof (IH (pre ++ [b]) y L) as H. rewrite app_length in H. cbn [length] in H. rewrite Nat.add_1_r, <- !app_assoc in H. cbn [app] in H.
    destruct (Z.eqb_spec a b) as [->|N]; cbn [negb map fold_left fst snd]; [exact H|].
    assert (U : upd (pre ++ a :: x) (length pre) b = pre ++ b :: x). { clear. induction pre as [|c pre IH]; cbn; [reflexivity|]. now rewrite IH. }
    rewrite U. exact H. }
  exact (G [] m m' L).
Qed.
Lemma received_named m ks vs hs : presents m ks vs hs -> Forall (fun s => ~ In 0 s) (paths m ks vs) -> received ks hs = named m ks vs.
Proof.
  induction 1 as [|b z z' ks vs hs E _ H IH|z z' ks vs hs E H IH|z ks vs hs H IH|p n ks vs hs H IH|p n l ks vs hs F H IH|k z ks vs hs H IH]; cbn [paths received named]; intros Z0; auto.
  - now rewrite E, IH.
  - now rewrite E, IH.
  - now rewrite IH.
  - inversion Z0; subst. now rewrite c_string_app, IH by auto.
  - rewrite IH by auto. f_equal. f_equal.
    assert (L : length l = Z.to_nat (addr n)). { rewrite <- (BasicSim.F2_len _ _ _ F). unfold table. now rewrite map_length, range_length. }
    rewrite <- L, firstn_all. clear - F. induction F as [|[a k] [o k'] x y [E1 E2] F IH]; cbn [map]; auto. rewrite IH. f_equal. cbn [fst snd] in *. subst k'.
    unfold some_buffer. cbn [snd]. destruct (Z.eqb_spec k 0) as [|N]; auto. now rewrite (E2 N).
Qed.
Lemma le_bytes_encode n z : le_bytes (Z.of_nat n) z = le_encode n z.
Proof.
  unfold le_bytes, range. rewrite Nat2Z.id, map_map. revert z. induction n as [|n IH]; intros z; [reflexivity|].
  cbn [seq map le_encode]. f_equal; [now rewrite Z.pow_0_r, Z.div_1_r|].
  rewrite <- IH, <- seq_shift, map_map. apply map_ext. intros k. rewrite Zdiv_Zdiv by (try lia; apply Z.pow_nonneg; lia). f_equal. f_equal.
  rewrite Nat2Z.inj_succ, <- Z.add_1_l, !Z.add_0_l, Z.pow_add_r by lia. reflexivity.
Qed.
Lemma poke_splice m a n z : 0 <= a -> a + Z.of_nat n <= mlen m -> poke m a (Z.of_nat n) z = splice m (Z.to_nat a) (le_encode n z).
Proof. intros A L. unfold poke. rewrite le_bytes_encode. rewrite <- put_range; rewrite ?mlen_encode; auto. Qed.
Lemma stored_unique m x y a n z : stored m x a n z -> stored m y a n z -> x = y.
Proof.
  intros [L1 H1] [L2 H2]. apply byte_at_ext; [congruence|]. intros k K. unfold mlen in K. rewrite L1 in K. rewrite H1, H2 by (unfold mlen; lia). reflexivity.
Qed.
Lemma poke_length m a n z : length (poke m a n z) = length m. Proof. apply put_length. Qed.

Lemma drive_call sys env past m f hs k : passed_on f -> Forall (inside m) (spans f (received (signature f) hs)) ->
  drive sys env past m (WCall f hs k) = drive sys env ((f, received (signature f) hs, m) :: past) (r_mem (sys ((f, received (signature f) hs, m) :: past))) (k (sys ((f, received (signature f) hs, m) :: past))).
Proof.
  intros PO S. assert (B : forallb (insideb m) (spans f (received (signature f) hs)) = true).
  { apply forallb_forall. rewrite Forall_forall in S. intros x X. apply Z.leb_le. now apply S. }
  destruct f; cbn [drive]; try rewrite B; auto; exfalso; apply PO; cbn; tauto.
Qed.
(** the outcome of a proper call of a function that is passed on *)
Lemma call_passed sys argv env past f vs m : polite sys -> passed_on f -> f <> ProcExit -> proper_call argv env f vs m ->
  let c := (f, named m (signature f) vs, m) in
  let r := sys (c :: past) in
  drive sys env past m (call_wasi argv (Some m) f vs) =
    (c :: past, WRet (VI32 (r_errno r)) (if r_errno r =? 0 then pokes (r_mem r) (outs (signature f) vs) (r_out r) else r_mem r)).
Proof.
  intros PS PO NX (B & L & A & O & X) c r.
  assert (X' : readable m (signature f) vs /\ Forall (inside m) (spans f (named m (signature f) vs)) /\
        Forall (fun s => ~ In 0 s) (paths m (signature f) vs) /\ (f = RandomGet -> forall p n, vs = [VI32 p; VI32 n] -> addr n <> 0)).
  { destruct f; auto; exfalso; apply PO; cbn; tauto. }
  clear X. destruct X' as (R & S & Z0 & RG).
  destruct (C50_arguments_partial argv m f vs B L PO A R) as (hs & k & C & P).
  { intros ->. cbn [signature] in A. args. eexists _, _. split; [reflexivity|]. now apply (RG eq_refl z z0). }
  rewrite C. rewrite <- (received_named _ _ _ _ P Z0) in S.
  rewrite drive_call by auto. rewrite (received_named _ _ _ _ P Z0). fold c. fold r.
  destruct (PS f (named m (signature f) vs) m past B) as [E ML]. fold c in E, ML. fold r in E, ML.
  pose proof (C50_results argv m f vs hs k r PO NX A C E) as K.
  destruct (outs (signature f) vs) as [|[q n] [|]] eqn:OU; [| |contradiction].
  - rewrite K. cbn [drive pokes]. now destruct (_ =? 0).
  - destruct K as [K1 K2]. destruct (Z.eqb_spec (r_errno r) 0) as [E0|N].
    + inversion O as [|? ? I _]; subst. unfold inside in I. cbn [fst snd] in I. unfold mlen in I. rewrite <- ML in I.
      destruct (K2 E0 I) as (m' & -> & ST). cbn [drive pokes]. rewrite E0. f_equal. f_equal.
      assert (Q : 0 <= q /\ exists j, n = Z.of_nat j).
      { clear - OU A. destruct f; unfold signature, fd in *; args; cbn [outs] in OU; try discriminate; injection OU as <- <-; (split; [apply addr_range|]); first [now exists 4%nat | now exists 8%nat]. }
      destruct Q as (Q & j & ->). eapply stored_unique; [exact ST|]. rewrite poke_splice by auto.
      replace (hd 0 (r_out r)) with (Wasi.out r 0) by (unfold Wasi.out; destruct (r_out r); reflexivity). apply splice_stored; auto.
    + rewrite (K1 N). reflexivity.
Qed.
(** lists of strings *)
Lemma length_total (l : list (list Z)) : Z.of_nat (length l) <= total l.
Proof. unfold total. induction l as [|s l IH]; cbn [length fold_right]; [lia|]. pose proof (mlen_pos s). lia. Qed.
Lemma strings_args l : strings_z l = args_buf l.
Proof. unfold strings_z, args_buf. now rewrite flat_map_concat_map. Qed.
Lemma pointers_len l : forall a, mlen (pointers a l) = 4 * Z.of_nat (length l).
Proof.
  induction l as [|s l IH]; intros a; [reflexivity|]. cbn [pointers length]. rewrite mlen_app, IH. change 4 with (Z.of_nat 4) at 1.
  rewrite (le_bytes_encode 4), mlen_encode. lia.
Qed.
Lemma args_pointers b l : forall off, 0 <= b -> 0 <= off -> b + off + total l < 2 ^ 32 -> args_ptrs b off l = pointers (b + off) l ++ [0; 0; 0; 0].
Proof.
  induction l as [|s l IH]; intros off B O T; [reflexivity|]. cbn [args_ptrs pointers]. unfold total in T. cbn [fold_right] in T. fold (total l) in T.
  pose proof (mlen_pos s). pose proof (total_pos l). rewrite <- app_assoc. f_equal.
  - change 4 with (Z.of_nat 4) at 1. rewrite (le_bytes_encode 4). unfold Wasi.u32, cast_u. rewrite (Z.mod_small off) by lia. now rewrite usize_id by lia.
  - rewrite IH by lia. do 2 f_equal. lia.
Qed.
Lemma env_pointers b l : forall off, 0 <= b -> 0 <= off -> b + off + total l < 2 ^ 32 ->
  concat (map (fun i => le_encode 4 (match nth i (offsets off l) None with Some o => usize (b + Wasi.u32 o) | None => 0 end)) (seq 0 (length l))) = pointers (b + off) l.
Proof.
  induction l as [|s l IH]; intros off B O T; [reflexivity|]. cbn [length seq map concat offsets nth pointers]. unfold total in T. cbn [fold_right] in T. fold (total l) in T.
  pose proof (mlen_pos s). pose proof (total_pos l). f_equal.
  - change 4 with (Z.of_nat 4) at 1. rewrite (le_bytes_encode 4). unfold Wasi.u32, cast_u. rewrite (Z.mod_small off) by lia. now rewrite usize_id by lia.
  - rewrite <- seq_shift, map_map. cbn [nth]. rewrite IH by lia. f_equal. lia.
Qed.
(** the word after the pointers does not matter if it is zero already *)
Lemma list_written m p b l : 0 <= p -> 0 <= b -> zero_after m p b l ->
  splice (splice m (Z.to_nat p) (pointers b l ++ [0; 0; 0; 0])) (Z.to_nat b) (args_buf l) = put_list m p b l.
Proof.
  intros P B (E & BB & D & Z0). pose proof (pointers_len l b) as LP. pose proof (args_buf_len l) as LB. pose proof (total_pos l).
  assert (LQ : mlen (pointers b l ++ [0; 0; 0; 0]) = 4 * Z.of_nat (length l) + 4) by (rewrite mlen_app, LP; reflexivity).
  unfold put_list. rewrite strings_args. replace (range p (4 * Z.of_nat (length l))) with (range p (mlen (pointers b l))) by now rewrite LP.
  replace (range b (total l)) with (range b (mlen (args_buf l))) by now rewrite LB.
  rewrite (put_range (pointers b l)) by lia. rewrite put_range by (rewrite ?splice_mlen; lia).
  apply byte_at_ext; [rewrite !splice_length; unfold mlen in *; rewrite ?splice_length; lia|].
  intros k K. rewrite !splice_mlen in K by (rewrite ?splice_mlen; lia). rewrite !two_bytes by (rewrite ?LQ; lia). rewrite LQ, LP.
  destruct ((b <=? k) && (k <? b + mlen (args_buf l))); auto.
  destruct (Z.leb_spec p k); cbn [andb]; auto. destruct (Z.ltb_spec k (p + 4 * Z.of_nat (length l))).
  - replace (k <? p + (4 * Z.of_nat (length l) + 4)) with true by lia. apply byte_at_app1. lia.
  - destruct (Z.ltb_spec k (p + (4 * Z.of_nat (length l) + 4))); auto.
    pose proof (bytes_at_byte m (p + 4 * Z.of_nat (length l)) 4 (k - (p + 4 * Z.of_nat (length l)))) as Q. rewrite Z0 in Q. specialize (Q ltac:(lia)).
    replace (k - p) with (mlen (pointers b l) + (k - (p + 4 * Z.of_nat (length l)))) by lia. rewrite byte_at_app2 by lia. rewrite Q. f_equal. lia.
Qed.
Lemma sizes_written m p q x y : 0 <= p -> 0 <= q -> p + 4 <= mlen m -> q + 4 <= mlen m ->
  wstore m p (le_encode 4 x) (fun m => wstore m q (le_encode 4 y) (ret 0)) = WEnd (WRet (VI32 0) (poke (poke m p 4 x) q 4 y)).
Proof.
  intros P Q LP LQ. rewrite two_writes by (rewrite ?mlen_encode; lia). unfold ret. f_equal. f_equal.
  change 4 with (Z.of_nat 4). rewrite (poke_splice m p 4) by lia. rewrite poke_splice by (rewrite ?splice_mlen; rewrite ?mlen_encode; lia). reflexivity.
Qed.
Lemma drive_end sys env past m o : drive sys env past m (WEnd o) = (past, o). Proof. reflexivity. Qed.
Lemma call_strings sys argv env past f vs m l : strings_of argv env f = Some l -> total l < 2 ^ 31 -> proper_call argv env f vs m ->
  exists m', drive sys env past m (call_wasi argv (Some m) f vs) = (past, WRet (VI32 0) m') /\
    match vs with
    | [VI32 a; VI32 b] => m' = match f with ArgsGet | EnvironGet => put_list m (addr a) (addr b) l | _ => poke (poke m (addr a) 4 (Z.of_nat (length l))) (addr b) 4 (total l) end
    | _ => False
    end.
Proof.
  intros SO T (B & L & A & O & X). pose proof (length_total l) as LT. pose proof (total_pos l) as TP. unfold isize_max in L.
  destruct f; try discriminate; injection SO as ->; cbn [signature] in A; args; cbn [signature outs] in O.
  - (* environ_get *)
    specialize (X z z0 l eq_refl eq_refl). pose proof (addr_range z). pose proof (addr_range z0). pose proof X as (X1 & X2 & _).
    cbn [call_wasi params getters option_map perform]. unfold environ_get. cbn [drive env_reply r_errno r_out r_mem r_ptrs r_buf Z.eqb negb]. change Wasi.u32 with addr.
    change (Wasi.out (env_reply l m) 0) with (Z.of_nat (length l)). change (Wasi.out (env_reply l m) 1) with (total l). rewrite Nat2Z.id.
    assert (EP : environ_ptrs (addr z0) (length l) (offsets 0 l) = pointers (addr z0) l ++ [0; 0; 0; 0]).
    { unfold environ_ptrs. pose proof (env_pointers (addr z0) l 0 ltac:(lia) ltac:(lia) ltac:(lia)) as EE. rewrite Z.add_0_r in EE. now rewrite EE. }
    rewrite EP. assert (FB : firstn (Z.to_nat (total l)) (strings_z l ++ repeat 0 (Z.to_nat (total l))) = args_buf l).
    { rewrite strings_args. rewrite <- (args_buf_len l) at 1. unfold mlen. rewrite Nat2Z.id, firstn_app, Nat.sub_diag, firstn_all, app_nil_r. reflexivity. }
    rewrite FB. pose proof (pointers_len l (addr z0)) as LP. pose proof (args_buf_len l) as LB.
    assert (LQ : mlen (pointers (addr z0) l ++ [0; 0; 0; 0]) = 4 * Z.of_nat (length l) + 4) by (rewrite mlen_app, LP; reflexivity).
    rewrite two_writes by lia. unfold ret. rewrite drive_end. eexists. split; [reflexivity|]. apply list_written; auto; lia.
  - (* environ_sizes_get *)
    inversion O as [|? ? O1 O']; subst. inversion O' as [|? ? O2 _]; subst. unfold inside in O1, O2. cbn [fst snd] in O1, O2. pose proof (addr_range z). pose proof (addr_range z0).
    cbn [call_wasi params getters option_map perform]. unfold environ_sizes_get. cbn [drive env_reply r_errno r_out r_mem Z.eqb negb]. change Wasi.u32 with addr.
    change (Wasi.out (env_reply l m) 0) with (Z.of_nat (length l)). change (Wasi.out (env_reply l m) 1) with (total l). rewrite sizes_written by lia. rewrite drive_end. eauto.
  - (* args_get *)
    specialize (X z z0 l eq_refl eq_refl). pose proof (addr_range z). pose proof (addr_range z0). pose proof X as (X1 & X2 & _).
    cbn [call_wasi params getters option_map perform]. unfold args_get. change Wasi.u32 with addr. rewrite args_pointers by lia. rewrite Z.add_0_r.
    pose proof (pointers_len l (addr z0)) as LP. pose proof (args_buf_len l) as LB.
    assert (LQ : mlen (pointers (addr z0) l ++ [0; 0; 0; 0]) = 4 * Z.of_nat (length l) + 4) by (rewrite mlen_app, LP; reflexivity).
    rewrite two_writes by lia. unfold ret. rewrite drive_end. eexists. split; [reflexivity|]. apply list_written; auto; lia.
  - (* args_sizes_get *)
    inversion O as [|? ? O1 O']; subst. inversion O' as [|? ? O2 _]; subst. unfold inside in O1, O2. cbn [fst snd] in O1, O2. pose proof (addr_range z). pose proof (addr_range z0).
    cbn [call_wasi params getters option_map perform]. unfold args_sizes_get. change Wasi.u32 with addr. fold (total l). rewrite (usize_id (total l)) by lia.
    replace (addr (Z.of_nat (length l))) with (Z.of_nat (length l)) by (unfold addr; rewrite Z.mod_small; lia).
    replace (addr (total l)) with (total l) by (unfold addr; rewrite Z.mod_small; lia).
    rewrite sizes_written by lia. rewrite drive_end. eauto.
Qed.

(** ** the whole history *)
Lemma passed_cases argv env f : passed_on f \/ (exists l, strings_of argv env f = Some l) \/ f = ProcRaise \/ f = SockRecv \/ f = SockSend.
Proof. destruct f; cbn; eauto; left; unfold passed_on; cbn; intuition discriminate. Qed.
Lemma passed_strings argv env f : passed_on f -> strings_of argv env f = None.
Proof. destruct f; cbn; auto; intros H; exfalso; apply H; cbn; tauto. Qed.
Lemma Wasi_ProcExit_dec f : f = ProcExit \/ f <> ProcExit.
Proof. destruct f; auto; right; discriminate. Qed.
Theorem same_answers sys argv env : polite sys -> total argv < 2 ^ 31 -> total env < 2 ^ 31 ->
  forall log, Forall (proper argv env) log -> made sys argv env log = flat_map (scalls argv env) log /\ passthrough sys argv env log = direct sys argv env log.
Proof.
  intros PS TA TE log. induction log as [|e log IH]; intros F; [split; reflexivity|]. inversion F as [|? ? PE F']; subst. destruct (IH F') as [IM _]. clear IH F'.
  destruct e as [[w vs] om]. destruct PE as (f & m & W & -> & PC). cbn [made flat_map passthrough direct answer scalls].
  rewrite IM, W. set (past := flat_map (scalls argv env) log).
  destruct (passed_cases argv env f) as [PO|[(l & SO)|Q]].
  - rewrite (passed_strings argv env f PO). destruct (Wasi_ProcExit_dec f) as [->|NX].
    + pose proof PC as (_ & _ & A & _). cbn [signature] in A. args.
      assert (D : drive sys env past m (call_wasi argv (Some m) ProcExit [VI32 z]) = ((ProcExit, [SInt (addr z)], m) :: past, WGone)).
      { cbn [call_wasi params getters option_map perform]. rewrite drive_call; [|exact PO|constructor]. cbn [received signature drive]. unfold addr, Wasi.u32, cast_u. now rewrite Z.mod_mod by lia. }
      rewrite D. cbn [fst snd app]. split; reflexivity.
    + pose proof (call_passed sys argv env past f vs m PS PO NX PC) as C. cbn zeta in C. rewrite C. cbn [fst snd app]. split; [reflexivity|].
      rewrite ?(passed_strings argv env f PO). cbn [app]. fold past.
      destruct f; try contradiction; try reflexivity; exfalso; apply PO; cbn; tauto.
  - rewrite SO. destruct (call_strings sys argv env past f vs m l SO) as (m' & C & X); auto.
    { destruct f; try discriminate; injection SO as <-; auto. }
    rewrite C. cbn [fst snd app]. split; [reflexivity|]. destruct vs as [|[a| | | | |] [|[b| | | | |] [|]]]; try contradiction. subst m'.
    destruct f; try discriminate; cbn [strings_of] in SO |- *; injection SO as ->; reflexivity.
  - destruct PC as (_ & _ & _ & _ & X). destruct Q as [-> | [-> | ->]]; contradiction.
Qed.

(** ** programs *)
Section Run.
  Variables (hf : hostfp) (sys : system) (argv env : list (list Z)).
  Hypothesis PS : polite sys.
  Hypothesis TA : total argv < 2 ^ 31.
  Hypothesis TE : total env < 2 ^ 31.
  Notation A := (Forall (proper argv env)).
  Lemma A_closed e l : A (e :: l) -> A l. Proof. intros H. now inversion H. Qed.
  Lemma invoke_same P SM n f args s l : log_of (invoke P (direct sys argv env) SM n f args s) = Some l -> A l ->
    invoke P (passthrough sys argv env) SM n f args s = invoke P (direct sys argv env) SM n f args s.
  Proof.
    apply (invoke_hosts P (direct sys argv env) (passthrough sys argv env) SM A A_closed). intros l0 H. now apply same_answers.
  Qed.
  Lemma clear_same SM n f args s l : clear hf (direct sys argv env) SM n f args s ->
    log_of (invoke (wasm_prims hf) (direct sys argv env) SM n f args s) = Some l -> A l ->
    forall m, clear hf (passthrough sys argv env) SM m f args s.
  Proof.
    intros C L Al. pose proof (guarded_wasm _ _ _ _ _ _ _ C) as G.
    assert (E : invoke (guarded SM (wasm_prims hf)) (passthrough sys argv env) SM n f args s = invoke (wasm_prims hf) (direct sys argv env) SM n f args s).
    { rewrite <- G. apply (invoke_same _ _ _ _ _ _ l); [now rewrite G|exact Al]. }
    apply (clear_all hf (passthrough sys argv env) SM n); [unfold clear|]; rewrite E; intros K; rewrite K in L; discriminate.
  Qed.
End Run.
Definition calls_of (o : outcome) : list event := match o with Done _ _ l | Exited _ l | Trapped _ l => l | Undefined => [] end.
Lemma outcome_log o r : as_outcome o = Some r -> log_of o = Some (calls_of r).
Proof. destruct o; cbn; intros H; try discriminate; injection H as <-; reflexivity. Qed.

(** the machine, step by step *)
Section Steps.
  Variables (hf : hostfp) (h1 h2 : hostfn) (M : modul) (A : list event -> Prop).
  Hypothesis closed : forall e l, A (e :: l) -> A l.
  Hypothesis same : forall l, A l -> h2 l = h1 l.
  Definition slog (o : sout) : option (list event) :=
    match o with SNext c => Some (c_log c) | SDone _ _ l | SExit _ l | STrap _ l => Some l | SUB => None end.
  Lemma slog_res {T} log (r : res T) k l : slog (sres log r k) = Some l -> (exists a, r = Ok a /\ slog (k a) = Some l) \/ l = log.
  Proof. destruct r; cbn; intros H; try discriminate; [left; eauto|right; congruence]. Qed.
  Lemma leave_log c v l : slog (leave c v) = Some l -> l = c_log c.
  Proof.
    unfold leave. destruct (c_callers c); intros H; apply slog_res in H as [(a & _ & H)|H]; auto; [cbn in H; congruence|].
    apply slog_res in H as [(b & _ & H)|H]; auto. cbn in H. congruence.
  Qed.
  Lemma enter_log c v f d args rs l : slog (enter c v f d args rs) = Some l -> l = c_log c.
  Proof. unfold enter. intros H; apply slog_res in H as [(a & _ & H)|H]; auto. cbn in H. congruence. Qed.
  Lemma step_hosts c l : slog (step hf h1 M c) = Some l -> A l -> step hf h2 M c = step hf h1 M c /\ A (c_log c).
  Proof.
    unfold step. destruct (nth_error (md_funcs M) (c_fn c)) as [[fd|]|]; try discriminate. destruct (hstep hf M (fd_code fd) (c_v c)) as [v|v|[|w a r|f a rs] v| |]; intros H Al.
    - cbn in H. injection H as <-. auto.
    - apply leave_log in H as ->. auto.
    - apply leave_log in H as ->. auto.
    - unfold call_host in *. set (log := (w, a, mem_view (d_inst (s_d v))) :: c_log c) in *.
      assert (AL : A log). { destruct (h1 log) as [| | |z|o ws]; cbn in H; try discriminate; try (injection H as <-; exact Al).
        apply slog_res in H as [(rf & _ & H)| ->]; auto. cbn in H. injection H as <-. exact Al. }
      rewrite (same _ AL). split; auto. now apply closed in AL.
    - destruct (nth_error (md_funcs M) f) as [[g|]|]; [apply enter_log in H as ->; auto|cbn in H; injection H as <-; auto|discriminate].
    - cbn in H. injection H as <-. auto.
    - discriminate.
  Qed.
  Definition steps_log (r : config + outcome) : option (list event) :=
    match r with inl c => Some (c_log c) | inr Undefined => None | inr o => Some (calls_of o) end.
  Lemma steps_hosts n : forall c l, steps_log (steps hf h1 M n c) = Some l -> A l -> steps hf h2 M n c = steps hf h1 M n c /\ A (c_log c).
  Proof.
    induction n as [|n IH]; intros c l H Al; cbn [steps] in *; [cbn in H; injection H as <-; auto|].
    destruct (step hf h1 M c) as [c'|vals s lg|z lg|t lg|] eqn:S; cbn in H; try discriminate;
      try (injection H as <-; destruct (step_hosts c lg) as [E AC]; [now rewrite S|exact Al|]; rewrite E, S; auto).
    destruct (IH c' l H Al) as [E AC]. destruct (step_hosts c (c_log c')) as [E2 AC2]; [now rewrite S|exact AC|]. rewrite E2, S. auto.
  Qed.
End Steps.
