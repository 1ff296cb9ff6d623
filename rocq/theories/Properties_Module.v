(** C32: instantiation. *)
From Coq Require Import ZArith List Bool Lia ZifyBool ZifyNat.
From Coq Require String.
From Verif Require Import Word Value Mem WasmMem MemProofs Store Regs IR Machine Decoder Module ModuleSpec ModuleProofs.
Import ListNotations.
Open Scope Z_scope.

Lemma esegs_spec gs S l : Forall simple_elem (s_elems S) -> elem_segments gs S l <-> l = esegs (s_elems S).
Proof.
  unfold elem_segments, esegs. intros SE. split.
  - intros F. induction F as [|e [m rs] es l [M R] F IH]; [reflexivity|]. inversion SE as [|? ? [X [li L]] SE']; subst. cbn [map fst snd] in *. rewrite <- IH by auto. f_equal.
    unfold refs in R. rewrite L in R |- *. now rewrite M, R.
  - intros ->. induction SE as [|e es [X [li L]] SE IH]; cbn [map]; constructor; auto. cbn [fst snd]. split; auto. unfold refs. now rewrite L.
Qed.
Lemma find_in name x l : NoDup (map fst l) -> find_export name l = Some x <-> In (name, x) l.
Proof.
  induction l as [|[n y] l IH]; intros ND; cbn [find_export map fst] in *; [split; [discriminate|contradiction]|].
  inversion ND as [|? ? NI ND']; subst. destruct (String.eqb n name) eqn:E.
  - apply String.eqb_eq in E as ->. split; [intros H; injection H as ->; now left|]. intros [H|H]; [now injection H as ->|].
    exfalso. apply NI. apply in_map_iff. now exists (name, x).
  - apply String.eqb_neq in E. rewrite IH by auto. split; [now right|]. intros [H|H]; auto. injection H. congruence.
Qed.
Lemma alloc_small min max : 0 <= min < 2 ^ 15 -> alloc_mem (Some (min, max)) = IDone (Some (mem_new min max)) /\ mlen (m_data (mem_new min max)) = min * 65536.
Proof.
  intros B. unfold alloc_mem, mem_new, page, usize, isize_max, mlen in *. cbn [m_data]. rewrite Z.mod_small by lia. rewrite repeat_length.
  split; [|lia]. replace (2 ^ 31 - 1 <? min * 65536) with false by lia. reflexivity.
Qed.
Lemma nth_repeat0 {A} (d : A) n k : nth k (repeat d n) d = d.
Proof. revert k. induction n as [|n IH]; intros [|k]; cbn; auto. Qed.
Lemma datas_segs S : data_segments S = dsegs (s_datas S). Proof. reflexivity. Qed.
Lemma valid_places S fs gs : valid S fs gs -> places_ok gs (esegs (s_elems S)) /\ places_ok gs (dsegs (s_datas S)).
Proof.
  intros V. split; intros i x y H; unfold esegs, dsegs in H; apply in_map_iff in H as (e & E & I); injection E as M _.
  - now destruct (v_active _ _ _ V e i x I M).
  - now destruct (v_data _ _ _ V e i x I M) as (_ & _ & Z).
Qed.

(** A module whose imports are WASI functions, without reference-valued initialisers, and whose
    segments fit, is instantiated as the standard says, except that the start function is not run.
    ([_partial]: what the hypotheses exclude is refuted below.) *)
Theorem C32_instance_partial : forall S fs gs, valid S fs gs -> Forall simple_global (s_globals S) -> Forall simple_elem (s_elems S) ->
  (forall min max, s_mem S = Some (min, max) -> min < 2 ^ 15) -> loads S gs ->
  exists I, instantiate S = IDone I /\ instance_of S fs gs I.
Proof.
  intros S fs gs V SG SE SM [LD LT]. unfold instantiate. destruct (v_funcs _ _ _ V) as (imps & W & FS). rewrite (link_ok _ _ W). cbn [ibind]. cbv zeta. rewrite <- FS.
  set (ts0 := map (fun n => repeat RNull (Z.to_nat n)) (s_tables S)).
  destruct (valid_places _ _ _ V) as [PE PD].
  assert (T0 : forall t tb, nth_error ts0 t = Some tb -> exists n, nth_error (s_tables S) t = Some n /\ len tb = n /\ forall k, nth k tb RNull = RNull).
  { unfold ts0. intros t tb H. rewrite nth_error_map in H. destruct (nth_error (s_tables S) t) as [n|] eqn:N; [|discriminate]. injection H as <-.
    pose proof (v_tables _ _ _ V) as TV. rewrite Forall_forall in TV. specialize (TV n (nth_error_In _ _ N)). cbn beta in TV.
    exists n. repeat split; auto. { unfold len. rewrite repeat_length. lia. } intros k. apply nth_repeat0. }
  assert (LT0 : @length table ts0 = length (s_tables S)) by apply map_length.
  destruct (elems_ok (length fs) gs (s_elems S) ts0) as (ts & ET & LTS & CT); [exact SE| | | | |].
  { apply (v_elems _ _ _ V). }
  { rewrite LT0. apply (v_active _ _ _ V). }
  { apply Forall_forall. intros tb I. apply In_nth_error in I as [t N]. destruct (T0 t tb N) as (n & N' & <- & _). pose proof (v_tables _ _ _ V) as TV. rewrite Forall_forall in TV. apply (TV (len tb)). eapply nth_error_In; eauto. }
  { intros t tb ps N A. destruct (T0 t tb N) as (n & N' & <- & _). apply (LT t (len tb) (esegs (s_elems S)) ps N'); auto. now apply esegs_spec. }
  assert (MM : exists m m', alloc_mem (s_mem S) = IDone m /\ datas gs m (s_datas S) = IDone m' /\
     match s_mem S with
     | None => m' = None
     | Some (min, max) => exists mi, m' = Some mi /\ m_max mi = max /\ len (m_data mi) = min * 65536 /\
        forall ps, active gs 0 (data_segments S) ps -> forall k, 0 <= k < min * 65536 -> nth (Z.to_nat k) (m_data mi) 0 = content 0 ps k
     end).
  { destruct (s_mem S) as [[min max]|] eqn:EM.
    - pose proof (v_mem _ _ _ V min max EM). pose proof (SM min max eq_refl). destruct (alloc_small min max ltac:(lia)) as [AM AL].
      exists (Some (mem_new min max)). rewrite AM.
      destruct (active_total gs 0 (data_segments S) PD) as [ps A].
      destruct (datas_ok gs (s_datas S) (mem_new min max) ps) as (m' & E & LM & B).
      + lia.
      + intros d t x I M. now destruct (v_data _ _ _ V d t x I M).
      + exact A.
      + rewrite AL. eapply LD; eauto.
      + exists (Some (with_data (mem_new min max) m')). repeat split; auto. eexists. split; [reflexivity|]. cbn [with_data m_max m_data mem_new].
        repeat split; [unfold len, mlen in *; lia|]. intros ps' A' k K. rewrite <- (active_fun _ _ _ _ A _ A').
        change (nth (Z.to_nat k) m' 0) with (byte_at m' k). rewrite B by lia. unfold byte_at, mem_new. cbn [m_data]. now rewrite nth_repeat0.
    - exists None, None. repeat split. apply datas_none. intros d t x I M. destruct (v_data _ _ _ V d t x I M) as (_ & C & _). congruence. }
  destruct MM as (m & m' & EA & ED & MM). rewrite EA. cbn [ibind]. rewrite (globals_ok _ _ (v_globals _ _ _ V) SG). cbn [ibind].
  fold ts0. rewrite ET. cbn [ibind]. rewrite ED. cbn [ibind].
  pose proof (globals_of_length _ _ (v_globals _ _ _ V)) as GL.
  assert (XO : forallb (fun x => export_ok (length fs) (length ts) (match m' with Some _ => 1 | None => 0 end) (length gs) (snd x)) (s_exports S) = true).
  { apply forallb_forall. intros [n x] I. pose proof (v_exports _ _ _ V n x I) as O. cbn [snd]. destruct x as [i|i|i|i]; cbn [export_ok].
    - now apply Nat.ltb_lt. - apply Nat.ltb_lt. lia.
    - destruct O as [-> O]. destruct (s_mem S) as [[min max]|]; [|congruence]. now destruct MM as (mi & -> & _).
    - apply Nat.ltb_lt. lia. }
  rewrite XO. cbn [negb].
  assert (ST : match s_start S with Some f => if Nat.ltb f (length fs) then IDone tt else IPanics | None => IDone tt end = IDone tt).
  { destruct (s_start S) as [f|] eqn:EF; auto. pose proof (v_start _ _ _ V f EF) as H. now apply Nat.ltb_lt in H as ->. }
  rewrite ST. cbn [ibind]. eexists. split; [reflexivity|]. split; cbn [mi_modul mi_inst md_funcs md_types i_globals i_mem i_tables]; auto.
  - lia.
  - intros t n N. assert (N0 : nth_error ts0 t = Some (repeat RNull (Z.to_nat n))) by (unfold ts0; rewrite nth_error_map, N; reflexivity).
    destruct (active_total gs t (esegs (s_elems S)) PE) as [ps A]. destruct (CT t _ ps N0 A) as (tb & NB & LB & CB).
    destruct (T0 t _ N0) as (n' & N' & LN & _). rewrite N in N'. injection N' as <-.
    exists tb. repeat split; auto. { rewrite <- LN. unfold len. now rewrite LB. }
    intros l ps' EL A' k K. apply esegs_spec in EL; auto. subst l. rewrite <- (active_fun _ _ _ _ A _ A'). rewrite CB by lia. now rewrite nth_repeat0.
  - intros ND name i. unfold get_export_func. cbn [mi_exports]. rewrite <- (find_in name (ExFunc i) (s_exports S) ND).
    destruct (find_export name (s_exports S)) as [[j|j|j|j]|]; split; intros H; try discriminate; now injection H as ->.
Qed.

(** A segment that does not fit is never loaded: instantiation does not complete.  (Empty element
    segments are not looked at: C32_empty_elem_refuted.) *)
Theorem C32_no_fit_partial : forall S fs gs I, valid S fs gs -> Forall simple_global (s_globals S) -> Forall simple_elem (s_elems S) ->
  (forall e l, In e (s_elems S) -> e_idxes e = Some l -> len l < 2 ^ 32) -> (forall d, In d (s_datas S) -> len (ds_bytes d) < 2 ^ 32) ->
  (forall min max, s_mem S = Some (min, max) -> min < 2 ^ 15) -> instantiate S = IDone I ->
  (forall min max ps, s_mem S = Some (min, max) -> active gs 0 (data_segments S) ps -> fits (min * 65536) ps) /\
  (forall t n l ps, nth_error (s_tables S) t = Some n -> elem_segments gs S l -> active gs t l ps -> Forall (fun p => snd p = [] \/ fst p + len (snd p) <= n) ps).
Proof.
  intros S fs gs I V SG SE LE LD SM E. unfold instantiate in E. destruct (v_funcs _ _ _ V) as (imps & W & FS). rewrite (link_ok _ _ W) in E. cbn [ibind] in E. cbv zeta in E. rewrite <- FS in E.
  set (ts0 := map (fun n => repeat RNull (Z.to_nat n)) (s_tables S)) in *. destruct (valid_places _ _ _ V) as [PE PD].
  destruct (alloc_mem (s_mem S)) as [m| | | | |] eqn:EA; try discriminate. cbn [ibind] in E. rewrite (globals_ok _ _ (v_globals _ _ _ V) SG) in E. cbn [ibind] in E.
  destruct (elems (length fs) gs ts0 (s_elems S)) as [ts| | | | |] eqn:ET; try discriminate. cbn [ibind] in E.
  destruct (datas gs m (s_datas S)) as [m'| | | | |] eqn:ED; try discriminate. split.
  - intros min max ps EM A. rewrite EM in EA. pose proof (v_mem _ _ _ V min max EM). pose proof (SM min max EM). destruct (alloc_small min max ltac:(lia)) as [AM AL].
    rewrite AM in EA. injection EA as <-. rewrite <- AL. eapply datas_bad; [| |exact A|exact ED]; [lia|]. apply Forall_forall. intros d D. now apply LD.
  - intros t n l ps N EL A. apply esegs_spec in EL; auto. subst l.
    pose proof (v_tables _ _ _ V) as TV. rewrite Forall_forall in TV.
    assert (LN : forall n, In n (s_tables S) -> len (repeat RNull (Z.to_nat n)) = n) by (intros n' I'; specialize (TV n' I'); unfold len; rewrite repeat_length; lia).
    rewrite <- (LN n (nth_error_In _ _ N)).
    eapply (elems_bad (length fs) gs (s_elems S) ts0 ts); eauto.
    + apply Forall_forall. intros tb I'. apply in_map_iff in I' as (n' & <- & I'). rewrite LN by auto. apply (TV n' I').
    + unfold ts0. rewrite nth_error_map, N. reflexivity.
Qed.

(** A concrete module: one import, two functions, a global used as an offset, overlapping data. *)
Definition exf : fdef := {| fd_type := ([], []); fd_locals := []; fd_code := []; fd_alloc := Six 0 0 0 0 0 0 |}%nat.
Definition wsig : ftype := ([TI32; TI32], [TI32]).
Import String.
Definition ex_src : src :=
  {| s_types := []; s_imports := [ImWasi 0 wsig]; s_funcs := [exf; exf]; s_tables := [4]; s_mem := Some (1, Some 2);
     s_globals := [[CVal (VI32 3)]; [CGlobal 0]];
     s_elems := [{| e_extern := false; e_idxes := Some [2; 1]%nat; e_init := None; e_mode := MActive 0 [CVal (VI32 1)] |};
                 {| e_extern := false; e_idxes := Some [0%nat]; e_init := None; e_mode := MActive 0 [CGlobal 1] |}];
     s_datas := [{| ds_bytes := [1; 2; 3]; ds_mode := MActive 0 [CVal (VI32 2)] |}; {| ds_bytes := [9]; ds_mode := MActive 0 [CGlobal 1] |}; {| ds_bytes := [7]; ds_mode := MPassive |}];
     s_exports := [("memory", ExMem 0); ("f", ExFunc 2); ("_start", ExFunc 1)]%string; s_start := Some 1%nat |}.
Local Open Scope list_scope.
Lemma ex_globals : globals_of (s_globals ex_src) [VI32 3; VI32 3].
Proof. apply (g_snoc [[CVal (VI32 3)]] [VI32 3] [CGlobal 0] (VI32 3)); [apply (g_snoc [] [] [CVal (VI32 3)] (VI32 3)); constructor|now constructor]. Qed.
Lemma ex_valid : valid ex_src [FWasi 0 wsig; FWasm exf; FWasm exf] [VI32 3; VI32 3].
Proof.
  split.
  - exists [FWasi 0 wsig]. split; [repeat constructor|reflexivity].
  - exact ex_globals.
  - intros n x [H|[H|[H|[]]]]; injection H as <- <-; cbn; [split; [reflexivity|discriminate]|lia|lia].
  - intros f H. injection H as <-. cbn. lia.
  - repeat constructor; cbn; lia.
  - intros min max H. injection H as <- <-. lia.
  - intros e l H L. cbn in H. repeat (destruct H as [H|H]; [subst e; injection L as <-; repeat constructor|]). contradiction.
  - intros e t x H M. cbn in H. repeat (destruct H as [H|H]; [subst e; injection M as <- <-; split; [cbn; lia|eexists; constructor; reflexivity]|]). contradiction.
  - intros d t x H M. cbn in H. repeat (destruct H as [H|H]; [subst d; (discriminate M || (injection M as <- <-; split; [reflexivity|split; [discriminate|eexists; constructor; reflexivity]]))|]). contradiction.
Qed.
Lemma ex_simple : Forall simple_global (s_globals ex_src) /\ Forall simple_elem (s_elems ex_src).
Proof. split; repeat constructor; eexists; reflexivity. Qed.
Lemma ex_places : active [VI32 3; VI32 3] 0 (data_segments ex_src) [(2, [1; 2; 3]); (3, [9])] /\ active [VI32 3; VI32 3] 0 (esegs (s_elems ex_src)) [(1, [RFunc 2; RFunc 1]); (3, [RFunc 0])].
Proof.
  split.
  - apply (ac_put _ _ [CVal (VI32 2)] 2); [constructor|]. apply (ac_put _ _ [CGlobal 1] 3); [now constructor|]. repeat constructor.
  - apply (ac_put _ _ [CVal (VI32 1)] 1); [constructor|]. apply (ac_put _ _ [CGlobal 1] 3); [now constructor|]. constructor.
Qed.
Lemma ex_loads : loads ex_src [VI32 3; VI32 3].
Proof.
  destruct ex_places as [PD PE]. split.
  - intros min max ps H A. injection H as <- <-. rewrite <- (active_fun _ _ _ _ PD _ A). repeat constructor; cbn; lia.
  - intros t n l ps N EL A. apply esegs_spec in EL; [|apply ex_simple]. subst l. destruct t as [|[|t]]; try discriminate. injection N as <-.
    rewrite <- (active_fun _ _ _ _ PE _ A). repeat constructor; cbn; lia.
Qed.
Example C32_instance_example : exists I, instantiate ex_src = IDone I /\ i_globals (mi_inst I) = [VI32 3; VI32 3] /\
  i_tables (mi_inst I) = [[RNull; RFunc 2; RFunc 1; RFunc 0]] /\ get_export_func I "_start" = Some 1%nat /\ get_export_func I "g" = None /\ get_export_func I "memory" = None /\
  exists mi, i_mem (mi_inst I) = Some mi /\ len (m_data mi) = 65536 /\ map (fun k => nth k (m_data mi) 0) [0; 1; 2; 3; 4; 5; 6]%nat = [0; 0; 1; 9; 3; 0; 0].
Proof.
  destruct (C32_instance_partial _ _ _ ex_valid (proj1 ex_simple) (proj2 ex_simple)) as (I & E & O); [intros min max H; injection H as <- <-; lia|exact ex_loads|].
  exists I. split; [exact E|]. clear E. split; [exact (io_globals _ _ _ _ O)|].
  split.
  { destruct (io_tables _ _ _ _ O 0%nat 4 eq_refl) as (tb & N & L & C). pose proof (io_table_count _ _ _ _ O) as TC.
    destruct (i_tables (mi_inst I)) as [|tb' [|? ?]]; try discriminate TC. injection N as ->. f_equal.
    specialize (C (esegs (s_elems ex_src)) _ (proj2 (esegs_spec _ _ _ (proj2 ex_simple)) eq_refl) (proj2 ex_places)).
    pose proof (C 0 ltac:(lia)) as C0. pose proof (C 1 ltac:(lia)) as C1. pose proof (C 2 ltac:(lia)) as C2. pose proof (C 3 ltac:(lia)) as C3.
    unfold len in L. destruct tb as [|a [|b [|c [|d [|? ?]]]]]; cbn [Datatypes.length] in L; try (exfalso; lia). vm_compute in C0, C1, C2, C3. subst. reflexivity.
  }
  assert (ND : NoDup (map fst (s_exports ex_src))) by (cbn; repeat constructor; cbn; intros H; repeat destruct H as [H|H]; try discriminate; contradiction).
  pose proof (io_exports _ _ _ _ O ND) as X. split; [apply X; cbn; auto|].
  split. { destruct (get_export_func I "g") as [i|] eqn:G; auto. apply X in G. cbn in G. repeat destruct G as [G|G]; try discriminate; contradiction. }
  split. { destruct (get_export_func I "memory") as [i|] eqn:G; auto. apply X in G. cbn in G. repeat destruct G as [G|G]; try discriminate; contradiction. }
  destruct (io_memory _ _ _ _ O) as (mi & M & _ & L & B). exists mi. split; auto. split; auto.
  pose proof (fun k => B _ (proj1 ex_places) k) as C. cbn [map].
  assert (C0 := C 0 ltac:(lia)). assert (C1 := C 1 ltac:(lia)). assert (C2 := C 2 ltac:(lia)). assert (C3 := C 3 ltac:(lia)). assert (C4 := C 4 ltac:(lia)). assert (C5 := C 5 ltac:(lia)). assert (C6 := C 6 ltac:(lia)).
  change (Z.to_nat 0) with 0%nat in C0. change (Z.to_nat 1) with 1%nat in C1. change (Z.to_nat 2) with 2%nat in C2. change (Z.to_nat 3) with 3%nat in C3.
  change (Z.to_nat 4) with 4%nat in C4. change (Z.to_nat 5) with 5%nat in C5. change (Z.to_nat 6) with 6%nat in C6.
  rewrite C0, C1, C2, C3, C4, C5, C6. reflexivity.
Qed.

(** whatever is instantiated, its exports refer to objects of the instance, and its start function exists *)
Theorem C32_exports : forall S I, instantiate S = IDone I ->
  (forall n x, In (n, x) (mi_exports I) -> match x with
     | ExFunc i => nth_error (md_funcs (mi_modul I)) i <> None
     | ExTable i => nth_error (i_tables (mi_inst I)) i <> None
     | ExMem i => i = 0%nat /\ i_mem (mi_inst I) <> None
     | ExGlobal i => nth_error (i_globals (mi_inst I)) i <> None
     end) /\
  mi_exports I = s_exports S /\ (forall f, s_start S = Some f -> nth_error (md_funcs (mi_modul I)) f <> None).
Proof.
  intros S I. unfold instantiate.
  destruct (link _) as [imps| | | | |]; try discriminate. cbn [ibind]. destruct (alloc_mem _) as [m| | | | |]; try discriminate. cbn [ibind].
  destruct (globals _ _) as [gs| | | | |]; try discriminate. cbn [ibind]. destruct (elems _ _ _ _) as [ts| | | | |]; try discriminate. cbn [ibind].
  destruct (datas _ _ _) as [m'| | | | |]; try discriminate. cbn [ibind]. destruct (forallb _ (s_exports S)) eqn:X; [|discriminate]. cbn [negb].
  rewrite forallb_forall in X.
  destruct (match s_start S with Some f => if Nat.ltb f _ then IDone tt else IPanics | None => IDone tt end) eqn:ST; try discriminate. cbn [ibind].
  intros H. injection H as <-. cbn [mi_exports mi_modul md_funcs mi_inst i_tables i_mem i_globals]. split; [|split; auto].
  - intros n x N. specialize (X _ N). cbn [snd] in X. destruct x as [i|i|i|i]; cbn [export_ok] in X; apply Nat.ltb_lt in X; try (now apply nth_error_Some).
    destruct m'; [|lia]. split; [lia|discriminate].
  - intros f E. rewrite E in ST. destruct (Nat.ltb f _) eqn:L; [|discriminate]. apply Nat.ltb_lt in L. now apply nth_error_Some.
Qed.
Example C32_exports_example : exists I, instantiate ex_src = IDone I /\ mi_exports I <> [].
Proof. destruct C32_instance_example as (I & E & _). exists I. split; [exact E|]. destruct (C32_exports _ _ E) as (_ & -> & _). discriminate. Qed.

(** ** what does not hold *)
Definition with_start (S : src) (f : option nat) : src :=
  {| s_types := s_types S; s_imports := s_imports S; s_funcs := s_funcs S; s_tables := s_tables S; s_mem := s_mem S; s_globals := s_globals S;
     s_elems := s_elems S; s_datas := s_datas S; s_exports := s_exports S; s_start := f |}.
(** The start function is never run: with it the instance is the same as without, whatever it does. *)
Theorem C32_start_refuted : forall S f I, instantiate (with_start S (Some f)) = IDone I -> instantiate (with_start S None) = IDone I.
Proof.
  intros S f I. unfold instantiate. cbn [with_start s_types s_imports s_funcs s_tables s_mem s_globals s_elems s_datas s_exports s_start].
  destruct (link _) as [imps| | | | |]; try discriminate. cbn [ibind]. destruct (alloc_mem _) as [m| | | | |]; try discriminate. cbn [ibind].
  destruct (globals _ _) as [gs| | | | |]; try discriminate. cbn [ibind]. destruct (elems _ _ _ _) as [ts| | | | |]; try discriminate. cbn [ibind].
  destruct (datas _ _ _) as [m'| | | | |]; try discriminate. cbn [ibind]. destruct (negb _); try discriminate.
  destruct (Nat.ltb f _); [|discriminate]. auto.
Qed.
Example C32_start_example : exists I, instantiate (with_start ex_src (Some 1%nat)) = IDone I.
Proof. destruct C32_instance_example as (I & E & _). exists I. exact E. Qed.

Definition small (gl : list cexpr) (es : list elem) (is : list import) (tb : Z) : src :=
  {| s_types := []; s_imports := is; s_funcs := [exf]; s_tables := [tb]; s_mem := None; s_globals := gl; s_elems := es; s_datas := []; s_exports := []; s_start := None |}.
(** Elements given by expressions are dropped: the table keeps its nulls. *)
Definition elem_expr : elem := {| e_extern := false; e_idxes := None; e_init := Some [[CRefFunc 0]]; e_mode := MActive 0 [CVal (VI32 0)] |}.
Theorem C32_elem_expr_refuted : exists S fs gs I, valid S fs gs /\ loads S gs /\ instantiate S = IDone I /\ ~ instance_of S fs gs I.
Proof.
  exists (small [] [elem_expr] [] 1), [FWasm exf], []. eexists. 
  assert (EV : evaluates [] [CVal (VI32 0)] (VI32 0)) by constructor.
  assert (EL : elem_segments [] (small [] [elem_expr] [] 1) [(MActive 0 [CVal (VI32 0)], [RFunc 0])]).
  { repeat constructor. }
  assert (AC : active [] 0 [(MActive 0 [CVal (VI32 0)], [RFunc 0])] [(0, [RFunc 0])]) by (apply (ac_put _ _ _ 0); [exact EV|constructor]).
  split; [|split; [|split; [reflexivity|]]].
  - split.
    + exists []. split; [constructor|reflexivity].
    + constructor.
    + intros n x [].
    + discriminate.
    + repeat constructor; cbn; lia.
    + discriminate.
    + intros e l [<-|[]] L. discriminate L.
    + intros e t x [<-|[]] M. injection M as <- <-. split; [cbn; lia|]. now exists 0.
    + intros d t x [].
  - split; [discriminate|]. intros t n l ps N L A. destruct t as [|[|t]]; try discriminate. injection N as <-.
    unfold elem_segments in L. cbn [small s_elems] in L. inversion L as [|? [m rs] ? l' [M R] L']; subst. inversion L'; subst. cbn [fst snd elem_expr e_mode refs e_idxes e_init] in M, R. subst m.
    unfold refs in R. cbn [elem_expr e_idxes e_init] in R. inversion R as [|? r ? rs' ER R']; subst. inversion R'; subst. inversion ER; subst.
    rewrite <- (active_fun _ _ _ _ AC _ A). repeat constructor; cbn; lia.
  - intros O. destruct (io_tables _ _ _ _ O 0%nat 1 eq_refl) as (tb & N & _ & C). cbn in N. injection N as <-.
    specialize (C _ _ EL AC 0 ltac:(lia)). cbn in C. discriminate.
Qed.
(** A global initialised with a function reference: instantiation fails. *)
Theorem C32_ref_global_refuted : exists S fs gs, valid S fs gs /\ loads S gs /\ instantiate S = IFailed.
Proof.
  exists (small [[CRefFunc 0]] [] [] 0), [FWasm exf], [VRef (RFunc 0)]. split; [|split; [|reflexivity]].
  - split.
    + exists []. split; [constructor|reflexivity].
    + apply (g_snoc [] [] [CRefFunc 0] (VRef (RFunc 0))); constructor.
    + intros n x [].
    + discriminate.
    + repeat constructor; cbn; lia.
    + discriminate.
    + intros e l [].
    + intros e t x [].
    + intros d t x [].
  - split; [discriminate|]. intros t n l ps N L A. inversion L; subst. inversion A; subst. constructor.
Qed.
(** Imports other than WASI functions: a function is a link error (main.rs provides none), anything
    else aborts. *)
Lemma link_stop is : (forall fs, ~ wasi_only is fs) -> link is = ILink \/ link is = IPanics.
Proof.
  induction is as [|i is IH]; intros H.
  - exfalso. apply (H []). constructor.
  - cbn [link]. destruct i as [w t|t|]; auto. destruct IH as [E|E].
    + intros fs F. apply (H (FWasi w t :: fs)). now constructor.
    + rewrite E. now left. + rewrite E. now right.
Qed.
Theorem C32_imports_refuted : forall S, (forall fs, ~ wasi_only (s_imports S) fs) -> instantiate S = ILink \/ instantiate S = IPanics.
Proof. intros S H. unfold instantiate. destruct (link_stop _ H) as [->| ->]; auto. Qed.
Example C32_imports_example : instantiate (small [] [] [ImOther] 0) = IPanics /\ instantiate (small [] [] [ImFunc 0] 0) = ILink.
Proof. split; reflexivity. Qed.
(** An empty element segment beyond the end of its table: the standard traps, the code goes on. *)
Definition elem_empty : elem := {| e_extern := false; e_idxes := Some []; e_init := None; e_mode := MActive 0 [CVal (VI32 5)] |}.
Theorem C32_empty_elem_refuted : exists S fs gs I, valid S fs gs /\ Forall simple_elem (s_elems S) /\ ~ loads S gs /\ instantiate S = IDone I.
Proof.
  exists (small [] [elem_empty] [] 1), [FWasm exf], []. eexists. split; [|split; [|split; [|reflexivity]]].
  - split.
    + exists []. split; [constructor|reflexivity].
    + constructor.
    + intros n x [].
    + discriminate.
    + repeat constructor; cbn; lia.
    + discriminate.
    + intros e l [<-|[]] L. injection L as <-. constructor.
    + intros e t x [<-|[]] M. injection M as <- <-. split; [cbn; lia|]. exists 5. constructor.
    + intros d t x [].
  - repeat constructor. now exists [].
  - intros [_ L]. specialize (L 0%nat 1 [(MActive 0 [CVal (VI32 5)], [])] [(5, [])] eq_refl).
    assert (F : fits (A := ref) 1 [(5, [])]). { apply L; [repeat constructor|]. apply (ac_put _ _ _ 5); constructor. }
    apply Forall_inv in F. cbn in F. lia.
Qed.
(** Active data segments are kept after they were copied (the standard drops them): memory.init
    can read them again. *)
Theorem C32_data_kept_refuted : forall S I k d, instantiate S = IDone I -> nth_error (s_datas S) k = Some d -> nth_error (i_datas (mi_inst I)) k = Some (ds_bytes d).
Proof.
  intros S I k d. unfold instantiate.
  destruct (link _) as [imps| | | | |]; try discriminate. cbn [ibind]. cbv zeta. destruct (alloc_mem _) as [m| | | | |]; try discriminate. cbn [ibind].
  destruct (globals _ _) as [gs| | | | |]; try discriminate. cbn [ibind]. destruct (elems _ _ _ _) as [ts| | | | |]; try discriminate. cbn [ibind].
  destruct (datas _ _ _) as [m'| | | | |]; try discriminate. cbn [ibind]. destruct (negb _); try discriminate.
  match goal with |- context [ibind ?x _] => destruct x as [[]| | | | |]; try discriminate end. cbn [ibind]. intros E N. injection E as <-. cbn [mi_inst i_datas]. now rewrite nth_error_map, N.
Qed.
Example C32_data_kept_example : exists d x, nth_error (s_datas ex_src) 0 = Some d /\ ds_mode d = MActive 0 x /\ ds_bytes d <> [].
Proof. eexists. eexists. repeat split. discriminate. Qed.
(** The largest memory, 65536 pages, gets no page at all. *)
Theorem C32_largest_memory_refuted : forall max, exists mi, alloc_mem (Some (65536, max)) = IDone (Some mi) /\ m_data mi = [].
Proof. intros max. eexists. split; reflexivity. Qed.
(** From 32768 pages on, allocation aborts. *)
Theorem C32_large_memory_refuted : forall min max, 2 ^ 15 <= min < 2 ^ 16 -> alloc_mem (Some (min, max)) = IPanics.
Proof. intros min max B. unfold alloc_mem, usize, page, isize_max. rewrite Z.mod_small by lia. now replace (2 ^ 31 - 1 <? min * 65536) with true by lia. Qed.
