(** The interpreter's WASI functions on a host whose replies are bytes give the guest numbers and bytes. *)
From Coq Require Import ZArith List Bool Lia.
From Verif Require Import Word Value Numeric NumericProofs Mem WasmMem MemProofs Wasi WasiSpec Machine Soundness WorldSpec World.
Import ListNotations.
Open Scope Z_scope.

Definition near (m m' : list Z) : Prop := forall i y, nth_error m' i = Some y -> is_byte y \/ nth_error m i = Some y.
Lemma near_refl m : near m m. Proof. intros i y A. auto. Qed.
Lemma near_trans m m' m'' : near m m' -> near m' m'' -> near m m''.
Proof. intros A B i y H. destruct (B i y H) as [K|K]; auto. Qed.
Lemma near_splice m m' k bs : (k + length bs <= length m')%nat -> bytes_ok bs -> near m m' -> near m (splice m' k bs).
Proof.
  intros L B N. apply (near_trans _ _ _ N). intros i y Y. pose proof (splice_length m' k bs L) as SL.
  assert (I : (i < length m')%nat) by (rewrite <- SL; apply nth_error_Some; congruence).
  pose proof (nth_error_nth _ _ 0 Y) as V. rewrite splice_nth in V by auto.
  match type of V with (if ?b then _ else _) = _ => destruct b eqn:E end.
  - left. rewrite <- V. unfold bytes_ok in B. rewrite Forall_forall in B. apply B, nth_In.
    apply andb_prop in E as [E1 E2]. apply Nat.leb_le in E1. apply Nat.ltb_lt in E2. lia.
  - right. rewrite <- V. now apply nth_error_nth'.
Qed.
Lemma image_bytes m m' : near m m' -> Forall (fun w => is_byte (snd w)) (image m m').
Proof.
  intros N. apply Forall_forall. intros w I. unfold image in I. apply in_map_iff in I as ((i & x & y) & <- & I). apply filter_In in I as [I D]. cbn [fst snd] in *.
  apply negb_true_iff, Z.eqb_neq in D.
  assert (G : forall (a b : list Z) k, In (i, (x, y)) (combine (seq k (length a)) (combine a b)) -> exists j, nth_error a j = Some x /\ nth_error b j = Some y).
  { clear. induction a as [|u a IH]; intros b k H; [destruct H|]. destruct b as [|v b]; [cbn in H; contradiction|]. cbn [length seq combine] in H. destruct H as [H|H].
    - injection H as <- <- <-. exists 0%nat. auto.
    - destruct (IH b (S k) H) as (j & A & C). exists (S j). auto. }
  destruct (G _ _ _ I) as (j & A & C). destruct (N j y C) as [K|K]; [auto|congruence].
Qed.

(** every way a WASI call can end leaves bytes *)
Definition rgood (f : wfun) (m : list Z) (r : reply) : Prop := near m (r_mem r) /\ (f = EnvironGet -> bytes_ok (r_buf r)).
Inductive pgood (m : list Z) : wprog -> Prop :=
| GEnd o : (forall v m', o = WRet v m' -> val_ok v /\ val_cls v = CI32 /\ near m m') -> pgood m (WEnd o)
| GCall f hs k : (forall r, rgood f m r -> pgood m (k r)) -> pgood m (WCall f hs k).
Lemma g_ret m e m' : near m m' -> pgood m (ret e m').
Proof. intros N. constructor. intros v x [= <- <-]. split; [apply cast_s_range; lia|]. split; auto. Qed.
Lemma g_errno m f r : rgood f m r -> pgood m (ret_errno r). Proof. intros [N _]. now apply g_ret. Qed.
Lemma g_store m m' p bs k : bytes_ok bs -> near m m' -> (forall m'', near m m'' -> pgood m (k m'')) -> pgood m (wstore m' p bs k).
Proof.
  intros B N K. unfold wstore, raw_write. destruct ((0 <=? p) && (p + mlen bs <=? mlen m')) eqn:E; [|constructor; discriminate].
  apply K, near_splice; auto. unfold mlen in E. lia.
Qed.
Lemma g_iovs m b m' p n k : (forall l, pgood m (k l)) -> pgood m (with_iovs b m' p n k).
Proof. intros K. unfold with_iovs. destruct (iovs b m' p n); auto; constructor; discriminate. Qed.
Lemma g_path m m' p n k : (forall s, pgood m (k s)) -> pgood m (with_path m' p n k).
Proof. intros K. unfold with_path. destruct (raw_read m' p n); auto; constructor; discriminate. Qed.
Lemma ptrs_bytes l : forall b o, bytes_ok (args_ptrs b o l).
Proof. induction l as [|a l IH]; intros b o; cbn [args_ptrs]; [apply le_encode_bytes|]. apply Forall_app. split; [apply le_encode_bytes|apply IH]. Qed.
Lemma eptrs_bytes b n ps : bytes_ok (environ_ptrs b n ps).
Proof. unfold environ_ptrs. apply Forall_app. split; [|apply le_encode_bytes]. apply Forall_concat, Forall_forall. intros x I. apply in_map_iff in I as (i & <- & _). apply le_encode_bytes. Qed.
Lemma buf_bytes l : Forall bytes_ok l -> bytes_ok (args_buf l).
Proof. intros H. unfold args_buf. apply Forall_concat, Forall_forall. intros x I. apply in_map_iff in I as (a & <- & I). rewrite Forall_forall in H. apply Forall_app. split; [apply H; auto|]. repeat constructor; unfold is_byte; lia. Qed.
Lemma firstn_bytes n l : bytes_ok l -> bytes_ok (firstn n l).
Proof. intros H. apply Forall_forall. intros x I. unfold bytes_ok in H. rewrite Forall_forall in H. apply H. rewrite <- (firstn_skipn n l). apply in_or_app. now left. Qed.
Lemma zeros_bytes n : bytes_ok (repeat 0 n). Proof. apply Forall_forall. intros x I. apply repeat_spec in I as ->. unfold is_byte. lia. Qed.
Ltac wg := repeat match goal with
  | |- pgood _ (WEnd _) => constructor; discriminate
  | |- pgood _ (WCall _ _ _) => constructor; intros
  | H : rgood _ _ _ |- pgood _ (ret_errno _) => exact (g_errno _ _ _ H)
  | |- pgood _ (ret _ _) => apply g_ret
  | |- pgood _ (wstore _ _ _ _) => apply g_store; [| |intros]
  | |- pgood _ (with_iovs _ _ _ _ _) => apply g_iovs; intros
  | |- pgood _ (with_path _ _ _ _) => apply g_path; intros
  | |- pgood _ (if ?b then _ else _) => destruct b
  | |- bytes_ok (le_encode _ _) => apply le_encode_bytes
  | |- bytes_ok (args_ptrs _ _ _) => apply ptrs_bytes
  | |- bytes_ok (environ_ptrs _ _ _) => apply eptrs_bytes
  | |- bytes_ok (args_buf _) => apply buf_bytes
  | H : rgood _ ?m ?r |- near ?m (r_mem ?r) => apply H
  | |- near ?m ?m => apply near_refl
  | |- near _ _ => assumption
  end.
Lemma perform_good argv m f zs : Forall bytes_ok argv -> pgood m (perform argv m f zs).
Proof.
  intros A. destruct f; cbn [perform]; repeat (match goal with |- pgood _ (match ?l with [] => _ | _ :: _ => _ end) => destruct l end; try (constructor; discriminate)); try (constructor; discriminate);
    unfold fd_write, fd_read, fd_p, random_get, environ_get, environ_sizes_get, args_get, args_sizes_get, clock; cbv zeta; wg; auto.
  apply firstn_bytes, Forall_app. split; [|apply zeros_bytes]. match goal with H : rgood EnvironGet _ _ |- _ => now apply H end.
Qed.
Lemma call_good argv m f vs : Forall bytes_ok argv -> pgood m (call_wasi argv (Some m) f vs).
Proof. intros A. cbn [call_wasi]. destruct f; try (constructor; discriminate); destruct (params _ _); try (constructor; discriminate); now apply perform_good. Qed.

Lemma drive_good sys env m p : byte_replies sys -> Forall bytes_ok env -> pgood m p -> forall past m', near m m' ->
  forall v m'', snd (drive sys env past m' p) = WRet v m'' -> val_ok v /\ val_cls v = CI32 /\ near m m''.
Proof.
  intros BS BE G. induction G as [o H|f hs k _ IH]; intros past m' N v m'' D; cbn [drive] in D; [now apply H|].
  assert (ER : forall m', near m m' -> rgood f m (env_reply env m')).
  { intros x X. split; auto. intros _. unfold env_reply, strings_z. cbn [r_buf]. rewrite flat_map_concat_map. apply (buf_bytes env BE). }
  assert (SR : forall a q x, near m x -> near m (r_mem (sys ((f, a, x) :: q)))) by (intros a q x X; apply (near_trans _ x); auto; intros i y; apply BS).
  destruct f; try (eapply IH; [apply ER, N| |exact D]; exact N);
    (match type of D with context [if ?b then _ else _] => destruct b end; [|discriminate D]; eapply IH; [| |exact D]; [split; [apply SR, N|discriminate]|apply SR, N]).
Qed.
Lemma passthrough_ok sys argv env : byte_replies sys -> Forall bytes_ok argv -> Forall bytes_ok env ->
  forall log o ws, passthrough sys argv env log = HoRet o ws -> (forall v, o = Some v -> val_ok v /\ val_cls v = CI32) /\ Forall (fun w => is_byte (snd w)) ws.
Proof.
  intros BS BA BE log o ws H. destruct log as [|[[w vs] m] log]; [discriminate|]. cbn [passthrough] in H.
  destruct (snd (answer sys argv env (made sys argv env log) (w, vs, m))) as [v m'|e| | |] eqn:A; try discriminate.
  - injection H as <- <-. cbn [answer] in A. destruct (fun_of w) as [f|]; [|discriminate A]. destruct m as [m|]; [|discriminate A]. cbn [snd].
    destruct (drive_good sys env m _ BS BE (call_good argv m f vs BA) (made sys argv env log) m (near_refl m) v m' A) as (V & C & N).
    split; [intros x [= <-]; auto|]. now apply image_bytes.
  - destruct (fst _) as [|[[[] [|[] [|]]] ?] ?]; discriminate.
Qed.
