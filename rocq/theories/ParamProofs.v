(** The parameters of the invocation: proofs for Properties_Main.v (no modelled code). *)
From Coq Require Import ZArith List Bool Lia.
From Verif Require Import Word Value Mem Store Regs IR Machine Wasm Decoder Module Load LoadSpec.
Import ListNotations.
Open Scope Z_scope.

Lemma digit_ok d : 0 <= d <= 9 -> digit (48 + d) = Some d.
Proof. intros H. unfold digit. replace ((48 <=? 48 + d) && (48 + d <=? 57)) with true by lia. f_equal. lia. Qed.
Lemma digit_inv c d : digit c = Some d -> c = 48 + d /\ 0 <= d <= 9.
Proof. unfold digit. destruct ((48 <=? c) && (c <=? 57)) eqn:E; [|discriminate]. intros H. injection H as <-. lia. Qed.
Lemma digits_app s t : forall acc, digits acc (s ++ t) = match digits acc s with Some a => digits a t | None => None end.
Proof. induction s as [|c s IH]; intros acc; cbn [app digits]; auto. destruct (digit c); auto. Qed.
Lemma natural_digits s z : natural s z -> digits 0 s = Some z /\ s <> [] /\ 0 <= z /\ forall c, In c s -> 48 <= c <= 57.
Proof.
  induction 1 as [d H|s z d N (D & NE & P & A) H].
  - cbn [digits]. rewrite digit_ok by lia. split; auto. split; [discriminate|]. split; [lia|]. intros c [<-|[]]. lia.
  - rewrite digits_app, D. cbn [digits]. rewrite digit_ok by lia. split; [f_equal; lia|]. split; [now destruct s|]. split; [lia|].
    intros c I. apply in_app_or in I as [I|[<-|[]]]; [auto|lia].
Qed.
Lemma digits_natural s : s <> [] -> forall z, digits 0 s = Some z -> natural s z.
Proof.
  induction s as [|c s IH] using rev_ind; [congruence|]. intros _ z H. rewrite digits_app in H.
  destruct s as [|c' s].
  - cbn in H. destruct (digit c) as [d|] eqn:D; [|discriminate]. injection H as <-. apply digit_inv in D as [-> D]. cbn [app]. replace (0 * 10 + d) with d by lia. now constructor.
  - destruct (digits 0 (c' :: s)) as [a|]; [|discriminate]. specialize (IH ltac:(discriminate) a eq_refl). cbn [digits] in H.
    destruct (digit c) as [d|] eqn:D; [|discriminate]. injection H as <-. apply digit_inv in D as [-> D]. replace (a * 10 + d) with (10 * a + d) by lia. now constructor.
Qed.
(** the sign *)
Definition signed (s : list Z) : option Z :=
  match s with
  | 45 :: c :: s => option_map Z.opp (digits 0 (c :: s))
  | 43 :: c :: s => digits 0 (c :: s)
  | c :: s => digits 0 (c :: s)
  | [] => None
  end.
Lemma signed_cons c s : signed (c :: s) =
  if (c =? 45) && match s with [] => false | _ => true end then option_map Z.opp (digits 0 s)
  else if (c =? 43) && match s with [] => false | _ => true end then digits 0 s else digits 0 (c :: s).
Proof.
  destruct s as [|c' s].
  - rewrite !andb_false_r. unfold signed. destruct c as [|p|p]; try reflexivity. do 7 (try reflexivity; destruct p); reflexivity.
  - rewrite !andb_true_r. destruct (Z.eqb_spec c 45) as [->|N]; [reflexivity|]. destruct (Z.eqb_spec c 43) as [->|N']; [reflexivity|].
    unfold signed. destruct c as [|p|p]; try reflexivity. do 7 (try reflexivity; try congruence; destruct p).
Qed.
Lemma signed_numeral s z : signed s = Some z <-> numeral s z.
Proof.
  destruct s as [|c s].
  - split; [discriminate|]. intros H. inversion H as [s' ? N E| |]; subst. apply natural_digits in N as (_ & N & _). congruence.
  - rewrite signed_cons. split.
    + destruct (Z.eqb_spec c 45) as [->|N1]; cbn [andb].
      * destruct s as [|c' s].
        { discriminate. }
        destruct (digits 0 (c' :: s)) as [a|] eqn:D; [|discriminate]. intros H. injection H as <-. apply num_minus. now apply digits_natural.
      * destruct (Z.eqb_spec c 43) as [->|N2]; cbn [andb].
        { destruct s as [|c' s]; intros H; [discriminate|]. apply num_plus. now apply digits_natural. }
        intros H. apply num_plain. now apply digits_natural.
    + intros H. inversion H as [s' z' N E|s' z' N E|s' z' N E]; subst.
      * apply natural_digits in N as (D & _ & _ & A). specialize (A c (or_introl eq_refl)).
        replace (c =? 45) with false by lia. replace (c =? 43) with false by lia. exact D.
      * apply natural_digits in N as (D & NE & _). destruct s; [congruence|]. exact D.
      * apply natural_digits in N as (D & NE & _). destruct s; [congruence|]. cbn [Z.eqb Pos.eqb andb]. now rewrite D.
Qed.
Lemma parse_int_spec w s z : parse_int w s = Some z <-> numeral s z /\ - 2 ^ (w - 1) <= z < 2 ^ (w - 1).
Proof.
  change (parse_int w s) with (match signed s with Some z => if (- 2 ^ (w - 1) <=? z) && (z <? 2 ^ (w - 1)) then Some z else None | None => None end).
  rewrite <- signed_numeral. destruct (signed s) as [y|].
  - destruct ((- 2 ^ (w - 1) <=? y) && (y <? 2 ^ (w - 1))) eqn:E; split; intros H; try discriminate.
    + injection H as <-. split; auto. lia.
    + now destruct H.
    + destruct H as [H ?]. injection H as ->. lia.
  - split; [discriminate|]. intros [H _]. discriminate.
Qed.
Lemma numeral_chars s z : numeral s z -> forall c, In c s -> 48 <= c <= 57 \/ c = 43 \/ c = 45.
Proof.
  intros H c I. inversion H as [s' z' N E|s' z' N E|s' z' N E]; subst; apply natural_digits in N as (_ & _ & _ & A); [auto| |];
    destruct I as [<-|I]; auto.
Qed.

(** ** what lies between the parentheses *)
Lemma up_to_close_ok t : ~ In 10 t -> up_to_close (t ++ [41]) = Some t.
Proof.
  induction t as [|c t IH]; intros N; [reflexivity|]. cbn [app up_to_close].
  destruct (Z.eqb_spec c 10) as [->|]; [destruct N; now left|]. rewrite IH; auto. intros I. apply N. now right.
Qed.
(** the text is between the first parenthesis that is closed on its line and the last one closing there *)
Definition enclosed (s t : list Z) : Prop := exists a b, s = a ++ 40 :: t ++ 41 :: b /\ ~ In 10 t /\
  (forall a1 a2, a = a1 ++ 40 :: a2 -> In 10 a2) /\ (forall b1 b2, b = b1 ++ 41 :: b2 -> In 10 b1).
Lemma up_to_close_none s : up_to_close s = None -> forall b1 b2, s = b1 ++ 41 :: b2 -> In 10 b1.
Proof.
  induction s as [|c s IH]; intros U b1 b2 E; [destruct b1; discriminate E|]. cbn [up_to_close] in U.
  destruct (Z.eqb_spec c 10) as [->|N].
  - destruct b1 as [|x b1]; [discriminate E|]. injection E as <- _. now left.
  - destruct (up_to_close s) as [t|]; [discriminate U|]. destruct (Z.eqb_spec c 41) as [->|N']; [discriminate U|].
    destruct b1 as [|x b1]; [injection E as -> _; congruence|]. injection E as <- E. right. eapply IH; eauto.
Qed.
Lemma up_to_close_some s : forall t, up_to_close s = Some t -> exists b, s = t ++ 41 :: b /\ ~ In 10 t /\ forall b1 b2, b = b1 ++ 41 :: b2 -> In 10 b1.
Proof.
  induction s as [|c s IH]; intros t U; [discriminate U|]. cbn [up_to_close] in U. destruct (Z.eqb_spec c 10) as [->|N]; [discriminate U|].
  destruct (up_to_close s) as [t'|] eqn:E.
  - injection U as <-. destruct (IH t' eq_refl) as (b & -> & H1 & H2). exists b. split; auto. split; auto. intros [H|H]; auto.
  - destruct (Z.eqb_spec c 41) as [->|N']; [|discriminate U]. injection U as <-. exists s. split; auto. split; [auto|]. now apply up_to_close_none.
Qed.
Lemma capture_spec s t : capture s = Some t -> enclosed s t.
Proof.
  induction s as [|c s IH]; intros C; [discriminate C|]. cbn [capture] in C.
  assert (K : capture s = Some t -> (c = 40 -> up_to_close s = None) -> enclosed (c :: s) t).
  { intros C' U. destruct (IH C') as (a & b & E & H1 & H2 & H3). exists (c :: a), b. split; [now rewrite E|]. split; auto. split; auto.
    intros [|x a1] a2 EA; injection EA as -> EA; [|eapply H2; eauto]. subst a2.
    pose proof (up_to_close_none s (U eq_refl) (a ++ 40 :: t) b) as X. rewrite E in X. rewrite <- app_assoc in X. specialize (X eq_refl).
    apply in_app_or in X as [X|[X|X]]; auto; [discriminate X|contradiction]. }
  destruct (Z.eqb_spec c 40) as [->|N]; [|apply K; auto; congruence].
  destruct (up_to_close s) as [t'|] eqn:U; [|apply K; auto]. injection C as <-. destruct (up_to_close_some s t' U) as (b & -> & H1 & H2).
  exists [], b. split; auto. split; auto. split; auto. intros [|x a1] a2 EA; discriminate EA.
Qed.
Lemma prefix_no a p s : ~ In a s -> prefix (a :: p) s = false.
Proof. destruct s as [|c s]; intros N; cbn [prefix]; auto. destruct (Z.eqb_spec a c) as [->|]; auto. destruct N. now left. Qed.
Lemma contains_no a p s : ~ In a s -> contains (a :: p) s = false.
Proof.
  induction s as [|c s IH]; intros N; cbn [contains]; auto. rewrite prefix_no; auto. apply IH. intros I. apply N. now right.
Qed.
Lemma parse_written ff v s : val_ok v -> written ff v s -> parse_param ff s = Some [v].
Proof.
  intros B H. destruct v as [z|z|z|z|r|z]; cbn [written] in H; try contradiction.
  - destruct H as (t & N & ->). pose proof (numeral_chars _ _ N) as A.
    unfold parse_param. change (contains I32s ([73; 51; 50; 40] ++ t ++ [41])) with true. cbv iota.
    change (capture ([73; 51; 50; 40] ++ t ++ [41])) with (match up_to_close (t ++ [41]) with Some t => Some t | None => capture (t ++ [41]) end).
    rewrite up_to_close_ok by (intros I; specialize (A _ I); lia).
    replace (parse_int 32 t) with (Some z); [reflexivity|]. symmetry. apply parse_int_spec. split; auto.
  - destruct H as (t & N & ->). pose proof (numeral_chars _ _ N) as A.
    unfold parse_param.
    assert (E : contains I32s ([73; 54; 52; 40] ++ t ++ [41]) = false).
    { cbn [app contains prefix I32s]. cbn [Z.eqb Pos.eqb andb orb]. apply contains_no. intros I. apply in_app_or in I as [I|[I|[]]]; [specialize (A _ I)|]; lia. }
    rewrite E. change (contains I64s ([73; 54; 52; 40] ++ t ++ [41])) with true. cbv iota.
    change (capture ([73; 54; 52; 40] ++ t ++ [41])) with (match up_to_close (t ++ [41]) with Some t => Some t | None => capture (t ++ [41]) end).
    rewrite up_to_close_ok by (intros I; specialize (A _ I); lia).
    replace (parse_int 64 t) with (Some z); [reflexivity|]. symmetry. apply parse_int_spec. split; auto.
  - destruct H as (t & (C1 & C2 & C3) & FF & ->). unfold parse_param.
    assert (NI : ~ In 73 ([70; 51; 50; 40] ++ t ++ [41])) by (cbn [app In]; intros [I|[I|[I|[I|I]]]]; try lia; apply in_app_or in I as [I|[I|[]]]; [auto|lia]).
    unfold I32s, I64s. rewrite !contains_no by exact NI. change (contains F32s ([70; 51; 50; 40] ++ t ++ [41])) with true. cbv iota.
    change (capture ([70; 51; 50; 40] ++ t ++ [41])) with (match up_to_close (t ++ [41]) with Some t => Some t | None => capture (t ++ [41]) end).
    rewrite up_to_close_ok by auto. now rewrite FF.
  - destruct H as (t & (C1 & C2 & C3) & FF & ->). unfold parse_param.
    assert (NI : ~ In 73 ([70; 54; 52; 40] ++ t ++ [41])) by (cbn [app In]; intros [I|[I|[I|[I|I]]]]; try lia; apply in_app_or in I as [I|[I|[]]]; [auto|lia]).
    unfold I32s, I64s. rewrite !contains_no by exact NI.
    assert (E : contains F32s ([70; 54; 52; 40] ++ t ++ [41]) = false).
    { cbn [app contains prefix F32s]. cbn [Z.eqb Pos.eqb andb orb]. apply contains_no. intros I. apply in_app_or in I as [I|[I|[]]]; [auto|lia]. }
    rewrite E. change (contains F64s ([70; 54; 52; 40] ++ t ++ [41])) with true. cbv iota.
    change (capture ([70; 54; 52; 40] ++ t ++ [41])) with (match up_to_close (t ++ [41]) with Some t => Some t | None => capture (t ++ [41]) end).
    rewrite up_to_close_ok by auto. now rewrite FF.
Qed.
Lemma parse_written_all ff vs ss : Forall val_ok vs -> Forall2 (written ff) vs ss -> parse_params ff ss = Some vs.
Proof.
  intros B H. induction H as [|v s vs ss H _ IH]; [reflexivity|]. inversion B; subst. cbn [parse_params]. rewrite (parse_written ff v s) by auto. now rewrite IH.
Qed.
