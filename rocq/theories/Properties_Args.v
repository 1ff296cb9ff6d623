(** C33: the command line of the guest. *)
From Coq Require Import ZArith List Bool Lia.
From Verif Require Import Args ArgsSpec.
Import ListNotations.
Open Scope Z_scope.

Lemma eqb_no c x s : ~ In x (c :: s) -> (c =? x) = false /\ ~ In x s.
Proof. intros H. split; [apply Z.eqb_neq; intros ->; apply H; now left|intros I; apply H; now right]. Qed.
Lemma parse_bare s : ~ In 34 s -> ~ In 32 s -> forall t cur, parse_loop (s ++ t) cur false = parse_loop t (cur ++ s) false.
Proof.
  induction s as [|c s IH]; intros Q S t cur; cbn [app parse_loop]; [now rewrite app_nil_r|].
  apply eqb_no in Q as [Q1 Q2]. apply eqb_no in S as [S1 S2]. unfold quote, space. rewrite Q1, S1. cbn [andb]. rewrite IH by auto. now rewrite <- app_assoc.
Qed.
Lemma parse_in_quotes s : ~ In 34 s -> forall t cur, parse_loop (s ++ t) cur true = parse_loop t (cur ++ s) true.
Proof.
  induction s as [|c s IH]; intros Q t cur; cbn [app parse_loop]; [now rewrite app_nil_r|].
  apply eqb_no in Q as [Q1 Q2]. unfold quote. rewrite Q1, andb_false_r. rewrite IH by auto. now rewrite <- app_assoc.
Qed.
Lemma parse_word w : Forall piece_ok w -> forall t cur, parse_loop (word_src w ++ t) cur false = parse_loop t (cur ++ word_text w) false.
Proof.
  induction 1 as [|p w P W IH]; intros t cur; unfold word_src, word_text; cbn [map concat]; [now rewrite app_nil_r|]. fold (word_src w) (word_text w).
  rewrite <- app_assoc. destruct p as [s|s]; cbn [piece_src piece_text piece_ok] in *.
  - destruct P. rewrite parse_bare by auto. rewrite IH. now rewrite <- app_assoc.
  - cbn [app parse_loop]. change (34 =? quote) with true. cbn [negb]. rewrite <- app_assoc, parse_in_quotes by auto. cbn [app parse_loop]. change (34 =? quote) with true. cbn [negb]. rewrite IH. now rewrite <- app_assoc.
Qed.
Lemma parse_spaces n t : parse_loop (repeat 32 n ++ t) [] false = parse_loop t [] false.
Proof. induction n as [|n IH]; auto. Qed.
Lemma flush_filter a : flush a = filter nonempty [a]. Proof. now destruct a. Qed.

(** Every argument line - any text is one, C33_every_line - is split at the spaces outside quotes;
    quoted text is kept as it is; empty words are dropped. *)
Theorem C33_split : forall l, line_ok l -> parse_args (line_src l) = filter nonempty (line_texts l).
Proof.
  intros [ws w o] (WS & W & O). unfold parse_args, line_src, line_texts. cbn [l_words l_last l_open] in *.
  induction WS as [|[x n] ws [X N] WS IH]; cbn [map concat app].
  - rewrite parse_word by auto. cbn [app]. destruct o as [t|]; cbn [parse_loop].
    + change (34 =? quote) with true. cbn [negb]. rewrite <- (app_nil_r t) at 1. rewrite parse_in_quotes by auto. cbn [parse_loop]. apply flush_filter.
    + rewrite app_nil_r. apply flush_filter.
  - cbn [fst snd] in *. rewrite <- !app_assoc, parse_word by auto. cbn [app]. destruct n as [|n]; [lia|]. cbn [repeat app parse_loop]. change (32 =? quote) with false. change (32 =? space) with true. cbn [andb negb].
    rewrite parse_spaces, IH, flush_filter. cbn [filter]. now destruct (nonempty (word_text x)).
Qed.
(** every string is such a line *)
Theorem C33_every_line : forall s, exists l, line_ok l /\ line_src l = s.
Proof.
  assert (H : forall n s, (length s <= n)%nat -> exists l, line_ok l /\ line_src l = s).
  { induction n as [|n IH]; intros s L.
    - destruct s; [|cbn in L; lia]. exists {| l_words := []; l_last := []; l_open := None |}. repeat split; constructor.
    - destruct s as [|c s]. { exists {| l_words := []; l_last := []; l_open := None |}. repeat split; constructor. } cbn in L.
      (* put a piece at the front of a line *)
      assert (FRONT : forall p l, piece_ok p -> line_ok l -> exists l', line_ok l' /\ line_src l' = piece_src p ++ line_src l).
      { intros p [ws w o] P (WS & W & O). cbn [l_words l_last l_open] in *. destruct ws as [|[x k] ws].
        - exists {| l_words := []; l_last := p :: w; l_open := o |}. split; [split; [constructor|split; [constructor; auto|auto]]|]. unfold line_src, word_src. cbn [l_words l_last l_open map concat app]. now rewrite <- ?app_assoc.
        - inversion WS as [|? ? [X K] WS']; subst. exists {| l_words := (p :: x, k) :: ws; l_last := w; l_open := o |}. split.
          + split; [constructor; [split; [constructor|]; auto|auto]|split; auto].
          + unfold line_src, word_src. cbn [l_words l_last l_open map concat app fst snd]. now rewrite <- ?app_assoc. }
      destruct (Z.eq_dec c 34) as [->|Q].
      + (* a quoted piece, or an open quote *)
        assert (D : (exists a b, s = a ++ 34 :: b /\ ~ In 34 a) \/ ~ In 34 s).
        { clear. induction s as [|x s [(a & b & -> & A)|IH]]; [now right| |].
          - destruct (Z.eq_dec x 34) as [->|X]; left; [exists [], (a ++ 34 :: b); split; [reflexivity|intros []]|].
            exists (x :: a), b. split; [reflexivity|]. intros [E|I]; [congruence|auto].
          - destruct (Z.eq_dec x 34) as [->|X]; [left; exists [], s; split; [reflexivity|intros []]|]. right. intros [E|I]; [congruence|auto]. }
        destruct D as [(a & b & -> & A)|A].
        * destruct (IH b) as (l & LO & LS). { rewrite app_length in L. cbn in L. lia. }
          destruct (FRONT (Quoted a) l A LO) as (l' & LO' & LS'). exists l'. split; auto. rewrite LS', LS. cbn. now rewrite <- app_assoc.
        * exists {| l_words := []; l_last := []; l_open := Some s |}. split; [split; [constructor|split; [constructor|exact A]]|reflexivity].
      + destruct (IH s ltac:(lia)) as (l & LO & LS). destruct (Z.eq_dec c 32) as [->|SP].
        * destruct l as [ws w o]. destruct LO as (WS & W & O). cbn [l_words l_last l_open] in *. exists {| l_words := ([], 1%nat) :: ws; l_last := w; l_open := o |}.
          split; [split; [constructor; [split; [constructor|cbn; lia]|auto]|split; auto]|]. rewrite <- LS. reflexivity.
        * destruct (FRONT (Bare [c]) l) as (l' & LO' & LS'); auto. { split; intros [E|[]]; congruence. }
          exists l'. split; auto. now rewrite LS', LS. }
  intros s. eapply H. reflexivity.
Qed.
(** Full claim: every list of arguments can be written and is recovered.  Missing: empty arguments
    and arguments with a quote in them, for which it is false (below). *)
Theorem C33_quoted_partial : forall args, Forall (fun a => a <> [] /\ ~ In 34 a) args -> parse_args (quoted_line args) = args.
Proof.
  unfold parse_args. induction 1 as [|a args [N Q] _ IH]; [reflexivity|]. cbn [quoted_line]. destruct args as [|b args].
  - cbn [parse_loop]. change (34 =? quote) with true. cbn [negb]. rewrite parse_in_quotes by auto. cbn. destruct a; [congruence|reflexivity].
  - cbn [parse_loop app]. change (34 =? quote) with true. cbn [negb]. rewrite parse_in_quotes by auto. cbn [app parse_loop]. change (34 =? quote) with true. change (32 =? quote) with false. change (32 =? space) with true. cbn [negb andb].
    rewrite IH. destruct a; [congruence|reflexivity].
Qed.
(** No line whatever gives an argument that is empty or contains a quote. *)
Theorem C33_empty_and_quote_refuted : forall s a, In a (parse_args s) -> a <> [] /\ ~ In 34 a.
Proof.
  assert (H : forall s cur q a, ~ In 34 cur -> In a (parse_loop s cur q) -> a <> [] /\ ~ In 34 a).
  { induction s as [|c s IH]; intros cur q a C I; cbn [parse_loop] in I.
    - destruct cur; cbn in I; [tauto|]. destruct I as [<-|[]]. split; [congruence|auto].
    - unfold quote, space in I. destruct (c =? 34) eqn:Q; [eauto|]. destruct ((c =? 32) && negb q).
      + apply in_app_iff in I as [I|I]; [|eapply (IH []); [intros []|exact I]]. destruct cur; cbn in I; [tauto|]. destruct I as [<-|[]]. split; [congruence|auto].
      + eapply (IH (cur ++ [c])); [|exact I]. intros X. apply in_app_iff in X as [X|[X|[]]]; auto. apply Z.eqb_neq in Q. congruence. }
  intros s a. apply H. intros [].
Qed.
(** The program's own name always comes first, whatever the line. *)
Theorem C33_argv : forall file l, line_ok l -> argv file (Some (line_src l)) = file :: filter nonempty (line_texts l).
Proof. intros file l L. unfold argv. now rewrite C33_split. Qed.
(** -d, then a quoted [a b] followed by [.x], an empty pair of quotes, -n, and a quote left open before [c d] *)
Example C33_example : exists l, line_ok l /\ line_src l = [45; 100; 32; 34; 97; 32; 98; 34; 46; 120; 32; 32; 34; 34; 32; 45; 110; 32; 34; 99; 32; 100] /\
  parse_args (line_src l) = [[45; 100]; [97; 32; 98; 46; 120]; [45; 110]; [99; 32; 100]].
Proof.
  exists {| l_words := [([Bare [45; 100]], 1%nat); ([Quoted [97; 32; 98]; Bare [46; 120]], 2%nat); ([Quoted []], 1%nat); ([Bare [45; 110]], 1%nat)]; l_last := []; l_open := Some [99; 32; 100] |}.
  split; [|split; reflexivity]. split; [|split; [constructor|cbn; lia]]. repeat (constructor; [split; [repeat constructor; cbn; intuition lia|cbn; lia]|]). constructor.
Qed.
