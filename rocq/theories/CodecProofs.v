(** The encoding of the checkpoint file: what is written can be read back, reading does not look behind
    what was written, and nothing else is read as the same value. *)
From Coq Require Import ZArith List Bool Lia.
From Verif Require Import Word NumericProofs Value Mem WasmMem MemProofs Store Regs IR Machine Runtime Codec.
Import ListNotations.
Open Scope Z_scope.

Record good {A} (c : codec A) : Prop := {
  g_bytes : forall x, bytes_ok (put c x);
  g_round : forall x r, fits c x -> get c (put c x ++ r) = Some (x, r);
  g_more : forall b x r e, get c b = Some (x, r) -> get c (b ++ e) = Some (x, r ++ e);
  g_canon : forall b x r, bytes_ok b -> get c b = Some (x, r) -> fits c x /\ b = put c x ++ r }.

Lemma bytes_app a b : bytes_ok (a ++ b) <-> bytes_ok a /\ bytes_ok b.
Proof. unfold bytes_ok. apply Forall_app. Qed.

Lemma take_put n (a r : list Z) : length a = n -> take_bytes n (a ++ r) = Some (a, r).
Proof.
  intros <-. unfold take_bytes. rewrite app_length.
  destruct (Nat.ltb_spec (length a + length r) (length a)); [lia|].
  now rewrite firstn_app, firstn_all, Nat.sub_diag, firstn_O, app_nil_r, skipn_app, skipn_all, Nat.sub_diag.
Qed.
Lemma take_more n b x r e : take_bytes n b = Some (x, r) -> take_bytes n (b ++ e) = Some (x, r ++ e).
Proof.
  unfold take_bytes. destruct (Nat.ltb_spec (length b) n); [discriminate|]. intros [= <- <-].
  rewrite app_length. destruct (Nat.ltb_spec (length b + length e) n); [lia|].
  rewrite firstn_app, skipn_app. replace (n - length b)%nat with O by lia. now rewrite firstn_O, app_nil_r, skipn_O.
Qed.
Lemma take_split n b x r : take_bytes n b = Some (x, r) -> b = x ++ r /\ length x = n.
Proof.
  unfold take_bytes. destruct (Nat.ltb_spec (length b) n); [discriminate|]. intros [= <- <-].
  split; [symmetry; apply firstn_skipn|]. rewrite firstn_length. lia.
Qed.
Lemma le_encode_decode l : bytes_ok l -> le_encode (length l) (le_decode l) = l.
Proof.
  induction 1 as [|b l Hb Hl IH]; [reflexivity|]. cbn [length le_encode le_decode]. unfold is_byte in Hb.
  replace (b + 256 * le_decode l) with (b + le_decode l * 256) by lia.
  rewrite Z.mod_add by lia. rewrite Z.div_add by lia. rewrite Z.mod_small, Z.div_small by lia. now rewrite Z.add_0_l, IH.
Qed.
Lemma le_encode_mod n z : le_encode n (z mod 256 ^ Z.of_nat n) = le_encode n z.
Proof.
  rewrite <- (le_decode_encode n z). pose proof (le_encode_length n z) as L.
  rewrite <- L at 1. apply le_encode_decode, le_encode_bytes.
Qed.
Lemma pow_256 n : 256 ^ Z.of_nat n = 2 ^ (8 * Z.of_nat n).
Proof. change 256 with (2 ^ 8). now rewrite <- Z.pow_mul_r by lia. Qed.

Lemma uint_good n : good (c_uint n).
Proof.
  constructor; cbn [put get fits c_uint].
  - intros. apply le_encode_bytes.
  - intros x r H. rewrite take_put by apply le_encode_length. rewrite le_decode_encode. now rewrite Z.mod_small.
  - intros b x r e. destruct (take_bytes n b) as [[y q]|] eqn:T; [|discriminate]. intros [= <- <-]. now rewrite (take_more _ _ _ _ e T).
  - intros b x r B. destruct (take_bytes n b) as [[y q]|] eqn:T; [|discriminate]. intros [= <- <-].
    apply take_split in T. destruct T as (-> & L). apply bytes_app in B. destruct B as (B & _). split.
    + pose proof (le_decode_range _ B) as Hr. unfold mlen in Hr. now rewrite L in Hr.
    + now rewrite <- L, le_encode_decode.
Qed.
Lemma int_good n : (0 < n)%nat -> good (c_int n).
Proof.
  intros Hn. assert (W : 0 < 8 * Z.of_nat n) by lia. constructor; cbn [put get fits c_int].
  - intros. apply le_encode_bytes.
  - intros x r H. rewrite take_put by apply le_encode_length. rewrite le_decode_encode, pow_256.
    do 2 f_equal. rewrite <- (cast_s_id _ _ W H) at 2. unfold cast_s. now rewrite Z.mod_mod by (apply Z.pow_nonzero; lia).
  - intros b x r e. destruct (take_bytes n b) as [[y q]|] eqn:T; [|discriminate]. intros [= <- <-]. now rewrite (take_more _ _ _ _ e T).
  - intros b x r B. destruct (take_bytes n b) as [[y q]|] eqn:T; [|discriminate]. intros [= <- <-].
    apply take_split in T. destruct T as (-> & L). apply bytes_app in B. destruct B as (B & _). split.
    + now apply cast_s_range.
    + rewrite <- le_encode_mod, pow_256, cast_s_mod, <- pow_256, le_encode_mod by auto. now rewrite <- L, le_encode_decode.
Qed.
Lemma via_good {A B} (c : codec A) (to : B -> A) back (ok : B -> Prop) : good c ->
  (forall x, fits c (to x) -> ok x -> back (to x) = Some x) -> (forall y x, fits c y -> back y = Some x -> to x = y /\ ok x) ->
  good (c_via c to back ok).
Proof.
  intros G H1 H2. constructor; cbn [put get fits c_via].
  - intros. apply G.
  - intros x r (F & O). now rewrite (g_round _ G _ _ F), H1.
  - intros b x r e. destruct (get c b) as [[y q]|] eqn:T; [|discriminate]. destruct (back y) eqn:K; [|discriminate].
    intros [= <- <-]. now rewrite (g_more _ G _ _ _ e T), K.
  - intros b x r O. destruct (get c b) as [[y q]|] eqn:T; [|discriminate]. destruct (back y) eqn:K; [|discriminate].
    intros [= <- <-]. destruct (g_canon _ G _ _ _ O T) as (F & ->). destruct (H2 _ _ F K) as (<- & ?). auto.
Qed.
Lemma pair_good {A B} (a : codec A) (b : codec B) : good a -> good b -> good (c_pair a b).
Proof.
  intros Ga Gb. constructor; cbn [put get fits c_pair].
  - intros. apply bytes_app. split; [apply Ga|apply Gb].
  - intros [x y] r (F1 & F2). cbn [fst snd] in *. rewrite <- app_assoc, (g_round _ Ga _ _ F1), (g_round _ Gb _ _ F2). reflexivity.
  - intros l x r e. destruct (get a l) as [[y q]|] eqn:T; [|discriminate]. destruct (get b q) as [[y' q']|] eqn:T'; [|discriminate].
    intros [= <- <-]. now rewrite (g_more _ Ga _ _ _ e T), (g_more _ Gb _ _ _ e T').
  - intros l x r O. destruct (get a l) as [[y q]|] eqn:T; [|discriminate]. destruct (get b q) as [[y' q']|] eqn:T'; [|discriminate].
    intros [= <- <-]. destruct (g_canon _ Ga _ _ _ O T) as (F & ->). apply bytes_app in O. destruct O as (_ & O).
    destruct (g_canon _ Gb _ _ _ O T') as (F' & ->). cbn [fst snd]. rewrite <- app_assoc. auto.
Qed.
Lemma get_n_round {A} (c : codec A) l r : good c -> Forall (fits c) l -> get_n c (length l) (flat_map (put c) l ++ r) = Some (l, r).
Proof.
  intros G. induction 1 as [|x l F Fl IH]; [reflexivity|]. cbn [length get_n flat_map].
  rewrite <- app_assoc, (g_round _ G _ _ F), IH. reflexivity.
Qed.
Lemma get_n_more {A} (c : codec A) n : good c -> forall b x r e, get_n c n b = Some (x, r) -> get_n c n (b ++ e) = Some (x, r ++ e).
Proof.
  intros G. induction n as [|n IH]; intros b x r e; cbn [get_n]; [now intros [= <- <-]|].
  destruct (get c b) as [[y q]|] eqn:T; [|discriminate]. destruct (get_n c n q) as [[l q']|] eqn:T'; [|discriminate].
  intros [= <- <-]. now rewrite (g_more _ G _ _ _ e T), (IH _ _ _ e T').
Qed.
Lemma get_n_canon {A} (c : codec A) n : good c -> forall b x r, bytes_ok b -> get_n c n b = Some (x, r) ->
  length x = n /\ Forall (fits c) x /\ b = flat_map (put c) x ++ r.
Proof.
  intros G. induction n as [|n IH]; intros b x r O; cbn [get_n]; [intros [= <- <-]; auto|].
  destruct (get c b) as [[y q]|] eqn:T; [|discriminate]. destruct (get_n c n q) as [[l q']|] eqn:T'; [|discriminate].
  intros [= <- <-]. destruct (g_canon _ G _ _ _ O T) as (F & ->). apply bytes_app in O. destruct O as (_ & O).
  destruct (IH _ _ _ O T') as (L & Fl & ->). cbn [length flat_map]. rewrite <- app_assoc. auto.
Qed.
Lemma vec_good {A} (c : codec A) : good c -> good (c_vec c).
Proof.
  intros G. pose proof (uint_good 8) as U. constructor; cbn [put get fits c_vec].
  - intros l. apply bytes_app. split; [apply le_encode_bytes|]. induction l; [constructor|]. cbn [flat_map]. apply bytes_app. split; [apply G|auto].
  - intros l r (L & F). rewrite <- app_assoc. change (le_encode 8 (Z.of_nat (length l))) with (put (c_uint 8) (Z.of_nat (length l))). rewrite (g_round _ U).
    + destruct (Z.ltb_spec (Z.of_nat (length l)) (2 ^ 32)); [|lia]. rewrite Nat2Z.id. now apply get_n_round.
    + cbn [fits c_uint]. change (256 ^ Z.of_nat 8) with (2 ^ 64). lia.
  - intros b x r e. destruct (get (c_uint 8) b) as [[n q]|] eqn:T; [|discriminate]. rewrite (g_more _ U _ _ _ e T).
    destruct (n <? 2 ^ 32); [|discriminate]. now apply get_n_more.
  - intros b x r O. destruct (get (c_uint 8) b) as [[n q]|] eqn:T; [|discriminate].
    destruct (Z.ltb_spec n (2 ^ 32)) as [Hn|]; [|discriminate]. intros N.
    destruct (g_canon _ U _ _ _ O T) as (F & ->). apply bytes_app in O. destruct O as (_ & O).
    destruct (get_n_canon c _ G _ _ _ O N) as (L & Fl & ->). cbn [fits c_uint] in F. split; [split; [lia|auto]|].
    rewrite L. cbn [put c_uint]. rewrite Z2Nat.id by lia. now rewrite app_assoc.
Qed.
Lemma nat_good n bound : good (c_nat n bound).
Proof.
  apply via_good; [apply uint_good| |].
  - intros x F O. cbn. destruct (Z.ltb_spec (Z.of_nat x) bound); [|lia]. now rewrite Nat2Z.id.
  - intros y x F. cbn in F. destruct (Z.ltb_spec y bound); [|discriminate]. intros [= <-]. rewrite Z2Nat.id by lia. auto.
Qed.
Lemma bool_good : good c_bool.
Proof.
  apply via_good; [apply uint_good| |].
  - now intros [] _ _.
  - intros y x F. destruct (Z.eqb_spec y 0) as [->|]; [intros [= <-]; auto|]. destruct (Z.eqb_spec y 1) as [->|]; [intros [= <-]; auto|discriminate].
Qed.
Lemma enum_good {A} (tag : A -> Z) of : (forall t c, of t = Some c -> good c /\ forall x, fits c x -> tag x = t) -> good (c_enum tag of).
Proof.
  intros H. pose proof (uint_good 4) as U. constructor; cbn [put get fits c_enum].
  - intros x. apply bytes_app. split; [apply le_encode_bytes|]. destruct (of (tag x)) eqn:K; [|constructor]. now apply (H _ _ K).
  - intros x r (L & F). destruct (of (tag x)) as [c|] eqn:K; [|easy]. rewrite <- app_assoc.
    change (le_encode 4 (tag x)) with (put (c_uint 4) (tag x)). rewrite (g_round _ U), K; [|cbn [fits c_uint]; change (256 ^ Z.of_nat 4) with (2 ^ 32); lia].
    now apply (g_round _ (proj1 (H _ _ K))).
  - intros b x r e. destruct (get (c_uint 4) b) as [[t q]|] eqn:T; [|discriminate]. rewrite (g_more _ U _ _ _ e T).
    destruct (of t) as [c|] eqn:K; [|discriminate]. apply (g_more _ (proj1 (H _ _ K))).
  - intros b x r O. destruct (get (c_uint 4) b) as [[t q]|] eqn:T; [|discriminate].
    destruct (of t) as [c|] eqn:K; [|discriminate]. intros N.
    destruct (g_canon _ U _ _ _ O T) as (F & ->). apply bytes_app in O. destruct O as (_ & O).
    destruct (H _ _ K) as (G & Ht). destruct (g_canon _ G _ _ _ O N) as (Fx & ->). rewrite (Ht _ Fx), K.
    cbn [fits c_uint] in F. change (256 ^ Z.of_nat 4) with (2 ^ 32) in F. cbn [put c_uint]. rewrite <- app_assoc. auto.
Qed.
Lemma unit_good {A} (x : A) (is : A -> Prop) : (forall y, is y <-> y = x) -> good (c_unit x is).
Proof.
  intros H. constructor; cbn [put get fits c_unit].
  - constructor.
  - intros y r Hy. apply H in Hy. now subst.
  - now intros b y r e [= <- <-].
  - intros b y r _ [= <- <-]. split; [now apply H|reflexivity].
Qed.

(** ** the types *)
Lemma class_good c : good (of_class c).
Proof.
  destruct c; cbn [of_class];
  try (apply via_good; [first [apply uint_good | apply int_good; lia] | intros [] _ K; cbn in K; (discriminate K || reflexivity) | intros y x _ [= <-]; split; reflexivity]).
  apply enum_good. intros t c. destruct (Z.eqb_spec t 0) as [->|]; [|discriminate]. intros [= <-]. split.
  - now apply unit_good.
  - now intros x ->.
Qed.
Lemma class_fits c v : fits (of_class c) v <-> val_cls v = c /\ val_ok v /\ ser_val v = true.
Proof.
  destruct c; cbn [of_class fits c_i32 c_i64 c_f32 c_f64 c_v128 c_ref c_via c_int c_uint c_enum].
  1,2,3,4,6: split; [intros (F & K); destruct v; cbn in K; try discriminate K; cbn; auto
                    |intros (K & O & S); destruct v; cbn in K; try discriminate K; cbn in O |- *; auto].
  split.
  - destruct v as [ | | | |[] | ]; cbn; intros (F & K); try contradiction; try discriminate K; auto.
  - intros (K & O & S). destruct v as [ | | | |[] | ]; cbn in K, S; try discriminate; cbn. split; [lia|reflexivity].
Qed.
Lemma num_good : good c_num.
Proof.
  apply enum_good. intros t c.
  destruct (Z.eqb_spec t 0) as [->|]; [intros [= <-]; split; [apply (class_good CI32)|]; intros x (F & K); destruct x; cbn in K; (discriminate || reflexivity)|].
  destruct (Z.eqb_spec t 1) as [->|]; [intros [= <-]; split; [apply (class_good CI64)|]; intros x (F & K); destruct x; cbn in K; (discriminate || reflexivity)|].
  destruct (Z.eqb_spec t 2) as [->|]; [intros [= <-]; split; [apply (class_good CF32)|]; intros x (F & K); destruct x; cbn in K; (discriminate || reflexivity)|].
  destruct (Z.eqb_spec t 3) as [->|]; [|discriminate]. intros [= <-]; split; [apply (class_good CF64)|]; intros x (F & K); destruct x; cbn in K; (discriminate || reflexivity).
Qed.
Lemma vec128_good : good c_vec128.
Proof.
  apply enum_good. intros t c. destruct (Z.eqb_spec t 0) as [->|]; [|discriminate]. intros [= <-]. split; [apply (class_good CV128)|auto].
Qed.
Lemma num_fits v : fits c_num v <-> (val_ok v /\ match v with VI32 _ | VI64 _ | VF32 _ | VF64 _ => True | _ => False end).
Proof.
  pose proof (fun c => class_fits c v) as H. destruct v; cbn [fits c_num c_enum]; cbn [Z.eqb Pos.eqb].
  - specialize (H CI32). cbn [of_class] in H. rewrite H. cbn. intuition lia.
  - specialize (H CI64). cbn [of_class] in H. rewrite H. cbn. intuition lia.
  - specialize (H CF32). cbn [of_class] in H. rewrite H. cbn. intuition lia.
  - specialize (H CF64). cbn [of_class] in H. rewrite H. cbn. intuition lia.
  - specialize (H CF64). cbn [of_class] in H. rewrite H. cbn. intuition discriminate.
  - specialize (H CF64). cbn [of_class] in H. rewrite H. cbn. intuition discriminate.
Qed.
Lemma val_good : good c_val.
Proof.
  apply enum_good. intros t c.
  destruct (Z.eqb_spec t 0) as [->|].
  { intros [= <-]. split; [apply num_good|]. intros x F. apply num_fits in F. destruct x; cbn in F; intuition. }
  destruct (Z.eqb_spec t 1) as [->|].
  { intros [= <-]. split; [apply vec128_good|]. intros x (_ & F). cbn [Z.eqb] in F. destruct F as (_ & K). destruct x; cbn in K; (discriminate || reflexivity). }
  destruct (Z.eqb_spec t 2) as [->|]; [|discriminate].
  intros [= <-]. split; [apply (class_good CRef)|]. intros x F. apply (class_fits CRef) in F. destruct F as (K & _). destruct x; cbn in K; (discriminate || reflexivity).
Qed.
Lemma val_fits v : fits c_val v <-> val_ok v /\ ser_val v = true.
Proof.
  pose proof (num_fits v) as N. destruct v as [z|z|z|z|r|z]; cbn [fits c_val c_enum]; cbn [Z.eqb Pos.eqb]; try (rewrite N; cbn; intuition lia).
  - pose proof (class_fits CRef (VRef r)) as H. cbn [of_class] in H. rewrite H. cbn. intuition lia.
  - cbn [fits c_vec128 c_enum]. cbn [Z.eqb]. pose proof (class_fits CV128 (VV128 z)) as H. cbn [of_class] in H. rewrite H. cbn. intuition lia.
Qed.
Lemma reg_good : good c_reg.
Proof.
  apply via_good.
  - apply pair_good; [apply uint_good|apply nat_good].
  - intros [[] i] _ _; reflexivity.
  - intros [t i] x F. cbn [fst snd]. unfold cls_of_tag.
    repeat match goal with |- context [Z.eqb t ?k] => destruct (Z.eqb_spec t k) as [->|]; [intros [= <-]; auto|] end. discriminate.
Qed.
Lemma regs_good : good c_regs.
Proof.
  apply via_good.
  - apply vec_good, reg_good.
  - intros x _ L. destruct (Nat.leb_spec (length x) 8); [reflexivity|lia].
  - intros y x _. destruct (Nat.leb_spec (length y) 8); [|discriminate]. now intros [= <-].
Qed.
Lemma six_good {A} (c : cls -> codec A) : (forall k, good (c k)) -> good (c_six c).
Proof.
  intros G. apply via_good.
  - repeat apply pair_good; apply G.
  - now intros [] _ _.
  - intros (a & b & d & e & f & g) x _ [= <-]. auto.
Qed.
Lemma rev_good {A} (c : codec (list A)) : good c -> good (c_rev c).
Proof.
  intros G. apply via_good; auto.
  - intros. now rewrite rev_involutive.
  - intros y x _ [= <-]. now rewrite rev_involutive.
Qed.
Lemma regfile_good : good c_regfile.
Proof.
  apply via_good.
  - repeat apply pair_good.
    + apply six_good. intros. apply vec_good, class_good.
    + apply rev_good, vec_good, six_good. intros. apply nat_good.
    + apply six_good. intros. apply nat_good.
  - now intros [] _ _.
  - intros (a & b & d) x _ [= <-]. auto.
Qed.
Lemma label_good : good c_label.
Proof.
  apply via_good.
  - repeat apply pair_good; [apply bool_good|apply nat_good|apply nat_good].
  - now intros [] _ _.
  - intros ((a & b) & d) x _ [= <-]. auto.
Qed.
Lemma frame_good : good c_frame.
Proof.
  apply via_good.
  - repeat apply pair_good; [apply vec_good, val_good|apply nat_good|apply rev_good, vec_good, label_good|apply regs_good|apply regs_good].
  - now intros [] _ _.
  - intros ((a & b) & d & e & f) x _ [= <-]. auto.
Qed.
Lemma file_good : good c_file.
Proof.
  apply via_good.
  - repeat apply pair_good; [apply regfile_good|apply rev_good, vec_good, frame_good|apply vec_good, uint_good|apply vec_good, val_good|apply rev_good, vec_good, nat_good].
  - now intros [] _ _.
  - intros ((a & b) & d & e & f) x _ [= <-]. auto.
Qed.

(** a strict prefix of what was written is no value *)
Lemma cut_short {A} (c : codec A) x p q : good c -> fits c x -> put c x = p ++ q -> q <> [] -> get c p = None.
Proof.
  intros G F E N. destruct (get c p) as [[y r]|] eqn:T; [|reflexivity]. exfalso.
  pose proof (g_more _ G _ _ _ q T) as M. rewrite <- E, <- (app_nil_r (put c x)), (g_round _ G _ [] F) in M.
  injection M as _ K. symmetry in K. apply app_eq_nil in K. now apply N.
Qed.
