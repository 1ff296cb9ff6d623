(** What an argument line means, independently of how it is scanned. *)
From Coq Require Import ZArith List Bool.
Import ListNotations.
Open Scope Z_scope.

(** a word is made of unquoted pieces without spaces and quotes, and of quoted pieces *)
Inductive piece := Bare (s : list Z) | Quoted (s : list Z).
Definition piece_ok (p : piece) : Prop :=
  match p with Bare s => ~ In 34 s /\ ~ In 32 s | Quoted s => ~ In 34 s end.
(** how it is written, and what it stands for *)
Definition piece_src (p : piece) : list Z := match p with Bare s => s | Quoted s => 34 :: s ++ [34] end.
Definition piece_text (p : piece) : list Z := match p with Bare s | Quoted s => s end.
Definition word := list piece.
Definition word_src (w : word) : list Z := concat (map piece_src w).
Definition word_text (w : word) : list Z := concat (map piece_text w).
(** a line: words each followed by one or more spaces, a last word, and possibly a quote that is
    never closed *)
Record line := { l_words : list (word * nat); l_last : word; l_open : option (list Z) }.
Definition line_ok (l : line) : Prop :=
  Forall (fun wn => Forall piece_ok (fst wn) /\ (0 < snd wn)%nat) (l_words l) /\ Forall piece_ok (l_last l) /\
  match l_open l with Some t => ~ In 34 t | None => True end.
Definition line_src (l : line) : list Z :=
  concat (map (fun wn => word_src (fst wn) ++ repeat 32 (snd wn)) (l_words l)) ++ word_src (l_last l) ++
  match l_open l with Some t => 34 :: t | None => [] end.
Definition line_texts (l : line) : list (list Z) :=
  map (fun wn => word_text (fst wn)) (l_words l) ++ [word_text (l_last l) ++ match l_open l with Some t => t | None => [] end].
Definition nonempty (a : list Z) : bool := match a with [] => false | _ => true end.

(** a list of arguments written with a quoted word for each *)
Fixpoint quoted_line (args : list (list Z)) : list Z :=
  match args with
  | [] => []
  | [a] => 34 :: a ++ [34]
  | a :: args => 34 :: a ++ [34; 32] ++ quoted_line args
  end.
