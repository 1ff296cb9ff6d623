(** The program's argument list: src/main.rs 52-82 (parse_args_string) and 151-156 (argv).
    Strings are lists of characters (code points). *)
From Coq Require Import ZArith List Bool.
Import ListNotations.
Open Scope Z_scope.

Definition quote : Z := 34.
Definition space : Z := 32.
(** main.rs 64-67, 76-78: the pending argument is kept if not empty *)
Definition flush (cur : list Z) : list (list Z) := match cur with [] => [] | _ => [cur] end.
(** main.rs 58-78; [q] is [in_quotes], [cur] is [current_arg] *)
Fixpoint parse_loop (s cur : list Z) (q : bool) : list (list Z) :=
  match s with
  | [] => flush cur
  | c :: s =>
      if c =? quote then parse_loop s cur (negb q)
      else if (c =? space) && negb q then flush cur ++ parse_loop s [] q
      else parse_loop s (cur ++ [c]) q
  end.
Definition parse_args (s : list Z) : list (list Z) := parse_loop s [] false.
(** main.rs 151-155 *)
Definition argv (file : list Z) (app_args : option (list Z)) : list (list Z) :=
  file :: match app_args with Some s => parse_args s | None => [] end.
