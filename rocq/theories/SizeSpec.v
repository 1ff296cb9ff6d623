(** What the interpreter keeps for a running program, besides the program's own memory, globals and tables.
    Sizes are numbers of entries. *)
From Coq Require Import ZArith List Bool.
From Verif Require Import Value Store Regs IR Machine Runtime.
Import ListNotations.
Open Scope nat_scope.

(** the functions that have been called and have not returned, the running one first *)
Definition active (c : config) : list nat := c_fn c :: map f_fn (c_callers c).
(** the number of registers of class [k] function [f] has been given *)
Definition slots (M : modul) (k : cls) (f : nat) : nat :=
  match nth_error (md_funcs M) f with Some (FWasm fd) => sget (fd_alloc fd) k | _ => 0 end.
Definition classes : list cls := [CI32; CI64; CF32; CF64; CRef; CV128].

(** registers of all classes and the six offsets saved per call *)
Definition regs_size (rf : regfile) : nat := list_sum (map (fun k => length (sget (rf_vecs rf) k)) classes) + 6 * length (rf_stack rf).
(** locals, open blocks and registers named for results *)
Definition frame_size (f : frame) : nat := length (f_loc f) + length (f_labels f) + length (f_ret f) + length (f_res f).
Definition config_size (c : config) : nat :=
  regs_size (d_rf (s_d (c_v c))) + (length (d_loc (s_d (c_v c))) + length (s_labels (c_v c)) + length (s_ret (c_v c))) + list_sum (map frame_size (c_callers c)).
Definition state_size (st : rstate) : nat := regs_size (r_rf st) + list_sum (map (fun p => frame_size (snd p)) (r_frames st)).
