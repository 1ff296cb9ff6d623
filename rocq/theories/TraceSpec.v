(** The host calls of a program that may never end.
    A host that ends the program at its [k]-th call makes the calls observable. *)
From Coq Require Import ZArith List Bool.
From Verif Require Import Value Mem Float Store IR Machine.
Import ListNotations.
Open Scope nat_scope.

(** [host], except that the program is ended, with status 0, at its [k]-th call: the history a host is
    given has the current call first. *)
Definition stopping (k : nat) (host : hostfn) : hostfn := fun log => if Nat.leb k (length log) then HoExit 0 else host log.

(** the next instruction of the machine is a host call: the history including that call *)
Definition next_call (hf : hostfp) (M : modul) (c : config) : option (list event) :=
  match nth_error (md_funcs M) (c_fn c) with
  | Some (FWasm fd) =>
      match hstep hf M (fd_code fd) (c_v c) with
      | HYield (YWasi w args _) v => Some ((w, args, mem_view (d_inst (s_d v))) :: c_log c)
      | _ => None
      end
  | _ => None
  end.
