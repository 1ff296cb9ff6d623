(** What an instruction of the register IR touches (handlers.rs, per family): the registers it reads
    or writes, with their class, and the locals. *)
From Coq Require Import List Bool.
From Verif Require Import Word Value Mem Store Regs IR Machine Wasm.
Import ListNotations.

Definition opnd_regs (c : cls) (o : opnd) : list reg := match o with OReg n => [R c n] | _ => [] end.
Definition opnd_locals (o : opnd) : list nat := match o with OLoc n => [n] | _ => [] end.
Definition dst_regs (c : cls) (d : dst) : list reg := match d with DReg n => [R c n] | DLoc _ => [] end.
Definition dst_locals (d : dst) : list nat := match d with DLoc n => [n] | DReg _ => [] end.
Fixpoint opnds_regs (ts : list valtype) (os : list opnd) : list reg :=
  match ts, os with t :: ts, o :: os => opnd_regs (class_of t) o ++ opnds_regs ts os | _, _ => [] end.

Definition regs_of (i : instr) : list reg :=
  match i with
  | IMov c d s => dst_regs c d ++ opnd_regs c s
  | IOp o d srcs => match sop_res o, d with Some t, Some d => dst_regs (class_of t) d | _, _ => [] end ++ opnds_regs (sop_args o) srcs
  | ISelect c d v1 v2 cond => [R c d; R c v1; R c v2; R CI32 cond]
  | IRefGet d _ => [R CRef d]
  | IRefSet _ s => [R CRef s]
  | ICallWasi _ ps r => ps ++ match r with Some r => [r] | None => [] end
  | ICallInd _ _ i ps rs => R CI32 i :: ps ++ rs
  | ICall _ ps rs => ps ++ rs
  | IReturn rs => rs
  | IIf c _ _ => [R CI32 c]
  | IEnd s t => s ++ t
  | IBr _ _ s t => s ++ t
  | IBrIf _ _ c s t => R CI32 c :: s ++ t
  | IBrTable ts d i s => R CI32 i :: s ++ snd d ++ flat_map snd ts
  | IJump _ | IBlock _ | INop | IUnreachable => []
  end.
Definition locals_of (i : instr) : list nat :=
  match i with
  | IMov _ d s => dst_locals d ++ opnd_locals s
  | IOp _ d srcs => match d with Some d => dst_locals d | None => [] end ++ flat_map opnd_locals srcs
  | IRefGet _ l | IRefSet l _ => [l]
  | _ => []
  end.
(** everything [i] touches lies in a frame with [W c] registers of class [c] and [n] locals *)
Definition within (W : cls -> nat) (n : nat) (i : instr) : Prop :=
  Forall (fun r => r_idx r < W (r_cls r)) (regs_of i) /\ Forall (fun l => l < n) (locals_of i).

(** no select on references (typed select) *)
Fixpoint no_ref_select (c : code) : bool :=
  match c with
  | CNil => true
  | CBasic b k => match b with BSelect (Some t) => negb (cls_eqb (class_of t) CRef) | _ => true end && no_ref_select k
  | CBr _ k | CBrIf _ k | CBrTable _ _ k | CReturn k | CUnreachable k | CCall _ k | CCallInd _ _ k => no_ref_select k
  | CBlock _ _ _ b k | CIf _ _ b k => no_ref_select b && no_ref_select k
  | CIfElse _ _ th el k => no_ref_select th && no_ref_select el && no_ref_select k
  end.
(** control reaches the end of the sequence (no unconditional jump on its top level) *)
Fixpoint falls (c : code) : bool :=
  match c with
  | CNil => true
  | CBr _ _ | CBrTable _ _ _ | CReturn _ | CUnreachable _ => false
  | CBasic _ k | CBrIf _ k | CCall _ k | CCallInd _ _ k | CBlock _ _ _ _ k | CIf _ _ _ k | CIfElse _ _ _ _ k => falls k
  end.
(** host functions return at most one value, as all WASI functions do *)
Definition one_result (f : sfunc) : Prop := match f with SWasi _ t => length (snd t) <= 1 | SWasm _ => True end.
