(** A structural description of translated code: which instructions lie where for a given source
    [code].  Proof device; DecodeProofs.v shows that [translate] produces exactly this. *)
From Coq Require Import ZArith List Bool Lia.
From Verif Require Import Word Value Mem Store Regs IR Machine Wasm Decoder Check RegsProofs.
Import ListNotations.
Open Scope nat_scope.

Fixpoint csize (c : code) : nat :=
  match c with
  | CNil => 1
  | CBasic _ k | CBr _ k | CBrIf _ k | CBrTable _ _ k | CReturn k | CUnreachable k | CCall _ k | CCallInd _ _ k =>
      S (csize k)
  | CBlock _ _ _ b k | CIf _ _ b k => S (csize b + csize k)
  | CIfElse _ _ th el k => S (csize th + csize el + csize k)
  end.

(** an enclosing block: start, kind, registers a branch to it writes, where it goes *)
Record cl := { q_start : nat; q_loop : bool; q_regs : list reg; q_target : nat }.

Definition skip1 (k : code) (skip : bool) : code :=
  if skip then match k with CBasic _ k' => k' | _ => k end else k.

Section Loc.
  Variable E : denv.
  Variable P : nat -> instr -> Prop.                (* the instruction at a position *)
  Variable Q : nat -> nat -> option nat -> Prop.    (* start, position after the end, else position *)
  Variable L : nat.                                 (* length of the code *)

  Fixpoint all_at (pc : nat) (is : list instr) : Prop :=
    match is with [] => True | i :: is => P pc i /\ all_at (S pc) is end.
  Definition nops (pc : nat) (k : code) (pf : nat) : Prop :=
    pf = pc + length (flatten k) /\ all_at pc (repeat INop (length (flatten k))).
  (** target and registers of a branch *)
  Definition br_to (X : list cl) (d : nat) : nat * list reg :=
    match nth_error X d with Some q => (q_target q, q_regs q) | None => (L, []) end.
  Definition tbl_to (X : list cl) (d : nat) : nat * nat * list reg :=
    match nth_error X d with Some q => (d, q_target q, q_regs q) | None => (d, 0, []) end.
  Definition br_src (a : alloc) (rs : list reg) : list reg := branch_src (al_d a) (length rs) 0 rs.
  Definition peek_i32 (a : alloc) : nat :=
    r_idx (match al_peek a TI32 with Some r => r | None => R CI32 0 end).

  (** registers of a call to a defined function *)
  Definition call_regs (a : alloc) (ps rs : list valtype) : alloc * list reg * list reg :=
    let (a, prs) := call_params a (rev ps) [] in
    let (a, rrs) := al_pushes a rs in (a, prs, rrs).

  Fixpoint loc (X : list cl) (k : cst) (pc : nat) (c : code) (kf : cst) (pf : nat) : Prop :=
    match c with
    | CNil => kf = k /\ pf = pc
    | CBasic b c' =>
        match dec_basic E b (flatten c' ++ [FEnd]) k with
        | None => False
        | Some (is, k1, skip) =>
            all_at pc is /\
            match c' with
            | CBasic _ c'' => if skip then loc X k1 (pc + length is) c'' kf pf
                              else loc X k1 (pc + length is) c' kf pf
            | _ => skip = false /\ loc X k1 (pc + length is) c' kf pf
            end
        end
    | CBlock lp ps rs body c' =>
        let '(a1, s, b) := open_block (k_al k) lp ps rs in
        P pc (IBlock lp) /\
        exists kb pe,
          loc ({| q_start := pc; q_loop := lp; q_regs := cb_target b; q_target := if lp then pc else S pe |} :: X)
              (with_al k a1) (S pc) body kb pe /\
          P pe (IEnd (al_peek_regs (k_al kb) rs) (cb_regs b)) /\ Q pc (S pe) None /\
          loc X (with_al kb (fst (al_pushes (al_restore (k_al kb) s) rs))) (S pe) c' kf pf
    | CIf ps rs th c' =>
        let (a0, rc) := al_pop (k_al k) TI32 in
        let '(a1, s, b) := open_block a0 false ps rs in
        exists kb pe,
          P pc (IIf (r_idx rc) (S pe) false) /\
          loc ({| q_start := pc; q_loop := false; q_regs := cb_target b; q_target := S pe |} :: X)
              (with_al k a1) (S pc) th kb pe /\
          P pe (IEnd (al_peek_regs (k_al kb) rs) (cb_regs b)) /\ Q pc (S pe) (Some (S pe)) /\
          loc X (with_al kb (fst (al_pushes (al_restore (k_al kb) s) rs))) (S pe) c' kf pf
    | CIfElse ps rs th el c' =>
        let (a0, rc) := al_pop (k_al k) TI32 in
        let '(a1, s, b) := open_block a0 false ps rs in
        exists kt pt kb pe,
          P pc (IIf (r_idx rc) (S pt) true) /\
          loc ({| q_start := pc; q_loop := false; q_regs := cb_target b; q_target := S pe |} :: X)
              (with_al k a1) (S pc) th kt pt /\
          P pt (IJump (S pe)) /\
          loc ({| q_start := pc; q_loop := false; q_regs := cb_target b; q_target := S pe |} :: X)
              (with_al kt (fst (al_pushes (al_restore (k_al kt) s) ps))) (S pt) el kb pe /\
          P pe (IEnd (al_peek_regs (k_al kb) rs) (cb_regs b)) /\ Q pc (S pe) (Some (S pt)) /\ pt < pe /\
          loc X (with_al kb (fst (al_pushes (al_restore (k_al kb) s) rs))) (S pe) c' kf pf
    | CBr d c' =>
        let (t, rs) := br_to X d in
        P pc (IBr d t (br_src (k_al k) rs) rs) /\ kf = k /\ nops (S pc) c' pf
    | CBrIf d c' =>
        let a := fst (al_pop (k_al k) TI32) in
        let (t, rs) := br_to X d in
        P pc (IBrIf d t (peek_i32 (k_al k)) (br_src a rs) rs) /\ loc X (with_al k a) (S pc) c' kf pf
    | CBrTable ds d c' =>
        let a := fst (al_pop (k_al k) TI32) in
        P pc (IBrTable (map (tbl_to X) ds) (tbl_to X d) (peek_i32 (k_al k)) (br_src a (snd (tbl_to X d)))) /\
        kf = with_al k a /\ nops (S pc) c' pf
    | CReturn c' =>
        P pc (IReturn (al_peek_regs (k_al k) (e_results E))) /\
        kf = with_al k (al_pops (k_al k) (rev (e_results E))) /\ nops (S pc) c' pf
    | CUnreachable c' => P pc IUnreachable /\ kf = k /\ nops (S pc) c' pf
    | CCall f c' =>
        match call_info (e_mod E) f with
        | CIWasi w (ps, rs) =>
            let a := al_pops (k_al k) (rev ps) in
            match rs with
            | [] => P pc (ICallWasi w (al_peek_regs (k_al k) ps) None) /\ loc X (with_al k a) (S pc) c' kf pf
            | t :: _ => P pc (ICallWasi w (al_peek_regs (k_al k) ps) (Some (snd (al_push a t)))) /\
                        loc X (with_al k (fst (al_push a t))) (S pc) c' kf pf
            end
        | CIFunc (ps, rs) =>
            let '(a, prs, rrs) := call_regs (k_al k) ps rs in
            P pc (ICall f prs rrs) /\ loc X (with_al k a) (S pc) c' kf pf
        end
    | CCallInd ty tb c' =>
        let (ps, rs) := type_or_empty (e_mod E) ty in
        match al_peek (k_al k) TI32 with
        | None => False
        | Some ri =>
            let '(a, prs, rrs) := call_regs (fst (al_pop (k_al k) TI32)) ps rs in
            P pc (ICallInd ty tb (r_idx ri) prs rrs) /\ loc X (with_al k a) (S pc) c' kf pf
        end
    end.
End Loc.
