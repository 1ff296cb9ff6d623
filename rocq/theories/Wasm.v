(** Specification: WebAssembly's structured control, stack and calls (Core 2.0, sections 3.3, 3.4,
    4.4), written from the standard and independent of chiwawa's translation.

    Instruction sequences are in cons form ([code]); the operations on values and on the instance
    ([sop], from IR.v: operator names and typing only) get their meaning from a parameter [prims],
    so the same semantics is used with the standard's primitives (WasmPrims.v) and with the ones
    chiwawa's handlers compute.

    Operand stacks are lists with the top first. *)
From Coq Require Import ZArith List Bool Lia.
From Verif Require Import Word Value Mem Store IR Machine.
Import ListNotations.
Open Scope nat_scope.

Inductive basic :=
| BConst (v : val)
| BGet (n : nat) | BSet (n : nat) | BTee (n : nat)
| BDrop | BNop
| BSelect (t : option valtype)
| BOp (o : sop).

Inductive code :=
| CNil
| CBasic (b : basic) (k : code)
| CBlock (is_loop : bool) (ps rs : list valtype) (body k : code)   (* block / loop *)
| CIf (ps rs : list valtype) (th k : code)                         (* if without else *)
| CIfElse (ps rs : list valtype) (th el k : code)
| CBr (d : nat) (k : code)
| CBrIf (d : nat) (k : code)
| CBrTable (ds : list nat) (d : nat) (k : code)
| CReturn (k : code)
| CUnreachable (k : code)
| CCall (f : nat) (k : code)
| CCallInd (ty tb : nat) (k : code).

(** a function: defined, or a WASI import *)
Record sfdef := { sf_type : ftype; sf_locals : list valtype; sf_body : code }.
Inductive sfunc := SWasm (d : sfdef) | SWasi (w : nat) (t : ftype).
Definition sfunc_type (f : sfunc) : ftype := match f with SWasm d => sf_type d | SWasi _ t => t end.
Record smodule := { sm_types : list ftype; sm_funcs : list sfunc }.

(** ** execution *)
Record prims := {
  p_op : sop -> inst -> list val -> res (inst * option val);
  p_func : list table -> nat -> Z -> res nat;      (* function a table entry refers to *)
  p_default : valtype -> res val;                  (* initial value of a declared local *)
  p_ind_host : bool                                (* call_indirect may reach an import *)
}.

(** locals of the running function, instance, history of host calls *)
Record sst := { x_loc : list val; x_inst : inst; x_log : list event }.
Definition with_loc (x : sst) (l : list val) : sst := {| x_loc := l; x_inst := x_inst x; x_log := x_log x |}.
Definition with_inst (x : sst) (s : inst) : sst := {| x_loc := x_loc x; x_inst := s; x_log := x_log x |}.

Inductive out :=
| ONorm (stk : list val) (x : sst)
| OBr (d : nat) (vals : list val) (x : sst)     (* branch to label d carrying values (top first) *)
| ORet (vals : list val) (x : sst)
| OTrap (t : trap) (log : list event)
| OExit (z : Z) (log : list event)
| OUB                                          (* the primitives leave it undefined *)
| OFuel                                        (* more iterations or calls than allowed *)
| OStuck.                                      (* ill-typed program *)

Definition take (n : nat) (stk : list val) : option (list val * list val) :=
  if Nat.leb n (length stk) then Some (firstn n stk, skipn n stk) else None.

(** the value of a condition *)
Definition is_true (v : val) : option bool := match v with VI32 z => Some (negb (Z.eqb z 0)) | _ => None end.

Definition lift (log : list event) (r : res (list val * sst)) (k : list val -> sst -> out) : out :=
  match r with Ok (stk, x) => k stk x | Trap t => OTrap t log | UB => OUB end.

(** instructions without control; [None]: stuck *)
Definition bexec (P : prims) (b : basic) (stk : list val) (x : sst) : option (res (list val * sst)) :=
  match b with
  | BConst v => Some (Ok (v :: stk, x))
  | BGet n => match nth_error (x_loc x) n with Some v => Some (Ok (v :: stk, x)) | None => None end
  | BSet n => match stk with
              | v :: stk => if Nat.ltb n (length (x_loc x)) then Some (Ok (stk, with_loc x (upd (x_loc x) n v))) else None
              | [] => None
              end
  | BTee n => match stk with
              | v :: _ => if Nat.ltb n (length (x_loc x)) then Some (Ok (stk, with_loc x (upd (x_loc x) n v))) else None
              | [] => None
              end
  | BDrop => match stk with _ :: stk => Some (Ok (stk, x)) | [] => None end
  | BNop => Some (Ok (stk, x))
  | BSelect _ => match stk with
                 | c :: v2 :: v1 :: stk =>
                     match is_true c with Some b => Some (Ok ((if b then v1 else v2) :: stk, x)) | None => None end
                 | _ => None
                 end
  | BOp o => match take (length (sop_args o)) stk with
             | Some (args, rest) =>
                 Some (let* r := p_op P o (x_inst x) (rev args) in
                       Ok ((match snd r with Some v => v :: rest | None => rest end), with_inst x (fst r)))
             | None => None
             end
  end.

(** result of a host call against its declared result type *)
Definition host_vals (rs : list valtype) (o : option val) : option (list val) :=
  match rs, o with
  | [], _ => Some []
  | [t], Some v => if cls_eqb (val_cls v) (class_of t) then Some [v] else None
  | _, _ => None
  end.
Definition do_host (host : hostfn) (w : nat) (t : ftype) (args : list val) (x : sst) (k : list val -> sst -> out) : out :=
  let log := (w, args, mem_view (x_inst x)) :: x_log x in
  match host log with
  | HoErr => OTrap TBadOperand log
  | HoPanic => OTrap THost log
  | HoUB => OUB
  | HoExit z => OExit z log
  | HoRet o ws =>
      match host_vals (snd t) o with
      | Some vs => k vs {| x_loc := x_loc x; x_inst := apply_writes (x_inst x) ws; x_log := log |}
      | None => OUB
      end
  end.
Fixpoint p_defaults (P : prims) (ts : list valtype) : res (list val) :=
  match ts with
  | [] => Ok []
  | t :: ts => let* v := p_default P t in let* vs := p_defaults P ts in Ok (v :: vs)
  end.

(** end of a callee: its results (top first) and the instance go back to the caller *)
Definition finish (loc : list val) (o : out) (k : list val -> sst -> out) : out :=
  match o with
  | ONorm vs y | OBr O vs y | ORet vs y => k vs (with_loc y loc)
  | OBr (S _) _ _ => OStuck
  | OTrap t l => OTrap t l
  | OExit z l => OExit z l
  | OUB => OUB
  | OFuel => OFuel
  | OStuck => OStuck
  end.
Section Exec.
  Variable P : prims.
  Variable host : hostfn.
  Variable M : smodule.

  (** [ls]: number of values each enclosing label takes, innermost first; the last one is the
      function's.  [n] bounds loop iterations plus calls. *)
  Fixpoint exec (n : nat) : list nat -> code -> list val -> sst -> out :=
    let run := match n with O => None | S n' => Some (exec n') end in
    let call (d : sfdef) (args : list val) (x : sst) (k : list val -> sst -> out) : out :=
      match run with
      | None => OFuel
      | Some run =>
          match p_defaults P (sf_locals d) with
          | Ok ds => finish (x_loc x) (run [length (snd (sf_type d))] (sf_body d) [] (with_loc x (args ++ ds))) k
          | Trap t => OTrap t (x_log x)
          | UB => OUB
          end
      end in
    fix ex (ls : list nat) (c : code) (stk : list val) (x : sst) {struct c} : out :=
      match c with
      | CNil => ONorm stk x
      | CBasic b k =>
          match bexec P b stk x with
          | Some r => lift (x_log x) r (fun stk x => ex ls k stk x)
          | None => OStuck
          end
      | CBlock lp ps rs body k =>
          match take (length ps) stk with
          | None => OStuck
          | Some (args, rest) =>
              match ex ((if lp then length ps else length rs) :: ls) body args x with
              | ONorm vs x => ex ls k (vs ++ rest) x
              | OBr O vs x =>
                  if lp then match run with None => OFuel | Some run => run ls c (vs ++ rest) x end
                  else ex ls k (vs ++ rest) x
              | OBr (S d) vs x => OBr d vs x
              | o => o
              end
          end
      | CIf ps rs th k =>
          match stk with
          | c :: stk =>
              match is_true c, take (length ps) stk with
              | Some b, Some (args, rest) =>
                  if b then
                    match ex (length rs :: ls) th args x with
                    | ONorm vs x | OBr O vs x => ex ls k (vs ++ rest) x
                    | OBr (S d) vs x => OBr d vs x
                    | o => o
                    end
                  else ex ls k stk x
              | _, _ => OStuck
              end
          | [] => OStuck
          end
      | CIfElse ps rs th el k =>
          match stk with
          | c :: stk =>
              match is_true c, take (length ps) stk with
              | Some b, Some (args, rest) =>
                  match (if b then ex (length rs :: ls) th args x else ex (length rs :: ls) el args x) with
                  | ONorm vs x | OBr O vs x => ex ls k (vs ++ rest) x
                  | OBr (S d) vs x => OBr d vs x
                  | o => o
                  end
              | _, _ => OStuck
              end
          | [] => OStuck
          end
      | CBr d _ => match nth_error ls d with Some a => OBr d (firstn a stk) x | None => OStuck end
      | CBrIf d k =>
          match stk with
          | c :: stk =>
              match is_true c, nth_error ls d with
              | Some true, Some a => OBr d (firstn a stk) x
              | Some false, Some _ => ex ls k stk x
              | _, _ => OStuck
              end
          | [] => OStuck
          end
      | CBrTable ds d _ =>
          match stk with
          | VI32 i :: stk =>
              let d := nth (Z.to_nat (i mod 2 ^ 32)) ds d in
              match nth_error ls d with Some a => OBr d (firstn a stk) x | None => OStuck end
          | _ => OStuck
          end
      | CReturn _ => ORet (firstn (last ls 0) stk) x
      | CUnreachable _ => OTrap THost (x_log x)
      | CCall f k =>
          match nth_error (sm_funcs M) f with
          | Some fn =>
              match take (length (fst (sfunc_type fn))) stk with
              | Some (args, rest) =>
                  match fn with
                  | SWasm d => call d (rev args) x (fun vs x => ex ls k (vs ++ rest) x)
                  | SWasi w t => do_host host w t (rev args) x (fun vs x => ex ls k (vs ++ rest) x)
                  end
              | None => OStuck
              end
          | None => OStuck
          end
      | CCallInd ty tb k =>
          match stk, nth_error (sm_types M) ty with
          | VI32 i :: stk, Some t =>
              match take (length (fst t)) stk with
              | None => OStuck
              | Some (args, rest) =>
                  match p_func P (i_tables (x_inst x)) tb i with
                  | Trap t => OTrap t (x_log x)
                  | UB => OUB
                  | Ok f =>
                      match nth_error (sm_funcs M) f with
                      | None => OUB              (* dangling reference: not a valid instance *)
                      | Some fn =>
                          if ftype_eqb (sfunc_type fn) t then
                            match fn with
                            | SWasm d => call d (rev args) x (fun vs x => ex ls k (vs ++ rest) x)
                            | SWasi w t =>
                                if p_ind_host P
                                then do_host host w t (rev args) x (fun vs x => ex ls k (vs ++ rest) x)
                                else OTrap TBadOperand (x_log x)
                            end
                          else OTrap TTypeMismatch (x_log x)
                      end
                  end
              end
          | _, _ => OStuck
          end
      end.

  (** Calling function [f] with arguments (in order): results in order, or how it ended. *)
  Definition invoke (n : nat) (f : nat) (args : list val) (s : inst) : out :=
    match nth_error (sm_funcs M) f with
    | Some (SWasm d) =>
        finish [] (exec n [length (snd (sf_type d))] (sf_body d) []
                        {| x_loc := args ++ map (fun t => default_of (class_of t)) (sf_locals d);
                           x_inst := s; x_log := [] |})
               (fun vs x => ONorm (rev vs) x)
    | _ => OStuck
    end.
End Exec.
