(** The programs the correctness theorems of Properties_Exec.v speak about.

    [chk] is the WebAssembly typing of Core 3.3 at the level of register classes (funcref and
    externref are one class), plus the restrictions under which chiwawa's translation is correct;
    each restriction is necessary, as the [_refuted] theorems show:
    - a branch to a block finds its results by counting back over all of them: they must be of one
      class, except that the lowest operands of their classes are found anyway ([found], C38),
    - a branch to a loop moves nothing: its parameters must already lie where the loop expects them,
      that is, no other operand of their classes may lie above the loop's own (C38),
    - a branch to a function body with results is excluded (C24),
    - br_table to the function body is excluded (C25),
    - two operand producers followed by a unary operator are excluded ([fold_safe], C21),
    - select on references (C40), v128, more than 8 results (C26) are excluded.
    Code after an unconditional branch is not checked at all. *)
From Coq Require Import ZArith List Bool Lia.
From Verif Require Import Word Value Numeric Float Mem Store Regs IR Machine Wasm Decoder.
Import ListNotations.
Open Scope nat_scope.

Inductive lkind := KBlock | KLoop | KFunc.
(** a label: what it belongs to, the classes of the values a branch to it carries, top first, and the
    classes of the operands its block found beneath its own parameters in the enclosing block *)
Record lab := { lb_kind : lkind; lb_types : list cls; lb_under : list cls }.

(** classes of a type sequence as they lie on the stack, top first *)
Definition tops (ts : list valtype) : list cls := rev (map class_of ts).
Fixpoint pop_ts (want st : list cls) : option (list cls) :=
  match want with
  | [] => Some st
  | c :: want => match st with
                 | c' :: st => if cls_eqb c c' then pop_ts want st else None
                 | [] => None
                 end
  end.
Definition cls_list_eqb (a b : list cls) : bool :=
  match pop_ts a b with Some [] => true | _ => false end.
Definition many (c : cls) (l : list cls) : nat := length (filter (cls_eqb c) l).
(** A branch looks for the value with [n] carried values above it [S n] registers below the top of its class,
    or in register 0 (parser.rs 7309-7376).  [depth]: registers in use per class, [above]: the carried values
    already dealt with, top last, [ts]: the others, top first.  It finds it if all above it are of its class, or
    if it is the lowest of its class. *)
Fixpoint found (depth : cls -> nat) (above ts : list cls) : bool :=
  match ts with
  | [] => true
  | c :: ts => let n := S (many c above) in
               (Nat.eqb n (S (length above)) || Nat.eqb (depth c) n) && found depth (c :: above) ts
  end.
Definition is_nil {A} (l : list A) : bool := match l with [] => true | _ => false end.
(** The operands that lie between the values a branch to label [d] carries and the bottom of that
    label's block: what is left in the current block ([rest]) and beneath each block left. *)
Definition between (ls : list lab) (d : nat) (rest : list cls) : list cls := rest ++ flat_map lb_under (firstn d ls).
Definition apart (want have : list cls) : bool := forallb (fun c => negb (existsb (cls_eqb c) have)) want.
(** the carried values already lie where the label's block expects them *)
Definition stays (ls : list lab) (d : nat) (l : lab) (rest : list cls) : bool := apart (lb_types l) (between ls d rest).
(** registers in use, per class: the declared locals and all operands of the function *)
Definition depth (E : denv) (ls : list lab) (l : lab) (rest : list cls) (c : cls) : nat :=
  count_cls c (e_locals E) + many c (lb_types l ++ between ls (length ls - 1) rest).
Definition br_ok (E : denv) (ls : list lab) (d : nat) (l : lab) (rest : list cls) : bool :=
  match lb_kind l with KBlock => found (depth E ls l rest) [] (lb_types l) | KLoop => stays ls d l rest | KFunc => is_nil (lb_types l) end.
(** br_table: [l0] the default label, [l] one of the labels, at depth [d]; the values are moved only if
    both are blocks *)
Definition tbl_ok (E : denv) (ls : list lab) (l0 : lab) (d : nat) (l : lab) (rest : list cls) : bool :=
  match lb_kind l0, lb_kind l with
  | KFunc, _ | _, KFunc => false
  | KBlock, KBlock => found (depth E ls l rest) [] (lb_types l)
  | _, _ => stays ls d l rest
  end.
Definition no_v128 (ts : list valtype) : bool := forallb (fun t => negb (cls_eqb (class_of t) CV128)) ts.

Definition nlocals (E : denv) : nat := length (e_params E ++ e_locals E).

Definition chk_basic (E : denv) (ts : list cls) (b : basic) : option (list cls) :=
  match b with
  | BConst v => if is_num (val_cls v) then Some (val_cls v :: ts) else None
  | BGet n => if Nat.ltb n (nlocals E) then Some (class_of (ltype E n) :: ts) else None
  | BSet n => if Nat.ltb n (nlocals E) then pop_ts [class_of (ltype E n)] ts else None
  | BTee n => if Nat.ltb n (nlocals E)
              then match pop_ts [class_of (ltype E n)] ts with Some _ => Some ts | None => None end
              else None
  | BDrop => match ts with _ :: ts => Some ts | [] => None end
  | BNop => Some ts
  | BSelect t =>
      match ts with
      | CI32 :: c :: c' :: ts =>
          if cls_eqb c c' && is_num c
             && match t with None => true | Some u => cls_eqb (class_of u) c end
          then Some (c :: ts) else None
      | _ => None
      end
  | BOp o =>
      if sop_ok o then
        match pop_ts (tops (sop_args o)) ts with
        | Some ts => Some (match sop_res o with Some t => class_of t :: ts | None => ts end)
        | None => None
        end
      else None
  end.

(** a constant or local.get, its class *)
Definition value_cls (E : denv) (b : basic) : option cls :=
  match b with
  | BConst v => Some (val_cls v)
  | BGet n => Some (class_of (ltype E n))
  | _ => None
  end.
(** no producer, producer, unary-operator-of-that-class sequence *)
Definition fold_safe (E : denv) (b : basic) (k : code) : bool :=
  match value_cls E b, k with
  | Some c, CBasic b' (CBasic (BOp (SNum1 o)) _) =>
      match value_cls E b' with
      | Some _ => negb (consumer c (FBasic (BOp (SNum1 o))))
      | None => true
      end
  | _, _ => true
  end.

Section Chk.
  Variable SM : smodule.
  Variable E : denv.

  (** [None]: rejected; [Some None]: accepted, the end is not reachable *)
  Fixpoint chk (ls : list lab) (ts : list cls) (c : code) : option (option (list cls)) :=
    let block_end (r : option (option (list cls))) (rs : list cls) : bool :=
      match r with
      | None => false
      | Some None => true
      | Some (Some ts) => cls_list_eqb ts rs
      end in
    match c with
    | CNil => Some (Some ts)
    | CBasic b k =>
        if fold_safe E b k then
          match chk_basic E ts b with Some ts => chk ls ts k | None => None end
        else None
    | CBlock lp ps rs body k =>
        match pop_ts (tops ps) ts with
        | None => None
        | Some rest =>
            let l := if lp then {| lb_kind := KLoop; lb_types := tops ps; lb_under := rest |}
                     else {| lb_kind := KBlock; lb_types := tops rs; lb_under := rest |} in
            if block_end (chk (l :: ls) (tops ps) body) (tops rs)
            then chk ls (tops rs ++ rest) k else None
        end
    | CIf ps rs th k =>
        match ts with
        | CI32 :: ts =>
            match pop_ts (tops ps) ts with
            | None => None
            | Some rest =>
                if cls_list_eqb (tops ps) (tops rs)
                   && block_end (chk ({| lb_kind := KBlock; lb_types := tops rs; lb_under := rest |} :: ls) (tops ps) th) (tops rs)
                then chk ls (tops rs ++ rest) k else None
            end
        | _ => None
        end
    | CIfElse ps rs th el k =>
        match ts with
        | CI32 :: ts =>
            match pop_ts (tops ps) ts with
            | None => None
            | Some rest =>
                if block_end (chk ({| lb_kind := KBlock; lb_types := tops rs; lb_under := rest |} :: ls) (tops ps) th) (tops rs)
                   && block_end (chk ({| lb_kind := KBlock; lb_types := tops rs; lb_under := rest |} :: ls) (tops ps) el) (tops rs)
                then chk ls (tops rs ++ rest) k else None
            end
        | _ => None
        end
    | CBr d _ =>
        match nth_error ls d with
        | Some l => match pop_ts (lb_types l) ts with
                    | Some rest => if br_ok E ls d l rest then Some None else None
                    | None => None
                    end
        | None => None
        end
    | CBrIf d k =>
        match ts, nth_error ls d with
        | CI32 :: ts, Some l =>
            match pop_ts (lb_types l) ts with
            | Some rest => if br_ok E ls d l rest then chk ls ts k else None
            | None => None
            end
        | _, _ => None
        end
    | CBrTable ds d _ =>
        match ts, nth_error ls d with
        | CI32 :: ts, Some l =>
            match pop_ts (lb_types l) ts with
            | Some rest =>
                if forallb (fun e => match nth_error ls e with
                                     | Some l' => tbl_ok E ls l e l' rest && cls_list_eqb (lb_types l') (lb_types l)
                                     | None => false
                                     end) (d :: ds)
                then Some None else None
            | None => None
            end
        | _, _ => None
        end
    | CReturn _ =>
        match pop_ts (tops (e_results E)) ts with Some _ => Some None | None => None end
    | CUnreachable _ => Some None
    | CCall f k =>
        match nth_error (sm_funcs SM) f with
        | None => None
        | Some fn =>
            let (ps, rs) := sfunc_type fn in
            match pop_ts (tops ps) ts with
            | None => None
            | Some rest =>
                if no_v128 rs && Nat.leb (length rs) (match fn with SWasm _ => 8 | SWasi _ _ => 1 end)
                then chk ls (tops rs ++ rest) k else None
            end
        end
    | CCallInd ty tb k =>
        match ts, nth_error (sm_types SM) ty with
        | CI32 :: ts, Some (ps, rs) =>
            match pop_ts (tops ps) ts with
            | None => None
            | Some rest =>
                if no_v128 rs && Nat.leb (length rs) 8 then chk ls (tops rs ++ rest) k else None
            end
        | _, _ => None
        end
    end.

  Definition chk_body (body : code) : bool :=
    match chk [{| lb_kind := KFunc; lb_types := tops (e_results E); lb_under := [] |}] [] body with
    | None => false
    | Some None => true
    | Some (Some ts) => cls_list_eqb ts (tops (e_results E))
    end.
End Chk.

(** ** modules *)
(** All function imports are WASI functions and come first (they do in the binary format; other
    imports are rejected at instantiation, module.rs). *)
Definition wasi_imports (fs : list sfunc) : list import :=
  flat_map (fun f => match f with SWasi w t => [ImWasi w t] | SWasm _ => [] end) fs.
Definition defined_types (fs : list sfunc) : list ftype :=
  flat_map (fun f => match f with SWasi _ _ => [] | SWasm d => [sf_type d] end) fs.
Fixpoint imports_first (fs : list sfunc) : bool :=
  match fs with
  | SWasi _ _ :: fs => imports_first fs
  | _ => forallb (fun f => match f with SWasi _ _ => false | SWasm _ => true end) fs
  end.
Definition src_of (SM : smodule) : modsrc :=
  {| ms_imports := wasi_imports (sm_funcs SM); ms_nimp := length (wasi_imports (sm_funcs SM));
     ms_functys := defined_types (sm_funcs SM); ms_types := sm_types SM |}.
Definition env_of (SM : smodule) (d : sfdef) : denv :=
  {| e_params := fst (sf_type d); e_locals := sf_locals d; e_results := snd (sf_type d); e_mod := src_of SM |}.

(** the translation of a module, function by function (parser.rs 1172-1258) *)
Definition compile_func (SM : smodule) (f : sfunc) : option func :=
  match f with
  | SWasi w t => Some (FWasi w t)
  | SWasm d =>
      match translate (env_of SM d) (flatten (sf_body d) ++ [FEnd]) with
      | Some (code, al) =>
          Some (FWasm {| fd_type := sf_type d; fd_locals := sf_locals d; fd_code := code; fd_alloc := al |})
      | None => None
      end
  end.
Fixpoint map_opt {A B} (f : A -> option B) (l : list A) : option (list B) :=
  match l with
  | [] => Some []
  | a :: l => match f a, map_opt f l with Some b, Some bs => Some (b :: bs) | _, _ => None end
  end.
Definition compile (SM : smodule) : option modul :=
  match map_opt (compile_func SM) (sm_funcs SM) with
  | Some fs => Some {| md_funcs := fs; md_types := sm_types SM |}
  | None => None
  end.

(** register and local indices fit 16 bits (C42) *)
Definition all_cls : list cls := [CI32; CI64; CF32; CF64; CRef; CV128].
Definition fits16 (n : nat) : bool := Z.leb (Z.of_nat n) 65536.
Definition small_func (f : func) : bool :=
  match f with
  | FWasi _ _ => true
  | FWasm d => fits16 (length (fst (fd_type d)) + length (fd_locals d))
               && forallb (fun c => fits16 (sget (fd_alloc d) c)) all_cls
  end.
Definition chk_func (SM : smodule) (f : sfunc) : bool :=
  match f with
  | SWasi _ _ => true
  | SWasm d => chk_body SM (env_of SM d) (sf_body d)
               && no_v128 (snd (sf_type d)) && Nat.leb (length (snd (sf_type d))) 8
  end.
(** a supported program and its translation *)
Definition supported (SM : smodule) : bool :=
  imports_first (sm_funcs SM) && forallb (chk_func SM) (sm_funcs SM).
Definition small (M : modul) : bool := forallb small_func (md_funcs M).
