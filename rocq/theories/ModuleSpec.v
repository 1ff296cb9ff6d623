(** Instantiation in the standard (WebAssembly Core 2.0, 4.5.4), for modules whose imports are WASI
    functions.  From Module only the syntax of modules. *)
From Coq Require Import ZArith List Bool.
From Verif Require Import Word Value Mem Store IR Machine Decoder Module.
Import ListNotations.
Open Scope Z_scope.

(** constant expressions *)
Inductive evaluates (gs : list val) : cexpr -> val -> Prop :=
| ev_val v : evaluates gs [CVal v] v
| ev_null : evaluates gs [CNull] (VRef RNull)
| ev_func f : evaluates gs [CRefFunc f] (VRef (RFunc f))
| ev_global i v : nth_error gs i = Some v -> evaluates gs [CGlobal i] v.
(** globals, in order; each may use those before it *)
Inductive globals_of : list cexpr -> list val -> Prop :=
| g_nil : globals_of [] []
| g_snoc es gs e v : globals_of es gs -> evaluates gs e v -> globals_of (es ++ [e]) (gs ++ [v]).

(** the active segments for memory or table [idx], with their places, in order *)
Inductive active {A} (gs : list val) (idx : nat) : list (mode * list A) -> list (Z * list A) -> Prop :=
| ac_nil : active gs idx [] []
| ac_put off z x l ps : evaluates gs off (VI32 z) -> active gs idx l ps -> active gs idx ((MActive idx off, x) :: l) ((z mod 2 ^ 32, x) :: ps)
| ac_other i off z x l ps : i <> idx -> evaluates gs off (VI32 z) -> active gs idx l ps -> active gs idx ((MActive i off, x) :: l) ps
| ac_passive x l ps : active gs idx l ps -> active gs idx ((MPassive, x) :: l) ps
| ac_declarative x l ps : active gs idx l ps -> active gs idx ((MDeclarative, x) :: l) ps.
Definition len {A} (l : list A) : Z := Z.of_nat (length l).
(** what ends up at place [k]: the last segment that covers it decides *)
Fixpoint content {A} (d : A) (ps : list (Z * list A)) (k : Z) : A :=
  match ps with
  | [] => d
  | (o, x) :: ps => content (if (o <=? k) && (k <? o + len x) then nth (Z.to_nat (k - o)) x d else d) ps k
  end.
Definition fits {A} (n : Z) (ps : list (Z * list A)) : Prop := Forall (fun p => fst p + len (snd p) <= n) ps.

(** the references of an element segment *)
Definition refs (gs : list val) (e : elem) (rs : list ref) : Prop :=
  match e_idxes e, e_init e with
  | Some l, _ => rs = map RFunc l
  | None, Some xs => Forall2 (fun x r => evaluates gs x (VRef r)) xs rs
  | None, None => rs = []
  end.

(** ** modules as the validator accepts them *)
Definition wasi_only (is : list import) (fs : list func) : Prop := Forall2 (fun i f => match i with ImWasi w t => f = FWasi w t | _ => False end) is fs.
Definition functions (S : src) (fs : list func) : Prop := exists imps, wasi_only (s_imports S) imps /\ fs = imps ++ map FWasm (s_funcs S).
Definition exports_ok (S : src) (nf : nat) : Prop :=
  forall n x, In (n, x) (s_exports S) ->
    match x with
    | ExFunc i => (i < nf)%nat | ExTable i => (i < length (s_tables S))%nat
    | ExMem i => i = 0%nat /\ s_mem S <> None | ExGlobal i => (i < length (s_globals S))%nat
    end.
(** no reference-valued global or element is given by an expression: these the code does not handle *)
Definition simple_global (e : cexpr) : Prop := match e with [CRefFunc _] => False | _ => True end.
Definition simple_elem (e : elem) : Prop := e_extern e = false /\ exists l, e_idxes e = Some l.

Record valid (S : src) (fs : list func) (gs : list val) : Prop := {
  v_funcs : functions S fs;
  v_globals : globals_of (s_globals S) gs;
  v_exports : exports_ok S (length fs);
  v_start : forall f, s_start S = Some f -> (f < length fs)%nat;
  v_tables : Forall (fun n => 0 <= n < 2 ^ 32) (s_tables S);
  v_mem : forall min max, s_mem S = Some (min, max) -> 0 <= min <= 65536;
  v_elems : forall e l, In e (s_elems S) -> e_idxes e = Some l -> Forall (fun f => (f < length fs)%nat) l;
  v_active : forall e t x, In e (s_elems S) -> e_mode e = MActive t x -> (t < length (s_tables S))%nat /\ exists z, evaluates gs x (VI32 z);
  v_data : forall d t x, In d (s_datas S) -> ds_mode d = MActive t x -> t = 0%nat /\ s_mem S <> None /\ exists z, evaluates gs x (VI32 z) }.

(** ** a fresh instance *)
Definition data_segments (S : src) : list (mode * list Z) := map (fun d => (ds_mode d, ds_bytes d)) (s_datas S).
(** [elem_segments gs S l]: [l] is the element section with its references evaluated *)
Definition elem_segments (gs : list val) (S : src) (l : list (mode * list ref)) : Prop :=
  Forall2 (fun e p => fst p = e_mode e /\ refs gs e (snd p)) (s_elems S) l.
(** every active segment lies within its memory or table *)
Definition loads (S : src) (gs : list val) : Prop :=
  (forall min max ps, s_mem S = Some (min, max) -> active gs 0 (data_segments S) ps -> fits (min * 65536) ps) /\
  (forall t n l ps, nth_error (s_tables S) t = Some n -> elem_segments gs S l -> active gs t l ps -> fits n ps).

Record instance_of (S : src) (fs : list func) (gs : list val) (I : minst) : Prop := {
  io_funcs : md_funcs (mi_modul I) = fs;
  io_types : md_types (mi_modul I) = s_types S;
  io_globals : i_globals (mi_inst I) = gs;
  io_memory : match s_mem S with
    | None => i_mem (mi_inst I) = None
    | Some (min, max) => exists mi, i_mem (mi_inst I) = Some mi /\ m_max mi = max /\ len (m_data mi) = min * 65536 /\
        forall ps, active gs 0 (data_segments S) ps -> forall k, 0 <= k < min * 65536 -> nth (Z.to_nat k) (m_data mi) 0 = content 0 ps k
    end;
  io_table_count : length (i_tables (mi_inst I)) = length (s_tables S);
  io_tables : forall t n, nth_error (s_tables S) t = Some n -> exists tb, nth_error (i_tables (mi_inst I)) t = Some tb /\ len tb = n /\
        forall l ps, elem_segments gs S l -> active gs t l ps -> forall k, 0 <= k < n -> nth (Z.to_nat k) tb RNull = content RNull ps k;
  io_exports : NoDup (map fst (s_exports S)) -> forall name i, get_export_func I name = Some i <-> In (name, ExFunc i) (s_exports S) }.
