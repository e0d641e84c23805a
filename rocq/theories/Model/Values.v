(** Scalar values, cells, rows, comparison and three-valued logic as Arrow
    computes them. *)
From Verif.Model Require Export Base.

(** One value of an ordered column type.  [SNum] stands for integers and for
    non-NaN floats (represented by their rank in the order of floats: only
    comparisons matter).  [SStr] stands for strings and binaries. *)
Inductive scalar :=
| SNum (z : Z)
| SBool (b : bool)
| SStr (s : string)
| SNaN.
Global Instance scalar_eq_dec : EqDecision scalar.
Proof. solve_decision. Defined.

(** Byte-wise lexicographic order (Parquet and Python agree on it). *)
Fixpoint str_cmp (a b : string) : comparison :=
  match a, b with
  | EmptyString, EmptyString => Eq
  | EmptyString, String _ _ => Lt
  | String _ _, EmptyString => Gt
  | String x a', String y b' =>
      match N.compare (Ascii.N_of_ascii x) (Ascii.N_of_ascii y) with
      | Eq => str_cmp a' b'
      | c => c
      end
  end.

Definition bool_cmp (a b : bool) : comparison :=
  match a, b with
  | false, true => Lt | true, false => Gt | _, _ => Eq
  end.

(** Order on non-NaN scalars.  Comparisons between different types do not occur
    in well-typed Arrow expressions; here they are ordered by type so that the
    order is total. *)
Definition skind (s : scalar) : Z :=
  match s with SNum _ => 0 | SBool _ => 1 | SStr _ => 2 | SNaN => 3 end.
Definition scmp (a b : scalar) : comparison :=
  match a, b with
  | SNum x, SNum y => Z.compare x y
  | SBool x, SBool y => bool_cmp x y
  | SStr x, SStr y => str_cmp x y
  | _, _ => Z.compare (skind a) (skind b)
  end.
Definition is_nan (a : scalar) : bool :=
  match a with SNaN => true | _ => false end.

Inductive cop := OpGt | OpGe | OpLt | OpLe | OpEq | OpNe.
Global Instance cop_eq_dec : EqDecision cop.
Proof. solve_decision. Defined.

(** Arrow comparison kernels on two non-null values (IEEE rules for NaN). *)
Definition cmp_holds (op : cop) (a b : scalar) : bool :=
  if is_nan a || is_nan b then match op with OpNe => true | _ => false end
  else match op, scmp a b with
       | OpGt, Gt | OpGe, Gt | OpGe, Eq | OpLt, Lt | OpLe, Lt | OpLe, Eq
       | OpEq, Eq | OpNe, Lt | OpNe, Gt => true
       | _, _ => false
       end.

(** Kleene logic on nullable booleans ([None] is null): Arrow's
    and_kleene/or_kleene/invert, which pyarrow uses for [&], [|] and [~]. *)
Definition k_not (a : option bool) : option bool := negb <$> a.
Definition k_and (a b : option bool) : option bool :=
  match a, b with
  | Some false, _ | _, Some false => Some false
  | Some true, Some true => Some true
  | _, _ => None
  end.
Definition k_or (a b : option bool) : option bool :=
  match a, b with
  | Some true, _ | _, Some true => Some true
  | Some false, Some false => Some false
  | _, _ => None
  end.
Definition as_bool (v : option scalar) : option bool :=
  match v with Some (SBool b) => Some b | _ => None end.
Definition of_bool (v : option bool) : option scalar := SBool <$> v.

(** Expression trees: what pyarrow.compute expressions become after Substrait
    serialisation (falsifiable_filters.py:78-90).  [EUn]/[EBin] are scalar
    functions with one/two arguments, [ENary] one with any other number of
    arguments, [EOpaque] any node that is neither a scalar function, a literal
    nor a field selection (casts, conditionals, ...); its flag says whether a
    scalar function occurs below it.  Functions other than
    boolean connectives and comparisons are arbitrary ([FnOther]). *)
Inductive fn :=
| FnAnd | FnOr | FnNot
| FnCmp (op : cop)
| FnOther (sem : list (option scalar) → option scalar).

Inductive expr (F : Type) :=
| ELit (v : option scalar)
| EField (f : F)
| EUn (f : fn) (a : expr F)
| EBin (f : fn) (a b : expr F)
| ENary (sem : (F → option scalar) → option scalar)
| EOpaque (has_fn : bool) (sem : (F → option scalar) → option scalar).
Global Arguments ELit {F} v.
Global Arguments EField {F} f.
Global Arguments EUn {F} f a.
Global Arguments EBin {F} f a b.
Global Arguments ENary {F} sem.
Global Arguments EOpaque {F} has_fn sem.

Definition eval_cmp (op : cop) (a b : option scalar) : option scalar :=
  match a, b with
  | Some x, Some y => Some (SBool (cmp_holds op x y))
  | _, _ => None
  end.

(** Value of an expression under an assignment of the fields. *)
Fixpoint eval {F} (look : F → option scalar) (e : expr F) : option scalar :=
  match e with
  | ELit v => v
  | EField f => look f
  | EUn FnNot a => of_bool (k_not (as_bool (eval look a)))
  | EUn (FnOther sem) a => sem [eval look a]
  | EUn _ _ => None
  | EBin FnAnd a b => of_bool (k_and (as_bool (eval look a)) (as_bool (eval look b)))
  | EBin FnOr a b => of_bool (k_or (as_bool (eval look a)) (as_bool (eval look b)))
  | EBin (FnCmp op) a b => eval_cmp op (eval look a) (eval look b)
  | EBin (FnOther sem) a b => sem [eval look a; eval look b]
  | EBin FnNot _ _ => None
  | ENary sem | EOpaque _ sem => sem look
  end.

(** Files stored in (or referenced by) a storage, by the path stored in the
    metadata.  Generated names (core/utils/paths.py:30-67,108-110,
    core/fs/arrow.py:52) carry a uuid; two generated names are equal iff kind
    and uuid are. External files (loaders) keep the path given by the user. *)
Inductive pkind :=
| KMeta | KChange | KIndex | KRecord (field : string) | KIdxMan | KRecMan | KTmp.
Inductive path :=
| PEntry
| PGen (k : pkind) (u : N)
| PExt (s : string).
Global Instance pkind_eq_dec : EqDecision pkind.
Proof. solve_decision. Defined.
Global Instance path_eq_dec : EqDecision path.
Proof. solve_decision. Defined.
Global Instance pkind_countable : Countable pkind.
Proof.
  refine (inj_countable'
    (fun k => match k with
      | KMeta => (0, EmptyString) | KChange => (1, EmptyString) | KIndex => (2, EmptyString)
      | KRecord f => (3, f) | KIdxMan => (4, EmptyString) | KRecMan => (5, EmptyString)
      | KTmp => (6, EmptyString) end)
    (fun x => match x with
      | (0, _) => KMeta | (1, _) => KChange | (2, _) => KIndex | (3, f) => KRecord f
      | (4, _) => KIdxMan | (5, _) => KRecMan | _ => KTmp end) _).
  by intros [].
Defined.
Global Instance path_countable : Countable path.
Proof.
  refine (inj_countable'
    (fun p => match p with
      | PEntry => inl () | PGen k u => inr (inl (k, u)) | PExt s => inr (inr s) end)
    (fun x => match x with
      | inl () => PEntry | inr (inl (k, u)) => PGen k u | inr (inr s) => PExt s end) _).
  by intros [].
Defined.

(** Text of a stored path (used only where a path is itself a column value). *)
Definition kind_text (k : pkind) : string :=
  match k with
  | KMeta => "metadata/metadata_" | KChange => "metadata/changes/change_"
  | KIndex => "data/index_" | KRecord f => "data/" +:+ f +:+ "_"
  | KIdxMan => "metadata/index_manifest_" | KRecMan => "metadata/record_manifest_"
  | KTmp => "metadata/tmp_"
  end.
Definition path_text (p : path) : string :=
  match p with
  | PEntry => "metadata/entrypoint.txtpb"
  | PGen k u => kind_text k +:+ pretty u
  | PExt s => s
  end.

(** A cell of a table.  [CAddr] is the record address struct {_FILE,_ROW_ID}
    (core/schema/arrow.py:212-215).  [CNested] is a non-null list or struct
    value, given by the non-null values it contributes to each Parquet leaf
    column. *)
Inductive cell :=
| CNull
| CVal (v : scalar)
| CAddr (file : path) (row : Z)
| CNested (leaves : list (list scalar)).
Global Instance cell_eq_dec : EqDecision cell.
Proof. solve_decision. Defined.

(** A row is a list of named cells in column order; a table is a list of rows. *)
Notation row := (list (string * cell)).

Fixpoint rget (n : string) (r : row) : option cell :=
  match r with
  | [] => None
  | (m, c) :: r' => if decide (n = m) then Some c else rget n r'
  end.

Definition cell_scalar (c : cell) : option scalar :=
  match c with CVal v => Some v | _ => None end.
Definition row_look (r : row) (n : string) : option scalar := rget n r ≫= cell_scalar.

Definition filter_expr := expr string.

(** Arrow/Parquet filtering keeps a row iff the mask is true (null is dropped). *)
Definition is_true (v : option scalar) : bool :=
  match v with Some (SBool true) => true | _ => false end.
Definition matches (e : filter_expr) (r : row) : bool := is_true (eval (row_look r) e).

(** Table.select (by names, in the order given); KeyError if absent. *)
Definition rsel (names : list string) (r : row) : res row :=
  rmapM (fun n => match rget n r with
                  | Some c => Ok (n, c)
                  | None => Err (EOther "KeyError: column")
                  end) names.
Definition tsel (names : list string) (t : list row) : res (list row) := rmapM (rsel names) t.
(** Table.column *)
Definition tcol (n : string) (t : list row) : res (list cell) :=
  rmapM (fun r => match rget n r with
                  | Some c => Ok c
                  | None => Err (EOther "KeyError: column")
                  end) t.
(** Table.append_column *)
Definition tappend (n : string) (col : list cell) (t : list row) : list row :=
  zip_with (fun r c => r ++ [(n, c)]) t col.
