(** A small dataset used to show that the hypotheses of theorems can be met. *)
From Verif.Spec Require Export Api.

Definition ex_fields : list afield :=
  [AField "k" TInt64 None true; AField "v" TString None true; AField "r" TBinary None true].
Definition ex_env : env :=
  Env (fun t => 10 * Z.of_nat (length t))%Z (fun c => 10 * Z.of_nat (length c))%Z
      (fun t _ => 5 * Z.of_nat (length t))%Z (fun t _ => 7 * Z.of_nat (length t))%Z
      (fun _ => [2]) (fun _ => [1; 2]).
Definition ex_opts : fopts := FOpts 15 25 15.
Definition ex_row (k : Z) (v r : string) : row :=
  [("k", CVal (SNum k)); ("v", CVal (SStr v)); ("r", CVal (SStr r))].
Definition ex_rows : list (list row) :=
  [[ex_row 1 "a" "A"; ex_row 2 "b" "B"]; [ex_row 3 "c" "C"; ex_row 4 "d" "D"; ex_row 5 "e" "E"]].
Definition ex_calls (cs : list call) : sys := foldl step init cs.
Definition ex_create : call := CCreate 0 ex_fields ["k"] ["r"].
Definition ex_append : call := CRun 0 ex_env ex_opts (OAppend ex_rows).
(** One call appending all rows to one file, and comparisons with a literal. *)
Definition ex_large : fopts := FOpts 100000 100000 100000.
Definition ex_add (rows : list row) : call := CRun 0 ex_env ex_large (OAppend [rows]).
Definition ex_cmp (op : cop) (n : string) (v : scalar) : filter_expr :=
  EBin (FnCmp op) (EField n) (ELit (Some v)).
(** A dataset with a floating point key. *)
Definition ex_float : call := CCreate 0 [AField "x" TFloat64 None true] ["x"] [].
(** Every batch gets a file of its own; all files of a call share a manifest. *)
Definition ex_split : fopts := FOpts 0 0 0.
Definition ex_two_files : call := CRun 0 ex_env ex_split (OAppend ex_rows).
(** A struct column before the key; one of its fields is called like the key. *)
Definition ex_nested : call :=
  CCreate 0 [AField "a" (TStruct [AField "k" TInt64 None true; AField "y" TInt64 None true]) None true;
             AField "k" TInt64 None true] ["k"] [].
Definition ex_nested_row (x y k : Z) : row := [("a", CNested [[SNum x]; [SNum y]]); ("k", CVal (SNum k))].
(** A dataset without record fields, and a Parquet file to load into it. *)
Definition ex_flat : call := CCreate 0 [AField "k" TInt64 None true; AField "v" TString None true] ["k"] [].
Definition ex_flat_row (k : Z) (v : string) : row := [("k", CVal (SNum k)); ("v", CVal (SStr v))].
Definition ex_parquet (name : string) (rows : list row) : call := CExternal name (FIndex [("k", 0%Z); ("v", 1%Z)] [rows]).
Definition ex_load (name : string) : call := CRun 0 ex_env ex_large (OParquet [PExt name]).
