(** C52: reading a view.  A view is a tree of row-wise maps and filters over a
    dataset; [map_fn] and [keep_fn] say what the user's functions compute;
    [blocks] whether Ray splits files. *)
From Verif.Model Require Import ViewRead.
From Verif.Spec Require Import Api Fixture ViewReads.
From Verif.Proofs Require Import ViewReads Witness.

(** If every transform asks for columns its input has, reading the view at a
    version returns the view of the rows a read of the dataset returns, in the
    same order, in tables that are not empty. *)
Theorem C52_view_of_rows : ∀ (F : Type) (map_fn : F → row → list row) (keep_fn : F → row → bool)
    σ hid s E E' blocks flt ver ref b b' (v : view F) rows,
  reachable σ → schema_at σ hid = Some s → well_fed map_fn keep_fn s ref v rows →
  result σ hid (run_read_all E' flt None ver ref b') = Some (Ok rows) →
  ∃ ts, result σ hid (run_view_read map_fn keep_fn E blocks v flt None ver ref b) = Some (Ok ts)
    ∧ concat ts = view_rows map_fn keep_fn (in_read_order s ref v) rows ∧ Forall (fun t => t ≠ []) ts.
Proof. intros F. exact view_read_rows. Qed.
Print Assumptions C52_view_of_rows.

(** When reading the dataset raises an error (an unknown version, say), so does
    reading the view.  [bottom_fields v]: the columns the view asks
    of the dataset. *)
Theorem C52_errors : ∀ (F : Type) (map_fn : F → row → list row) (keep_fn : F → row → bool)
    σ hid E E' blocks flt ver ref b b' (v : view F) s e,
  reachable σ → schema_at σ hid = Some s → (∀ n l, bottom_fields v = Some l → n ∈ l → n ∈ names_of (s_fields s)) →
  result σ hid (run_read_all E' flt None ver ref b') = Some (Err e) →
  result σ hid (run_view_read map_fn keep_fn E blocks v flt None ver ref b) = Some (Err e).
Proof. intros F. exact view_read_fails. Qed.
Print Assumptions C52_errors.

(** A map that sets column [v], below a filter keeping keys from 3 on. *)
Definition C52_map (f : string) (r : row) : list row :=
  [[("k", default CNull (rget "k" r)); ("v", CVal (SStr f)); ("r", default CNull (rget "r" r))]].
Definition C52_keep (f : string) (r : row) : bool := match row_look r "k" with Some (SNum z) => (3 <=? z)%Z | _ => false end.
Definition C52_view : view string :=
  VFilter (Udf "keep" [] [] None)
    (VMap (Udf "new" [] [] None) (VData "src" MAIN (Schema (assign_field_ids ex_fields) ["k"] ["r"])) ["r"; "k"]) ["k"; "v"].
Definition C52_source : sys := ex_calls [ex_create; ex_add [ex_row 1 "a" "A"; ex_row 3 "c" "C"]; ex_add [ex_row 4 "d" "D"]].
Example C52_case : ∃ s rows, reachable C52_source ∧ schema_at C52_source 0 = Some s ∧ well_fed C52_map C52_keep s false C52_view rows
  ∧ result C52_source 0 (run_read_all ex_env None None None false None) = Some (Ok rows)
  ∧ result C52_source 0 (run_view_read C52_map C52_keep ex_env true C52_view None None None false None)
    = Some (Ok [[[("k", CVal (SNum 3)); ("v", CVal (SStr "new"))]]; [[("k", CVal (SNum 4)); ("v", CVal (SStr "new"))]]])
  ∧ result C52_source 0 (run_read_all ex_env None None (Some (VId 9)) false None) = Some (Err (EUser UVersionNotFound)).
Proof.
  assert (reachable C52_source) by (apply reach; calls).
  do 2 eexists. split; [done|]. split; [computed|]. split; [|split; [computed|split; computed]].
  split; [split; [done|]|].
  - intros n Hn. cbn. repeat (apply elem_of_cons in Hn as [->|Hn]; [set_solver|]). by apply elem_of_nil in Hn.
  - intros n Hn r Hr. cbn in Hr. repeat (apply elem_of_cons in Hr as [->|Hr]; [cbn; set_solver|]). by apply elem_of_nil in Hr.
Qed.
