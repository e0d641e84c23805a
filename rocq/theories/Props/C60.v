(** C60: options of reads of joins. *)
From Verif.Model Require Import ViewJoin.
From Verif.Spec Require Import Api Fixture Joins ViewJoins.
From Verif.Proofs Require Import ViewJoins Witness.

(** A read of a join with [fields], with [reference_read], or with a version
    when there are two sources raises: no rows are returned as if the option had
    been obeyed.  (Missing: a filter, and a version with one source; both are
    ignored, see below.) *)
Theorem C60_raises_partial : ∀ (F : Type) (map_fn : F → row → list row) (keep_fn : F → row → bool)
    σl hl sl σr hr sr (vl vr : view F) key l r E blocks src part none_ok flt fields ver ref batch,
  reachable σl → reachable σr → schema_at σl hl = Some sl → schema_at σr hr = Some sr →
  is_Some fields ∨ ref = true ∨ is_Some ver ∧ src = Apart →
  ∃ e, result2 σl hl σr hr (run_join_read map_fn keep_fn E blocks src none_ok part key vl vr l r flt fields ver ref batch)
  = Some (Err e).
Proof. intros F. exact options_raise. Qed.
Print Assumptions C60_raises_partial.

(** The error is a UserInputError, unless a version of a common source was looked
    up before and not found. *)
Theorem C60_error_partial : ∀ (F : Type) (map_fn : F → row → list row) (keep_fn : F → row → bool)
    σl hl sl σr hr sr (vl vr : view F) key l r E blocks src part none_ok flt fields ver ref batch,
  reachable σl → reachable σr → schema_at σl hl = Some sl → schema_at σr hr = Some sr →
  is_Some fields ∨ ref = true ∨ is_Some ver ∧ src = Apart → (ver = None ∨ src = Apart) →
  result2 σl hl σr hr (run_join_read map_fn keep_fn E blocks src none_ok part key vl vr l r flt fields ver ref batch)
  = Some (Err (EUser UInput)).
Proof. intros F. exact options_rejected. Qed.
Print Assumptions C60_error_partial.

Definition C60_map (f : string) (r : row) : list row := [r].
Definition C60_keep (f : string) (r : row) : bool := true.
Definition C60_left : view string := VData "left" MAIN (Schema (assign_field_ids ex_fields) ["k"] ["r"]).
Definition C60_right_fields : list afield := [AField "k" TInt64 None true; AField "u" TString None true].
Definition C60_right : view string := VData "right" MAIN (Schema (assign_field_ids C60_right_fields) ["k"] []).
Definition C60_right_row (k : Z) (u : string) : row := [("k", CVal (SNum k)); ("u", CVal (SStr u))].
Definition C60_left_sys : sys := ex_calls [ex_create; ex_add [ex_row 1 "a" "A"; ex_row 3 "c" "C"]].
Definition C60_right_sys : sys :=
  ex_calls [CCreate 0 C60_right_fields ["k"] []; ex_add [C60_right_row 1 "x"; C60_right_row 3 "y"]].
Definition C60_join (flt : option filter_expr) (fields : option (list string)) (ver : option version) (l r : join_input) :=
  result2 C60_left_sys 0 C60_right_sys 0
    (run_join_read C60_map C60_keep ex_env true Apart false None "k" C60_left C60_right l r flt fields ver false None).
Example C60_case : ∃ sl sr l r,
  reachable C60_left_sys ∧ reachable C60_right_sys ∧ schema_at C60_left_sys 0 = Some sl ∧ schema_at C60_right_sys 0 = Some sr
  ∧ make_join (view_schema C60_left) (view_schema C60_right) ["k"] (Some ["v"]) (Some ["u"]) false false = Ok ("k", l, r)
  ∧ C60_join None None None l r
    = Some (Ok [[("k", CVal (SNum 1)); ("v", CVal (SStr "a")); ("u", CVal (SStr "x"))];
                [("k", CVal (SNum 3)); ("v", CVal (SStr "c")); ("u", CVal (SStr "y"))]])
  ∧ C60_join None (Some ["k"]) None l r = Some (Err (EUser UInput))
  ∧ C60_join None None (Some (VId 1)) l r = Some (Err (EUser UInput)).
Proof.
  do 4 eexists. split; [apply reach; calls|]. split; [apply reach; calls|]. do 5 (split; [computed|]). computed.
Qed.

(** The full claim fails for filters: rows come back that do not match. *)
Theorem C60_refuted_filter : ∃ sl sr l r out row,
  reachable C60_left_sys ∧ reachable C60_right_sys ∧ schema_at C60_left_sys 0 = Some sl ∧ schema_at C60_right_sys 0 = Some sr
  ∧ make_join (view_schema C60_left) (view_schema C60_right) ["k"] (Some ["v"]) (Some ["u"]) false false = Ok ("k", l, r)
  ∧ C60_join (Some (ex_cmp OpGt "k" (SNum 1))) None None l r = Some (Ok (row :: out))
  ∧ matches (ex_cmp OpGt "k" (SNum 1)) row = false.
Proof.
  do 6 eexists. split; [apply reach; calls|]. split; [apply reach; calls|]. do 4 (split; [computed|]). computed.
Qed.
Print Assumptions C60_refuted_filter.

(** It fails for versions of a dataset joined with itself: snapshot 1 has one
    row, and the join with that version returns the rows of the newest one. *)
Definition C60_self_sys : sys := ex_calls [ex_create; ex_add [ex_row 1 "a" "A"]; ex_add [ex_row 2 "b" "B"]].
Theorem C60_refuted_version : ∃ s l r out,
  reachable C60_self_sys ∧ schema_at C60_self_sys 0 = Some s
  ∧ make_join (view_schema C60_left) (view_schema C60_left) ["k"] (Some ["v"]) (Some ["r"]) true true = Ok ("k", l, r)
  ∧ (∃ rows, result C60_self_sys 0 (run_read_all ex_env None None (Some (VId 1)) true None) = Some (Ok rows)
      ∧ (fun x => row_look x "k") <$> rows = [Some (SNum 1)])
  ∧ result2 C60_self_sys 0 C60_self_sys 0
      (run_join_read C60_map C60_keep ex_env true (Shared true) false None "k" C60_left C60_left l r None None (Some (VId 1)) false None)
    = Some (Ok out)
  ∧ (fun x => row_look x "k") <$> out = [Some (SNum 1); Some (SNum 2)].
Proof.
  do 4 eexists. split; [apply reach; calls|]. do 2 (split; [computed|]). split; [eexists; split; computed|]. split; computed.
Qed.
Print Assumptions C60_refuted_version.
