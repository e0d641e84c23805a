(** C59: joins of views. *)
From Verif.Model Require Import ViewJoin.
From Verif.Spec Require Import Api Fixture Joins ViewJoins.
From Verif.Proofs Require Import ViewJoins JoinAsk Witness.

(** A join of two views that returns, returns the inner join of the rows of the
    views ([asked]: [view_rows] of what a read of the dataset returns now, see
    C52).  [good_side]: the functions of a view keep the join key, and the key
    has the same field ID in the view as in the dataset.  [src] says whether the
    views have a common source; if so, and it was opened twice, the handle of the
    left side must know the newest version.  (Missing: the other cases, where the
    claim fails, NaN keys, keys behind nested columns, and the flattening of
    addresses, for which see C64.) *)
Theorem C59_views_partial : ∀ (F : Type) (map_fn : F → row → list row) (keep_fn : F → row → bool)
    σl hl sl σr hr sr (vl vr : view F) keys lf rf lref rref key l r E E' blocks src part none_ok batch b b' rows_l rows_r out,
  reachable σl → reachable σr → schema_at σl hl = Some sl → schema_at σr hr = Some sr →
  make_join (view_schema vl) (view_schema vr) keys lf rf lref rref = Ok (key, l, r) →
  own_columns (view_schema vl) l → own_columns (view_schema vr) r →
  result σl hl (run_read_all E' None None None (ji_ref l) b) = Some (Ok rows_l) →
  result σr hr (run_read_all E' None None None (ji_ref r) b') = Some (Ok rows_r) →
  good_side map_fn keep_fn sl vl (ji_ref l) key rows_l → good_side map_fn keep_fn sr vr (ji_ref r) key rows_r →
  (src = Shared false → result σl hl reload = Some (Ok false)) →
  separates part (common key (asked map_fn keep_fn sl vl l rows_l) (asked map_fn keep_fn sr vr r rows_r)) →
  result2 σl hl σr hr (run_join_read map_fn keep_fn E blocks src none_ok part key vl vr l r None None None false batch) = Some (Ok out) →
  out ≡ₚ inner_join key (output_fields key (view_schema vl) (view_schema vr) l r)
           (asked map_fn keep_fn sl vl l rows_l) (asked map_fn keep_fn sr vr r rows_r).
Proof. intros F. exact views_exact. Qed.
Print Assumptions C59_views_partial.

(** It returns if Arrow accepts the columns, the keys of the datasets have one
    type, every manifest file lists a key, and every range has a key of both
    sides (the last is not needed if Ray takes None as an empty table). *)
Theorem C59_returns_partial : ∀ (F : Type) (map_fn : F → row → list row) (keep_fn : F → row → bool)
    σl hl sl σr hr sr (vl vr : view F) keys lf rf lref rref key l r E E' blocks src part none_ok batch b b' rows_l rows_r,
  reachable σl → reachable σr → schema_at σl hl = Some sl → schema_at σr hr = Some sr →
  make_join (view_schema vl) (view_schema vr) keys lf rf lref rref = Ok (key, l, r) →
  own_columns (view_schema vl) l → own_columns (view_schema vr) r →
  result σl hl (run_read_all E' None None None (ji_ref l) b) = Some (Ok rows_l) →
  result σr hr (run_read_all E' None None None (ji_ref r) b') = Some (Ok rows_r) →
  good_side map_fn keep_fn sl vl (ji_ref l) key rows_l → good_side map_fn keep_fn sr vr (ji_ref r) key rows_r →
  (src = Shared false → result σl hl reload = Some (Ok false)) →
  join_accepts key (view_schema vl) (view_schema vr) l r = Ok tt → key_type sl key = key_type sr key →
  all_keyed key (layout σl hl) → all_keyed key (layout σr hr) →
  none_ok = true ∨ meets part (common key (asked map_fn keep_fn sl vl l rows_l) (asked map_fn keep_fn sr vr r rows_r)) →
  ∃ out, result2 σl hl σr hr (run_join_read map_fn keep_fn E blocks src none_ok part key vl vr l r None None None false batch) = Some (Ok out).
Proof. intros F. exact views_succeed. Qed.
Print Assumptions C59_returns_partial.

(** Functions: set column [v]; add 10 to the key; swap two columns.  Filters keep
    keys from 2 on. *)
Definition C59_map (f : string) (r : row) : list row :=
  if decide (f = "plus") then
    [[("k", match row_look r "k" with Some (SNum z) => CVal (SNum (z + 10)) | _ => CNull end); ("v", default CNull (rget "v" r))]]
  else if decide (f = "swap") then [[("b", default CNull (rget "b" r)); ("a", default CNull (rget "a" r))]]
  else [[("k", default CNull (rget "k" r)); ("v", CVal (SStr f))]].
Definition C59_keep (f : string) (r : row) : bool := match row_look r "k" with Some (SNum z) => (2 <=? z)%Z | _ => false end.
Definition C59_data : view string := VData "left" MAIN (Schema (assign_field_ids ex_fields) ["k"] ["r"]).
Definition C59_flat : list afield := [AField "k" TInt64 None true; AField "v" TString None true].
Definition C59_left : view string :=
  VFilter (Udf "keep" (assign_field_ids C59_flat) [] None)
    (VMap (Udf "new" (assign_field_ids C59_flat) [] None) C59_data ["k"; "v"]) ["k"; "v"].
Example C59_left_built :
  (let? v := map_batches C59_data "new" C59_flat (Some ["k"; "v"]) None None in filter_view v "keep" None) = Ok C59_left.
Proof. computed. Qed.
Definition C59_right_fields : list afield := [AField "k" TInt64 None true; AField "u" TString None true].
Definition C59_right : view string := VData "right" MAIN (Schema (assign_field_ids C59_right_fields) ["k"] []).
Definition C59_right_row (k : Z) (u : string) : row := [("k", CVal (SNum k)); ("u", CVal (SStr u))].
Definition C59_right_sys (rows : list row) : sys := ex_calls [CCreate 0 C59_right_fields ["k"] []; ex_add rows].
Definition C59_left_sys : sys :=
  ex_calls [ex_create; ex_add [ex_row 1 "a" "A"; ex_row 3 "c" "C"]; ex_add [ex_row 5 "d" "D"]].
Definition C59_rows : list row := [C59_right_row 1 "x"; C59_right_row 3 "y"; C59_right_row 9 "z"; C59_right_row 3 "w"].

Example C59_case : ∃ sl sr l r rows_l rows_r out,
  reachable C59_left_sys ∧ reachable (C59_right_sys C59_rows)
  ∧ schema_at C59_left_sys 0 = Some sl ∧ schema_at (C59_right_sys C59_rows) 0 = Some sr
  ∧ make_join (view_schema C59_left) (view_schema C59_right) ["k"] None (Some ["u"]) false false = Ok ("k", l, r)
  ∧ own_columns (view_schema C59_left) l ∧ own_columns (view_schema C59_right) r
  ∧ result C59_left_sys 0 (run_read_all ex_env None None None (ji_ref l) None) = Some (Ok rows_l)
  ∧ result (C59_right_sys C59_rows) 0 (run_read_all ex_env None None None (ji_ref r) None) = Some (Ok rows_r)
  ∧ good_side C59_map C59_keep sl C59_left (ji_ref l) "k" rows_l ∧ good_side C59_map C59_keep sr C59_right (ji_ref r) "k" rows_r
  ∧ join_accepts "k" (view_schema C59_left) (view_schema C59_right) l r = Ok tt ∧ key_type sl "k" = key_type sr "k"
  ∧ all_keyed "k" (layout C59_left_sys 0) ∧ all_keyed "k" (layout (C59_right_sys C59_rows) 0)
  ∧ common "k" (asked C59_map C59_keep sl C59_left l rows_l) (asked C59_map C59_keep sr C59_right r rows_r) = [SNum 3]
  ∧ result2 C59_left_sys 0 (C59_right_sys C59_rows) 0
      (run_join_read C59_map C59_keep ex_env true Apart false None "k" C59_left C59_right l r None None None false None) = Some (Ok out)
  ∧ out = [[("k", CVal (SNum 3)); ("v", CVal (SStr "new")); ("u", CVal (SStr "y"))];
           [("k", CVal (SNum 3)); ("v", CVal (SStr "new")); ("u", CVal (SStr "w"))]].
Proof.
  assert (Htest : ∀ key lay, forallb (fun man => existsb (fun t => existsb (fun r => match row_look r key with Some v => negb (is_nan v) | None => false end) t) man) lay = true →
    all_keyed key lay).
  { clear. intros key lay H man Hman. rewrite forallb_forall in H. apply elem_of_list_In in Hman. apply H in Hman.
    apply existsb_exists in Hman as (t&Ht&(r&Hr&Hv)%existsb_exists). exists t, r. destruct (row_look r key) as [v|]; [|done]. exists v.
    split_and!; [by apply elem_of_list_In..|done|]. intros ->. done. }
  do 7 eexists. split; [apply reach; calls|]. split; [apply reach; calls|].
  split; [computed|]. split; [computed|]. split; [computed|].
  split; [apply own_tested; computed|]. split; [apply own_tested; computed|]. split; [computed|]. split; [computed|].
  split.
  { constructor.
    - done.
    - split; [split; [done|]|].
      + intros n Hn. cbn. repeat (apply elem_of_cons in Hn as [->|Hn]; [set_solver|]). by apply elem_of_nil in Hn.
      + intros n Hn r Hr. cbn in Hr. repeat (apply elem_of_cons in Hr as [->|Hr]; [exact Hn|]). by apply elem_of_nil in Hr.
    - split; [|done]. intros r x Hx. apply elem_of_list_singleton in Hx as ->. done.
    - intros r x _ Hx. apply elem_of_list_filter in Hx as [_ Hx]. cbn in Hx. apply elem_of_list_singleton in Hx as ->.
      transitivity (cell_scalar (default CNull (rget "k" r))); [by vm_compute|]. unfold row_look. by destruct (rget "k" r).
    - computed.
    - apply plain_tested; computed.
    - apply Forall_forall; apply (bool_decide_unpack _); by vm_compute. }
  split.
  { constructor.
    - done.
    - done.
    - done.
    - intros r x _ Hx. apply elem_of_list_singleton in Hx as ->. done.
    - done.
    - apply plain_tested; computed.
    - apply Forall_forall; apply (bool_decide_unpack _); by vm_compute. }
  split; [computed|]. split; [computed|]. split; [apply Htest; computed|]. split; [apply Htest; computed|]. split; [computed|]. split; computed.
Qed.

(** The claim fails for a view that changes the key: the ranges of the join are
    found in the statistics of the dataset, and given to the reads below the
    functions.  Keys 1 and 5 become 11 and 15; row 15 of the right side finds no
    partner. *)
Definition C59_plus : view string := VMap (Udf "plus" (assign_field_ids C59_flat) [] None) C59_data ["k"; "v"].
Definition C59_few_sys : sys := ex_calls [ex_create; ex_add [ex_row 1 "a" "A"; ex_row 5 "e" "E"]].
Definition C59_few : list row := [C59_right_row 3 "x"; C59_right_row 5 "y"; C59_right_row 15 "z"].
Theorem C59_refuted_key : ∃ sl sr l r rows_l rows_r,
  map_batches C59_data "plus" C59_flat (Some ["k"; "v"]) None None = Ok C59_plus
  ∧ reachable C59_few_sys ∧ reachable (C59_right_sys C59_few)
  ∧ schema_at C59_few_sys 0 = Some sl ∧ schema_at (C59_right_sys C59_few) 0 = Some sr
  ∧ make_join (view_schema C59_plus) (view_schema C59_right) ["k"] None (Some ["u"]) false false = Ok ("k", l, r)
  ∧ result C59_few_sys 0 (run_read_all ex_env None None None (ji_ref l) None) = Some (Ok rows_l)
  ∧ result (C59_right_sys C59_few) 0 (run_read_all ex_env None None None (ji_ref r) None) = Some (Ok rows_r)
  ∧ inner_join "k" (output_fields "k" (view_schema C59_plus) (view_schema C59_right) l r)
      (asked C59_map C59_keep sl C59_plus l rows_l) (asked C59_map C59_keep sr C59_right r rows_r)
    = [[("k", CVal (SNum 15)); ("v", CVal (SStr "e")); ("u", CVal (SStr "z"))]]
  ∧ result2 C59_few_sys 0 (C59_right_sys C59_few) 0
      (run_join_read C59_map C59_keep ex_env true Apart false None "k" C59_plus C59_right l r None None None false None) = Some (Ok []).
Proof.
  do 6 eexists. split; [computed|]. split; [apply reach; calls|]. split; [apply reach; calls|]. do 6 (split; [computed|]). computed.
Qed.
Print Assumptions C59_refuted_key.

(** It fails for a view that keeps all values but has its columns in another
    order: the join looks up the statistics by the field ID which the key has in
    the view, where the dataset has another column.  Column [a] holds 1 and 2,
    [b] holds 1 and 100; the join on [b] loses row 100. *)
Definition C59_two_fields : list afield := [AField "a" TInt64 None true; AField "b" TInt64 None true].
Definition C59_two_row (a b : Z) : row := [("a", CVal (SNum a)); ("b", CVal (SNum b))].
Definition C59_two : view string := VData "left" MAIN (Schema (assign_field_ids C59_two_fields) ["a"; "b"] []).
Definition C59_swapped_fields : list afield := [AField "b" TInt64 None true; AField "a" TInt64 None true].
Definition C59_swapped : view string := VMap (Udf "swap" (assign_field_ids C59_swapped_fields) [] None) C59_two ["a"; "b"].
Definition C59_two_sys : sys := ex_calls [CCreate 0 C59_two_fields ["a"; "b"] []; ex_add [C59_two_row 1 1; C59_two_row 2 100]].
Definition C59_b_fields : list afield := [AField "b" TInt64 None true; AField "u" TString None true].
Definition C59_b : view string := VData "right" MAIN (Schema (assign_field_ids C59_b_fields) ["b"] []).
Definition C59_b_row (b : Z) (u : string) : row := [("b", CVal (SNum b)); ("u", CVal (SStr u))].
Definition C59_b_sys : sys := ex_calls [CCreate 0 C59_b_fields ["b"] []; ex_add [C59_b_row 1 "x"; C59_b_row 100 "y"]].
Theorem C59_refuted_order : ∃ sl sr l r rows_l rows_r,
  map_batches C59_two "swap" C59_swapped_fields (Some ["a"; "b"]) None None = Ok C59_swapped
  ∧ reachable C59_two_sys ∧ reachable C59_b_sys ∧ schema_at C59_two_sys 0 = Some sl ∧ schema_at C59_b_sys 0 = Some sr
  ∧ make_join (view_schema C59_swapped) (view_schema C59_b) ["b"] None (Some ["u"]) false false = Ok ("b", l, r)
  ∧ result C59_two_sys 0 (run_read_all ex_env None None None (ji_ref l) None) = Some (Ok rows_l)
  ∧ result C59_b_sys 0 (run_read_all ex_env None None None (ji_ref r) None) = Some (Ok rows_r)
  ∧ inner_join "b" (output_fields "b" (view_schema C59_swapped) (view_schema C59_b) l r)
      (asked C59_map C59_keep sl C59_swapped l rows_l) (asked C59_map C59_keep sr C59_b r rows_r)
    = [[("b", CVal (SNum 1)); ("a", CVal (SNum 1)); ("u", CVal (SStr "x"))];
       [("b", CVal (SNum 100)); ("a", CVal (SNum 2)); ("u", CVal (SStr "y"))]]
  ∧ result2 C59_two_sys 0 C59_b_sys 0
      (run_join_read C59_map C59_keep ex_env true Apart false None "b" C59_swapped C59_b l r None None None false None)
    = Some (Ok [[("b", CVal (SNum 1)); ("a", CVal (SNum 1)); ("u", CVal (SStr "x"))]]).
Proof.
  do 6 eexists. split; [computed|]. split; [apply reach; calls|]. split; [apply reach; calls|]. do 6 (split; [computed|]). computed.
Qed.
Print Assumptions C59_refuted_order.

(** It fails for a dataset that was opened twice and joined with itself: only the
    handle of the right side is reloaded.  Handle 0 does not know the row that
    handle 1 appended. *)
Definition C59_twice : sys :=
  ex_calls [ex_create; ex_add [ex_row 1 "a" "A"]; CLoad 1; CRun 1 ex_env ex_opts (OAppend [[ex_row 2 "b" "B"]])].
Theorem C59_refuted_stale : ∃ s l r rows out,
  reachable C59_twice ∧ schema_at C59_twice 0 = Some s ∧ schema_at C59_twice 1 = Some s
  ∧ make_join (view_schema C59_data) (view_schema C59_data) ["k"] (Some ["v"]) (Some ["r"]) true true = Ok ("k", l, r)
  ∧ result C59_twice 0 (run_read_all ex_env None None None (ji_ref l) None) = Some (Ok rows)
  ∧ result C59_twice 1 (run_read_all ex_env None None None (ji_ref r) None) = Some (Ok rows)
  ∧ (fun x => row_look x "k") <$>
      inner_join "k" (output_fields "k" (view_schema C59_data) (view_schema C59_data) l r)
        (asked C59_map C59_keep s C59_data l rows) (asked C59_map C59_keep s C59_data r rows)
    = [Some (SNum 1); Some (SNum 2)]
  ∧ result2 C59_twice 0 C59_twice 1
      (run_join_read C59_map C59_keep ex_env true (Shared false) false None "k" C59_data C59_data l r None None None false None)
    = Some (Ok out)
  ∧ (fun x => row_look x "k") <$> out = [Some (SNum 1)].
Proof.
  do 5 eexists. split; [apply reach; calls|]. do 7 (split; [computed|]). computed.
Qed.
Print Assumptions C59_refuted_stale.
