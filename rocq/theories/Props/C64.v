(** C64: joins give back the record addresses their sides read. *)
From Verif.Model Require Import JoinFold ViewJoinFold.
From Verif.Spec Require Import Api Fixture Pruning Layout Joins Joinable JoinFolds ViewJoins ViewJoinFolds.
From Verif.Proofs Require Import JoinAccept JoinAsk JoinFoldRun ViewJoinFold Witness.

(** Addresses are taken apart for Arrow and put together after the join.  The
    rows returned are still those of the inner join of what both sides read,
    addresses included.  Missing from the full claim: repeated column names, and
    columns called like parts of addresses, both refuted below; otherwise as
    C35. *)
Theorem C64_rows_partial : ∀ σl hl sl σr hr sr keys lf rf lref rref key l r E E' blocks part none_ok b b' L R out,
  reachable σl → reachable σr → schema_at σl hl = Some sl → schema_at σr hr = Some sr →
  make_join sl sr keys lf rf lref rref = Ok (key, l, r) →
  own_columns sl l → own_columns sr r → distinct_columns key sl sr l r → parts_free sl sr l r →
  plain_before sl key → plain_before sr key →
  result σl hl (run_read_all E' None (ji_fields l) None (ji_ref l) b) = Some (Ok L) →
  result σr hr (run_read_all E' None (ji_fields r) None (ji_ref r) b') = Some (Ok R) →
  (∀ x, x ∈ L ∨ x ∈ R → row_look x key ≠ Some SNaN) →
  separates part (common key L R) →
  result2 σl hl σr hr (run_join_flat none_ok E blocks part key l r) = Some (Ok out) →
  out ≡ₚ inner_join key (output_fields key sl sr l r) L R.
Proof. exact flat_exact. Qed.
Print Assumptions C64_rows_partial.

(** It returns whenever C35 says so. *)
Theorem C64_returns_partial : ∀ σl hl sl σr hr sr keys lf rf lref rref key l r E E' blocks part none_ok b b' L R,
  reachable σl → reachable σr → schema_at σl hl = Some sl → schema_at σr hr = Some sr →
  make_join sl sr keys lf rf lref rref = Ok (key, l, r) →
  own_columns sl l → own_columns sr r → distinct_columns key sl sr l r → parts_free sl sr l r →
  plain_before sl key → plain_before sr key →
  result σl hl (run_read_all E' None (ji_fields l) None (ji_ref l) b) = Some (Ok L) →
  result σr hr (run_read_all E' None (ji_fields r) None (ji_ref r) b') = Some (Ok R) →
  (∀ x, x ∈ L ∨ x ∈ R → row_look x key ≠ Some SNaN) →
  joinable key sl sr l r →
  all_keyed key (layout σl hl) → all_keyed key (layout σr hr) →
  none_ok = true ∨ meets part (common key L R) →
  ∃ out, result2 σl hl σr hr (run_join_flat none_ok E blocks part key l r) = Some (Ok out).
Proof. exact flat_returns. Qed.
Print Assumptions C64_returns_partial.

(** Two datasets with a record field each, "r" and "q"; both sides read addresses. *)
Definition C64_fields (q : string) : list afield := [AField "k" TInt64 None true; AField q TBinary None true].
Definition C64_row (q : string) (k : Z) (b : string) : row := [("k", CVal (SNum k)); (q, CVal (SStr b))].
Definition C64_left : sys := ex_calls [ex_create; ex_two_files].
Definition C64_right : sys :=
  ex_calls [CCreate 0 (C64_fields "q") ["k"] ["q"]; ex_add [C64_row "q" 2 "x"; C64_row "q" 3 "y"; C64_row "q" 9 "z"]].
Example C64_case : ∃ sl sr l r L R out,
  reachable C64_left ∧ reachable C64_right ∧ schema_at C64_left 0 = Some sl ∧ schema_at C64_right 0 = Some sr
  ∧ make_join sl sr ["k"] None None true true = Ok ("k", l, r)
  ∧ own_columns sl l ∧ own_columns sr r ∧ distinct_columns "k" sl sr l r ∧ parts_free sl sr l r
  ∧ plain_before sl "k" ∧ plain_before sr "k"
  ∧ result C64_left 0 (run_read_all ex_env None (ji_fields l) None (ji_ref l) None) = Some (Ok L)
  ∧ result C64_right 0 (run_read_all ex_env None (ji_fields r) None (ji_ref r) None) = Some (Ok R)
  ∧ (∀ x, x ∈ L ∨ x ∈ R → row_look x "k" ≠ Some SNaN)
  ∧ joinable "k" sl sr l r ∧ all_keyed "k" (layout C64_left 0) ∧ all_keyed "k" (layout C64_right 0)
  ∧ meets None (common "k" L R)
  ∧ result2 C64_left 0 C64_right 0 (run_join_flat false ex_env true None "k" l r) = Some (Ok out)
  ∧ (fun x => row_look x "k") <$> out = [Some (SNum 2); Some (SNum 3)]
  ∧ Forall (fun x => ∃ p i p' i', rget "r" x = Some (CAddr p i) ∧ rget "q" x = Some (CAddr p' i')) out.
Proof.
  do 7 eexists. split; [apply reach; calls|]. split; [apply reach; calls|]. do 3 (split; [computed|]).
  split; [apply own_tested; computed|]. split; [apply own_tested; computed|].
  split; [apply distinct_tested; computed|]. split; [apply parts_tested; computed|].
  split; [apply plain_tested; computed|]. split; [apply plain_tested; computed|]. split; [computed|]. split; [computed|].
  split.
  { intros x [Hx|Hx]; revert x Hx; apply Forall_forall; apply (bool_decide_unpack _); by vm_compute. }
  split; [eapply (joinable_tested C64_left 0 _ C64_right 0 _); [apply reach; calls|apply reach; calls|computed|computed|computed|computed]|].
  split; [apply keyed_lists; computed|]. split; [apply keyed_lists; computed|]. split; [by vm_compute|].
  split; [computed|]. split; [computed|]. repeat (constructor; [do 4 eexists; split; computed|]). constructor.
Qed.

(** The right side has a column called "r._FILE", and the left side reads the
    addresses of its record field "r": the join has two columns of this name
    and raises, although the names of the result are all different. *)
Definition C64_odd : sys :=
  ex_calls [CCreate 0 [AField "k" TInt64 None true; AField "r._FILE" TString None true] ["k"] [];
            ex_add [[("k", CVal (SNum 2)); ("r._FILE", CVal (SStr "x"))]]].
Theorem C64_refuted_name : ∃ sl sr l r L R e,
  reachable C64_left ∧ reachable C64_odd ∧ schema_at C64_left 0 = Some sl ∧ schema_at C64_odd 0 = Some sr
  ∧ make_join sl sr ["k"] None None true false = Ok ("k", l, r)
  ∧ result C64_left 0 (run_read_all ex_env None (ji_fields l) None (ji_ref l) None) = Some (Ok L)
  ∧ result C64_odd 0 (run_read_all ex_env None (ji_fields r) None (ji_ref r) None) = Some (Ok R)
  ∧ joinable "k" sl sr l r ∧ distinct_columns "k" sl sr l r
  ∧ length (inner_join "k" (output_fields "k" sl sr l r) L R) = 1
  ∧ result2 C64_left 0 C64_odd 0 (run_join_flat false ex_env true None "k" l r) = Some (Err e).
Proof.
  do 7 eexists. split; [apply reach; calls|]. split; [apply reach; calls|]. do 5 (split; [computed|]).
  split; [eapply (joinable_tested C64_left 0 _ C64_odd 0 _); [apply reach; calls|apply reach; calls|computed|computed|computed|computed]|].
  split; [apply distinct_tested; computed|]. split; [computed|]. computed.
Qed.
Print Assumptions C64_refuted_name.

(** A dataset that lists its record field twice can be written and read, but not
    joined by addresses: the second turn of _fold_addresses finds no parts. *)
Definition C64_twice : sys :=
  ex_calls [CCreate 0 (C64_fields "q") ["k"] ["q"; "q"]; ex_add [C64_row "q" 2 "x"]].
Theorem C64_refuted_twice : ∃ sl sr l r L R e,
  reachable C64_twice ∧ reachable C64_left ∧ schema_at C64_twice 0 = Some sl ∧ schema_at C64_left 0 = Some sr
  ∧ make_join sl sr ["k"] None None true false = Ok ("k", l, r)
  ∧ result C64_twice 0 (run_read_all ex_env None (ji_fields l) None (ji_ref l) None) = Some (Ok L)
  ∧ result C64_left 0 (run_read_all ex_env None (ji_fields r) None (ji_ref r) None) = Some (Ok R)
  ∧ joinable "k" sl sr l r ∧ parts_free sl sr l r
  ∧ length (inner_join "k" (output_fields "k" sl sr l r) L R) = 1
  ∧ result2 C64_twice 0 C64_left 0 (run_join_flat false ex_env true None "k" l r) = Some (Err e).
Proof.
  do 7 eexists. split; [apply reach; calls|]. split; [apply reach; calls|]. do 5 (split; [computed|]).
  split; [eapply (joinable_tested C64_twice 0 _ C64_left 0 _); [apply reach; calls|apply reach; calls|computed|computed|computed|computed]|].
  split; [apply parts_tested; computed|]. split; [computed|]. computed.
Qed.
Print Assumptions C64_refuted_twice.

(** The same for joins of views (see C59): the addresses must be in the columns
    that the views call record fields ([addressed]; otherwise see below). *)
Theorem C64_views_partial : ∀ (F : Type) (map_fn : F → row → list row) (keep_fn : F → row → bool)
    σl hl sl σr hr sr (vl vr : view F) keys lf rf lref rref key l r E E' blocks src part none_ok b b' rows_l rows_r out,
  reachable σl → reachable σr → schema_at σl hl = Some sl → schema_at σr hr = Some sr →
  make_join (view_schema vl) (view_schema vr) keys lf rf lref rref = Ok (key, l, r) →
  own_columns (view_schema vl) l → own_columns (view_schema vr) r →
  distinct_columns key (view_schema vl) (view_schema vr) l r → parts_free (view_schema vl) (view_schema vr) l r →
  result σl hl (run_read_all E' None None None (ji_ref l) b) = Some (Ok rows_l) →
  result σr hr (run_read_all E' None None None (ji_ref r) b') = Some (Ok rows_r) →
  good_side map_fn keep_fn sl vl (ji_ref l) key rows_l → good_side map_fn keep_fn sr vr (ji_ref r) key rows_r →
  addressed vl (ji_ref l) (asked map_fn keep_fn sl vl l rows_l) → addressed vr (ji_ref r) (asked map_fn keep_fn sr vr r rows_r) →
  (src = Shared false → result σl hl reload = Some (Ok false)) →
  separates part (common key (asked map_fn keep_fn sl vl l rows_l) (asked map_fn keep_fn sr vr r rows_r)) →
  result2 σl hl σr hr (run_view_join_flat map_fn keep_fn E blocks src none_ok part key vl vr l r) = Some (Ok out) →
  out ≡ₚ inner_join key (output_fields key (view_schema vl) (view_schema vr) l r)
           (asked map_fn keep_fn sl vl l rows_l) (asked map_fn keep_fn sr vr r rows_r).
Proof. intros F. exact view_flat_exact. Qed.
Print Assumptions C64_views_partial.

Theorem C64_views_return_partial : ∀ (F : Type) (map_fn : F → row → list row) (keep_fn : F → row → bool)
    σl hl sl σr hr sr (vl vr : view F) keys lf rf lref rref key l r E E' blocks src part none_ok b b' rows_l rows_r,
  reachable σl → reachable σr → schema_at σl hl = Some sl → schema_at σr hr = Some sr →
  make_join (view_schema vl) (view_schema vr) keys lf rf lref rref = Ok (key, l, r) →
  own_columns (view_schema vl) l → own_columns (view_schema vr) r →
  distinct_columns key (view_schema vl) (view_schema vr) l r → parts_free (view_schema vl) (view_schema vr) l r →
  result σl hl (run_read_all E' None None None (ji_ref l) b) = Some (Ok rows_l) →
  result σr hr (run_read_all E' None None None (ji_ref r) b') = Some (Ok rows_r) →
  good_side map_fn keep_fn sl vl (ji_ref l) key rows_l → good_side map_fn keep_fn sr vr (ji_ref r) key rows_r →
  addressed vl (ji_ref l) (asked map_fn keep_fn sl vl l rows_l) → addressed vr (ji_ref r) (asked map_fn keep_fn sr vr r rows_r) →
  (src = Shared false → result σl hl reload = Some (Ok false)) →
  join_accepts key (view_schema vl) (view_schema vr) l r = Ok tt → key_type sl key = key_type sr key →
  all_keyed key (layout σl hl) → all_keyed key (layout σr hr) →
  none_ok = true ∨ meets part (common key (asked map_fn keep_fn sl vl l rows_l) (asked map_fn keep_fn sr vr r rows_r)) →
  ∃ out, result2 σl hl σr hr (run_view_join_flat map_fn keep_fn E blocks src none_ok part key vl vr l r) = Some (Ok out).
Proof. intros F. exact view_flat_returns. Qed.
Print Assumptions C64_views_return_partial.

(** A function that keeps columns "k" and "r", with and without declaring that
    "r" is a record field. *)
Definition C64_map (f : string) (r : row) : list row := [[("k", default CNull (rget "k" r)); ("r", default CNull (rget "r" r))]].
Definition C64_keep (f : string) (r : row) : bool := match row_look r "k" with Some (SNum z) => (3 <=? z)%Z | _ => false end.
Definition C64_data : view string := VData "left" MAIN (Schema (assign_field_ids ex_fields) ["k"] ["r"]).
Definition C64_other : view string := VData "right" MAIN (Schema (assign_field_ids (C64_fields "q")) ["k"] ["q"]).
Definition C64_declared : view string :=
  VFilter (Udf "keep" (assign_field_ids (C64_fields "r")) ["r"] None)
    (VMap (Udf "same" (assign_field_ids (C64_fields "r")) ["r"] None) C64_data ["k"; "r"]) ["k"; "r"].
Definition C64_undeclared : view string := VMap (Udf "same" (assign_field_ids (C64_fields "r")) [] None) C64_data ["k"; "r"].
Example C64_views_case : ∃ sl sr l r rows_l rows_r out,
  (let? v := map_batches C64_data "same" (C64_fields "r") (Some ["k"; "r"]) (Some ["r"]) None in filter_view v "keep" None) = Ok C64_declared
  ∧ reachable C64_left ∧ reachable C64_right ∧ schema_at C64_left 0 = Some sl ∧ schema_at C64_right 0 = Some sr
  ∧ make_join (view_schema C64_declared) (view_schema C64_other) ["k"] None None true true = Ok ("k", l, r)
  ∧ own_columns (view_schema C64_declared) l ∧ own_columns (view_schema C64_other) r
  ∧ distinct_columns "k" (view_schema C64_declared) (view_schema C64_other) l r
  ∧ parts_free (view_schema C64_declared) (view_schema C64_other) l r
  ∧ result C64_left 0 (run_read_all ex_env None None None (ji_ref l) None) = Some (Ok rows_l)
  ∧ result C64_right 0 (run_read_all ex_env None None None (ji_ref r) None) = Some (Ok rows_r)
  ∧ good_side C64_map C64_keep sl C64_declared (ji_ref l) "k" rows_l ∧ good_side C64_map C64_keep sr C64_other (ji_ref r) "k" rows_r
  ∧ addressed C64_declared (ji_ref l) (asked C64_map C64_keep sl C64_declared l rows_l)
  ∧ addressed C64_other (ji_ref r) (asked C64_map C64_keep sr C64_other r rows_r)
  ∧ join_accepts "k" (view_schema C64_declared) (view_schema C64_other) l r = Ok tt ∧ key_type sl "k" = key_type sr "k"
  ∧ all_keyed "k" (layout C64_left 0) ∧ all_keyed "k" (layout C64_right 0)
  ∧ common "k" (asked C64_map C64_keep sl C64_declared l rows_l) (asked C64_map C64_keep sr C64_other r rows_r) = [SNum 3]
  ∧ result2 C64_left 0 C64_right 0
      (run_view_join_flat C64_map C64_keep ex_env true Apart false None "k" C64_declared C64_other l r) = Some (Ok out)
  ∧ (fun x => row_look x "k") <$> out = [Some (SNum 3)]
  ∧ Forall (fun x => ∃ p i p' i', rget "r" x = Some (CAddr p i) ∧ rget "q" x = Some (CAddr p' i')) out.
Proof.
  do 7 eexists. split; [computed|]. split; [apply reach; calls|]. split; [apply reach; calls|].
  split; [computed|]. split; [computed|]. split; [computed|].
  split; [apply own_tested; computed|]. split; [apply own_tested; computed|].
  split; [apply distinct_tested; computed|]. split; [apply parts_tested; computed|]. split; [computed|]. split; [computed|].
  split.
  { constructor.
    - done.
    - split; [split; [done|]|].
      + intros n Hn. cbn. repeat (apply elem_of_cons in Hn as [->|Hn]; [set_solver|]). by apply elem_of_nil in Hn.
      + intros n Hn r Hr. cbn in Hr. repeat (apply elem_of_cons in Hr as [->|Hr]; [exact Hn|]). by apply elem_of_nil in Hr.
    - split; [|done]. intros r x Hx. apply elem_of_list_singleton in Hx as ->. done.
    - intros r x _ Hx. apply elem_of_list_filter in Hx as [_ Hx]. cbn in Hx. apply elem_of_list_singleton in Hx as ->.
      transitivity (cell_scalar (default CNull (rget "k" r))); [by vm_compute|]. unfold row_look. by destruct (rget "k" r).
    - computed.
    - apply plain_tested; computed.
    - apply Forall_forall; apply (bool_decide_unpack _); by vm_compute. }
  split.
  { constructor.
    - done.
    - done.
    - done.
    - intros r x _ Hx. apply elem_of_list_singleton in Hx as ->. done.
    - done.
    - apply plain_tested; computed.
    - apply Forall_forall; apply (bool_decide_unpack _); by vm_compute. }
  split; [apply addressed_tested; computed|]. split; [apply addressed_tested; computed|].
  split; [computed|]. split; [computed|]. split; [apply keyed_lists; computed|]. split; [apply keyed_lists; computed|].
  split; [computed|]. split; [computed|]. split; [computed|]. repeat (constructor; [do 4 eexists; split; computed|]). constructor.
Qed.

(** Datasets, and filters that read all columns, have their addresses in their
    record fields: of these views, only maps can break [addressed]. *)
Theorem C64_filters : ∀ (F : Type) (map_fn : F → row → list row) (keep_fn : F → row → bool) σ hid s (v : view F) i E b rows,
  reachable σ → schema_at σ hid = Some s → over s v → only_filters v → shaped map_fn s v → own_columns (view_schema v) i →
  result σ hid (run_read_all E None None None (ji_ref i) b) = Some (Ok rows) →
  addressed v (ji_ref i) (asked map_fn keep_fn s v i rows).
Proof. intros F. exact filters_addressed. Qed.
Print Assumptions C64_filters.

Definition C64_filtered : view string := VFilter (Udf "keep" (v_schema C64_data) ["r"] None) C64_data ["k"; "v"; "r"].
Example C64_filters_case : ∃ s i rows,
  filter_view C64_data "keep" None = Ok C64_filtered
  ∧ reachable C64_left ∧ schema_at C64_left 0 = Some s ∧ over s C64_filtered ∧ only_filters C64_filtered
  ∧ shaped C64_map s C64_filtered ∧ i = JoinInput (Some ["k"; "r"]) true ∧ own_columns (view_schema C64_filtered) i
  ∧ result C64_left 0 (run_read_all ex_env None None None true None) = Some (Ok rows)
  ∧ ∃ x y, asked C64_map C64_keep s C64_filtered i rows = x :: y ∧ rget "k" x = Some (CVal (SNum 3)) ∧ ∃ p j, rget "r" x = Some (CAddr p j).
Proof.
  do 3 eexists. split; [computed|]. split; [apply reach; calls|]. split; [computed|]. split; [done|]. split; [done|].
  split; [by split|]. split; [done|]. split; [apply own_tested; computed|]. split; [computed|].
  do 2 eexists. split; [computed|]. split; [computed|]. do 2 eexists. computed.
Qed.

(** output_record_fields of map_batches is optional and empty by default.  A view
    that hands addresses on without declaring them can be read by
    address, but a join that asks it for addresses raises: they are taken apart
    and not put together. *)
Theorem C64_refuted_undeclared : ∃ sl sr l r rows_l rows_r ts e,
  map_batches C64_data "same" (C64_fields "r") (Some ["k"; "r"]) None None = Ok C64_undeclared
  ∧ reachable C64_left ∧ reachable C64_right ∧ schema_at C64_left 0 = Some sl ∧ schema_at C64_right 0 = Some sr
  ∧ make_join (view_schema C64_undeclared) (view_schema C64_other) ["k"] None None true false = Ok ("k", l, r)
  ∧ distinct_columns "k" (view_schema C64_undeclared) (view_schema C64_other) l r
  ∧ parts_free (view_schema C64_undeclared) (view_schema C64_other) l r
  ∧ result C64_left 0 (run_read_all ex_env None None None (ji_ref l) None) = Some (Ok rows_l)
  ∧ result C64_right 0 (run_read_all ex_env None None None (ji_ref r) None) = Some (Ok rows_r)
  ∧ result C64_left 0 (run_view_read C64_map C64_keep ex_env true C64_undeclared None None None true None) = Some (Ok ts)
  ∧ Forall (fun x => ∃ p i, rget "r" x = Some (CAddr p i)) (concat ts)
  ∧ length (inner_join "k" (output_fields "k" (view_schema C64_undeclared) (view_schema C64_other) l r)
      (asked C64_map C64_keep sl C64_undeclared l rows_l) (asked C64_map C64_keep sr C64_other r rows_r)) = 2
  ∧ result2 C64_left 0 C64_right 0
      (run_view_join_flat C64_map C64_keep ex_env true Apart false None "k" C64_undeclared C64_other l r) = Some (Err e).
Proof.
  do 8 eexists. split; [computed|]. split; [apply reach; calls|]. split; [apply reach; calls|]. do 3 (split; [computed|]).
  split; [apply distinct_tested; computed|]. split; [apply parts_tested; computed|]. do 3 (split; [computed|]).
  split; [repeat (constructor; [do 2 eexists; computed|]); constructor|]. split; [computed|]. computed.
Qed.
Print Assumptions C64_refuted_undeclared.
