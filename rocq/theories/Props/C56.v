(** C56: a filter on primary keys reads only files that may match. *)
From Verif.Spec Require Import Api Fixture Layout Pruning RuledOut.
From Verif.Proofs Require Import RuledOut Witness.

(** The files a filter leaves of the current version are those whose recorded key
    ranges do not rule it out, in order.  The filter combines comparisons of
    fields and literals by "and" and "or"; [ruled_out]: a comparison of keys and
    literals is ruled out if no values within the ranges satisfy it.  (Missing:
    negation and "key != key", where files with matching rows are left out, see
    C04; NaN literals; files without a range for some key, whose keys are all null
    or NaN; [buildable].) *)
Theorem C56_files_left_partial : ∀ σ hid s sn e,
  reachable σ → schema_at σ hid = Some s → current σ hid = Some sn → buildable s e → simple e = true →
  (∀ q r, q ∈ sn_idx sn → r ∈ manifest_rows (w_fs (y_world σ)) q → ranged (s_pks s) (key_range s r)) →
  ∃ fset rs, result σ hid (candidates e) = Some (Ok fset)
    ∧ df_path <$> fset_files fset = mr_path <$> rs
    ∧ sublist rs (sn_idx sn ≫= manifest_rows (w_fs (y_world σ)))
    ∧ ∀ q r, q ∈ sn_idx sn → r ∈ manifest_rows (w_fs (y_world σ)) q →
        r ∈ rs ↔ ¬ ruled_out (s_pks s) (key_range s r) e.
Proof. exact candidates_exact. Qed.
Print Assumptions C56_files_left_partial.

(** Two files, with keys 1 to 3 and 4 to 5; [4 > k and v = "d"] leaves the first
    only: the second is ruled out, although it has a row with "d". *)
Definition C56_state : sys := ex_calls [ex_create; ex_add [ex_row 1 "a" "A"; ex_row 3 "c" "C"]; ex_add [ex_row 4 "d" "D"; ex_row 5 "e" "E"]].
Definition C56_filter : filter_expr := EBin FnAnd (EBin (FnCmp OpGt) (ELit (Some (SNum 4))) (EField "k")) (ex_cmp OpEq "v" (SStr "d")).
Example C56_case : ∃ s sn fset p q,
  reachable C56_state ∧ schema_at C56_state 0 = Some s ∧ current C56_state 0 = Some sn ∧ buildable s C56_filter ∧ simple C56_filter = true
  ∧ (∀ q r, q ∈ sn_idx sn → r ∈ manifest_rows (w_fs (y_world C56_state)) q → ranged (s_pks s) (key_range s r))
  ∧ result C56_state 0 (candidates C56_filter) = Some (Ok fset) ∧ df_path <$> fset_files fset = [p]
  ∧ (mr_path <$> (sn_idx sn ≫= manifest_rows (w_fs (y_world C56_state)))) = [p; q].
Proof.
  do 5 eexists. split; [apply reach; calls|]. split; [computed|]. split; [computed|]. split; [can_build|]. split; [computed|].
  split; [apply ranged_tested; computed|]. split; [computed|]. split; computed.
Qed.
(** And the comparison is ruled out for the second file by its range. *)
Example C56_range : ruled_out ["k"] (fun _ => Some (SNum 4, SNum 5)) C56_filter
  ∧ ¬ ruled_out ["k"] (fun _ => Some (SNum 1, SNum 3)) C56_filter.
Proof.
  split.
  - left. split; [done|]. split; [by left|]. intros x y [= <-] (lo&hi&[= <- <-]&Hn&Hlo&_).
    unfold at_most in Hlo. destruct y as [z|b|t|]; try done.
    cbn [scmp] in Hlo. unfold cmp_holds. cbn [is_nan orb scmp]. by destruct (Z.compare 4 z).
  - cbn. intros [(_&_&H)|(H&_)].
    + specialize (H (SNum 4) (SNum 1) eq_refl). assert (cmp_holds OpGt (SNum 4) (SNum 1) = false); [|done].
      apply H. exists (SNum 1), (SNum 3). done.
    + by apply elem_of_list_singleton in H.
Qed.
