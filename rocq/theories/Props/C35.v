(** C35: join pruning and partitioning lose nothing. *)
From Verif.Model Require Import RayOps Join.
From Verif.Spec Require Import Api Fixture Pruning Layout Joins Joinable.
From Verif.Proofs Require Import JoinCalls JoinAccept JoinAsk Witness.

(** A join of two datasets that returns, returns the rows of the inner join of
    what both sides read without any restriction; whatever the statistics, the
    files and the ranges are.  Missing from the full claim: the key column comes
    after plain columns only and has no NaN, views as sides (C59), and joins
    that raise (below).  [own_columns] fails for odd requests only (C63). *)
Theorem C35_partial : ∀ σl hl sl σr hr sr keys lf rf lref rref key l r E E' blocks part none_ok b b' L R out,
  reachable σl → reachable σr → schema_at σl hl = Some sl → schema_at σr hr = Some sr →
  make_join sl sr keys lf rf lref rref = Ok (key, l, r) →
  own_columns sl l → own_columns sr r →
  plain_before sl key → plain_before sr key →
  result σl hl (run_read_all E' None (ji_fields l) None (ji_ref l) b) = Some (Ok L) →
  result σr hr (run_read_all E' None (ji_fields r) None (ji_ref r) b') = Some (Ok R) →
  (∀ x, x ∈ L ∨ x ∈ R → row_look x key ≠ Some SNaN) →
  separates part (common key L R) →
  result2 σl hl σr hr (run_join none_ok E blocks part key l r) = Some (Ok out) →
  out ≡ₚ inner_join key (output_fields key sl sr l r) L R.
Proof. exact join_exact. Qed.
Print Assumptions C35_partial.

(** It returns if Arrow accepts the columns, every manifest file lists a key,
    and every range has a key of both sides (the last is not needed if Ray takes
    None as an empty table). *)
Theorem C35_returns_partial : ∀ σl hl sl σr hr sr keys lf rf lref rref key l r E E' blocks part none_ok b b' L R,
  reachable σl → reachable σr → schema_at σl hl = Some sl → schema_at σr hr = Some sr →
  make_join sl sr keys lf rf lref rref = Ok (key, l, r) →
  own_columns sl l → own_columns sr r →
  plain_before sl key → plain_before sr key →
  result σl hl (run_read_all E' None (ji_fields l) None (ji_ref l) b) = Some (Ok L) →
  result σr hr (run_read_all E' None (ji_fields r) None (ji_ref r) b') = Some (Ok R) →
  (∀ x, x ∈ L ∨ x ∈ R → row_look x key ≠ Some SNaN) →
  joinable key sl sr l r →
  all_keyed key (layout σl hl) → all_keyed key (layout σr hr) →
  none_ok = true ∨ meets part (common key L R) →
  ∃ out, result2 σl hl σr hr (run_join none_ok E blocks part key l r) = Some (Ok out).
Proof. exact join_returns. Qed.
Print Assumptions C35_returns_partial.

(** Only such a join returns any row: keys of different types, nested columns
    and names found on both sides make Arrow raise. *)
Theorem C35_accepted : ∀ σl hl sl σr hr sr keys lf rf lref rref key l r E E' blocks part none_ok b b' L R out,
  reachable σl → reachable σr → schema_at σl hl = Some sl → schema_at σr hr = Some sr →
  make_join sl sr keys lf rf lref rref = Ok (key, l, r) →
  own_columns sl l → own_columns sr r →
  plain_before sl key → plain_before sr key →
  result σl hl (run_read_all E' None (ji_fields l) None (ji_ref l) b) = Some (Ok L) →
  result σr hr (run_read_all E' None (ji_fields r) None (ji_ref r) b') = Some (Ok R) →
  (∀ x, x ∈ L ∨ x ∈ R → row_look x key ≠ Some SNaN) →
  result2 σl hl σr hr (run_join none_ok E blocks part key l r) = Some (Ok out) → out ≠ [] →
  joinable key sl sr l r.
Proof. exact join_needs. Qed.
Print Assumptions C35_accepted.

(** Keys 1 to 5 in two files joined with keys 2, 3, 3 and 9, in two ranges split at 3. *)
Definition C35_right_row (k : Z) (u : string) : row := [("k", CVal (SNum k)); ("u", CVal (SStr u))].
Definition C35_right (rows : list row) : sys :=
  ex_calls [CCreate 0 [AField "k" TInt64 None true; AField "u" TString None true] ["k"] []; ex_add rows].
Definition C35_rows : list row := [C35_right_row 2 "x"; C35_right_row 3 "y"; C35_right_row 3 "z"; C35_right_row 9 "w"].
Definition C35_split (g : range) : list range := [Range (rg_min g) (SNum 3) false; Range (SNum 3) (rg_max g) true].
Lemma C35_split_separates : separates (Some C35_split) [SNum 2; SNum 3].
Proof.
  intros g Hg v Hv. pose proof (Hg v Hv) as [H1 H2]. unfold C35_split. rewrite !filter_cons, filter_nil.
  assert (v = SNum 2 ∨ v = SNum 3) as [-> | ->] by set_solver.
  - rewrite decide_True by by split. by rewrite decide_False by by intros [? _].
  - rewrite decide_False by by intros [_ ?]. rewrite decide_True; [done|]. split; [done|].
    unfold cmp_holds in *. cbn [rg_min rg_max rg_incl is_nan orb] in *. destruct (is_nan (rg_max g)); [by destruct (rg_incl g)|].
    destruct (rg_incl g); by destruct (scmp (SNum 3) (rg_max g)).
Qed.
Lemma C35_split_meets : meets (Some C35_split) [SNum 2; SNum 3].
Proof.
  intros g Hg g' Hg'. destruct (Hg (SNum 2)) as [H1 _]; [by left|]. destruct (Hg (SNum 3)) as [_ H2]; [right; by left|].
  unfold C35_split in Hg'. apply elem_of_cons in Hg' as [->|Hg'].
  - exists (SNum 2). split; [by left|]. by split.
  - apply elem_of_list_singleton in Hg' as ->. exists (SNum 3). split; [right; by left|]. split; [done|].
    unfold cmp_holds in *. cbn [rg_min rg_max rg_incl is_nan orb] in *. destruct (is_nan (rg_max g)); [by destruct (rg_incl g)|].
    destruct (rg_incl g); by destruct (scmp (SNum 3) (rg_max g)).
Qed.
Example C35_case : ∃ σl σr sl sr l r L R out,
  reachable σl ∧ reachable σr ∧ schema_at σl 0 = Some sl ∧ schema_at σr 0 = Some sr
  ∧ make_join sl sr ["k"] (Some ["v"; "r"]) None true false = Ok ("k", l, r)
  ∧ own_columns sl l ∧ own_columns sr r ∧ plain_before sl "k" ∧ plain_before sr "k"
  ∧ result σl 0 (run_read_all ex_env None (ji_fields l) None (ji_ref l) None) = Some (Ok L)
  ∧ result σr 0 (run_read_all ex_env None (ji_fields r) None (ji_ref r) None) = Some (Ok R)
  ∧ (∀ x, x ∈ L ∨ x ∈ R → row_look x "k" ≠ Some SNaN)
  ∧ common "k" L R = [SNum 2; SNum 3]
  ∧ joinable "k" sl sr l r
  ∧ all_keyed "k" (layout σl 0) ∧ all_keyed "k" (layout σr 0)
  ∧ result2 σl 0 σr 0 (run_join false ex_env true (Some C35_split) "k" l r) = Some (Ok out)
  ∧ output_fields "k" sl sr l r = ["k"; "v"; "r"; "u"]
  ∧ (fun x => row_look x "u") <$> out = [Some (SStr "x"); Some (SStr "y"); Some (SStr "z")].
Proof.
  exists (ex_calls [ex_create; ex_two_files]), (C35_right C35_rows). do 7 eexists.
  assert (Htest : ∀ key lay, forallb (fun man => existsb (fun t => existsb (fun r => match row_look r key with Some v => negb (is_nan v) | None => false end) t) man) lay = true →
    all_keyed key lay).
  { clear. intros key lay H man Hman. rewrite forallb_forall in H. apply elem_of_list_In in Hman. apply H in Hman.
    apply existsb_exists in Hman as (t&Ht&(r&Hr&Hv)%existsb_exists). exists t, r. destruct (row_look r key) as [v|]; [|done]. exists v.
    split_and!; [by apply elem_of_list_In..|done|]. intros ->. done. }
  split; [apply reach; calls|]. split; [apply reach; calls|]. split; [computed|]. split; [computed|]. split; [computed|].
  split; [apply own_tested; computed|]. split; [apply own_tested; computed|].
  split; [apply plain_tested; computed|]. split; [apply plain_tested; computed|]. split; [computed|]. split; [computed|].
  split.
  { intros x [Hx|Hx]; revert x Hx; apply Forall_forall; apply (bool_decide_unpack _); by vm_compute. }
  split; [computed|]. split; [eapply (joinable_tested (ex_calls [ex_create; ex_two_files]) 0 _ (C35_right C35_rows) 0 _); [apply reach; calls|apply reach; calls|computed|computed|computed|computed]|]. split; [apply Htest; computed|]. split; [apply Htest; computed|].
  split; [computed|]. split; [computed|]. computed.
Qed.

(** A join that finds no keys to share raises: _join returns None for an empty
    side, and ray.data.from_arrow_refs of Ray 2.9.1 does not take None. *)
Theorem C35_empty_refuted : ∃ σl σr sl sr l r L R e,
  reachable σl ∧ reachable σr ∧ schema_at σl 0 = Some sl ∧ schema_at σr 0 = Some sr
  ∧ make_join sl sr ["k"] None None true false = Ok ("k", l, r)
  ∧ result σl 0 (run_read_all ex_env None (ji_fields l) None (ji_ref l) None) = Some (Ok L)
  ∧ result σr 0 (run_read_all ex_env None (ji_fields r) None (ji_ref r) None) = Some (Ok R)
  ∧ common "k" L R = [] ∧ length L = 5 ∧ length R = 1 ∧ joinable "k" sl sr l r
  ∧ result2 σl 0 σr 0 (run_join false ex_env true None "k" l r) = Some (Err e).
Proof.
  exists (ex_calls [ex_create; ex_two_files]), (C35_right [C35_right_row 9 "w"]). do 7 eexists.
  split; [apply reach; calls|]. split; [apply reach; calls|]. do 8 (split; [computed|]). split; [eapply (joinable_tested (ex_calls [ex_create; ex_two_files]) 0 _ (C35_right [C35_right_row 9 "w"]) 0 _); [apply reach; calls|apply reach; calls|computed|computed|computed|computed]|]. computed.
Qed.
Print Assumptions C35_empty_refuted.

(** So does a join with a side that once got a batch of rows without keys: the
    statistics of that manifest are null, and Python cannot compare None. *)
Theorem C35_null_refuted : ∃ σl σr sl sr l r L R e,
  reachable σl ∧ reachable σr ∧ schema_at σl 0 = Some sl ∧ schema_at σr 0 = Some sr
  ∧ make_join sl sr ["k"] None None true false = Ok ("k", l, r)
  ∧ result σl 0 (run_read_all ex_env None (ji_fields l) None (ji_ref l) None) = Some (Ok L)
  ∧ result σr 0 (run_read_all ex_env None (ji_fields r) None (ji_ref r) None) = Some (Ok R)
  ∧ length (inner_join "k" (output_fields "k" sl sr l r) L R) = 3 ∧ joinable "k" sl sr l r
  ∧ result2 σl 0 σr 0 (run_join true ex_env true None "k" l r) = Some (Err e).
Proof.
  exists (ex_calls [ex_create; ex_two_files; ex_add [[("k", CNull); ("v", CVal (SStr "n")); ("r", CVal (SStr "N"))]]]), (C35_right C35_rows). do 7 eexists.
  split; [apply reach; calls|]. split; [apply reach; calls|]. do 6 (split; [computed|]). split; [eapply (joinable_tested (ex_calls [ex_create; ex_two_files; ex_add [[("k", CNull); ("v", CVal (SStr "n")); ("r", CVal (SStr "N"))]]]) 0 _ (C35_right C35_rows) 0 _); [apply reach; calls|apply reach; calls|computed|computed|computed|computed]|]. computed.
Qed.
Print Assumptions C35_null_refuted.
