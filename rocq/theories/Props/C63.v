(** C63: what joins may be asked for. *)
From Verif.Model Require Import ViewJoin.
From Verif.Spec Require Import Api Fixture Joins ViewJoins JoinRequests.
From Verif.Proofs Require Import JoinAsk Witness.

(** View.join raises nothing but UserInputError. *)
Theorem C63_error : ∀ sl sr keys lf rf lref rref e,
  make_join sl sr keys lf rf lref rref = Err e → e = EUser UInput.
Proof. exact make_join_error. Qed.
Print Assumptions C63_error.

(** A valid request is accepted.  The result has the key, then the columns asked
    for on the left side, then those on the right side; each side reads its own
    columns, with the reference option given for it. *)
Theorem C63_accepted : ∀ sl sr keys lf rf lref rref,
  valid_request sl sr keys lf rf →
  ∃ key l r, keys = [key] ∧ make_join sl sr keys lf rf lref rref = Ok (key, l, r)
    ∧ ji_ref l = lref ∧ ji_ref r = rref
    ∧ output_fields key sl sr l r = key :: wanted key sl lf ++ wanted key sr rf
    ∧ (∀ n, n ∈ side_fields sl l → n = key ∨ n ∈ s_names sl) ∧ (∀ n, n ∈ side_fields sr r → n = key ∨ n ∈ s_names sr).
Proof. exact request_accepted. Qed.
Print Assumptions C63_accepted.

(** Only valid requests are accepted, if no side reads addresses, no list repeats
    a name, and the right side has the key as a column, as datasets do.  (Missing:
    the other requests; refuted below.) *)
Theorem C63_refused_partial : ∀ sl sr keys lf rf lref rref key l r,
  make_join sl sr keys lf rf lref rref = Ok (key, l, r) → lref = false → rref = false → key ∈ s_names sr →
  (∀ ns, lf = Some ns ∨ rf = Some ns → NoDup ns) →
  valid_request sl sr keys lf rf.
Proof. exact request_valid. Qed.
Print Assumptions C63_refused_partial.

(** Exactly what is accepted, all options and names included. *)
Theorem C63_exact : ∀ sl sr keys lf rf lref rref,
  (∃ x, make_join sl sr keys lf rf lref rref = Ok x) ↔ accepted_request sl sr keys lf rf lref rref.
Proof. exact request_exact. Qed.
Print Assumptions C63_exact.

(** Accepted joins of datasets read only columns their sides have ([own_columns],
    as C35 asks), unless a side reads addresses and the other has record fields. *)
Theorem C63_own_partial : ∀ σl hl sl σr hr sr keys lf rf lref rref key l r,
  reachable σl → reachable σr → schema_at σl hl = Some sl → schema_at σr hr = Some sr →
  make_join sl sr keys lf rf lref rref = Ok (key, l, r) →
  (lref = true → s_recs sr = []) → (rref = true → s_recs sl = []) →
  own_columns sl l ∧ own_columns sr r.
Proof. exact request_own. Qed.
Print Assumptions C63_own_partial.

(** The right side may be a view whose map drops the key: the join is accepted,
    and reading it raises UserInputError (if the left side is in order, see C59;
    [all_keyed]: every manifest file lists a key). *)
Theorem C63_no_key : ∀ (F : Type) (map_fn : F → row → list row) (keep_fn : F → row → bool)
    σl hl sl σr hr sr (vl vr : view F) keys lf rf lref rref key l r E E' blocks src part none_ok flt batch b rows_l,
  reachable σl → reachable σr → schema_at σl hl = Some sl → schema_at σr hr = Some sr →
  make_join (view_schema vl) (view_schema vr) keys lf rf lref rref = Ok (key, l, r) → own_columns (view_schema vl) l →
  result σl hl (run_read_all E' None None None (ji_ref l) b) = Some (Ok rows_l) →
  good_side map_fn keep_fn sl vl (ji_ref l) key rows_l → all_keyed key (layout σl hl) →
  (src = Shared false → result σl hl reload = Some (Ok false)) →
  key ∉ s_names (view_schema vr) →
  result2 σl hl σr hr (run_join_read map_fn keep_fn E blocks src none_ok part key vl vr l r flt None None false batch)
  = Some (Err (EUser UInput)).
Proof. intros F. exact no_key. Qed.
Print Assumptions C63_no_key.

(** A join of views over datasets that list no files returns no rows, whatever
    the views are. *)
Theorem C63_empty : ∀ (F : Type) (map_fn : F → row → list row) (keep_fn : F → row → bool)
    σl hl snl σr hr snr (vl vr : view F) key l r E blocks src part none_ok flt batch,
  reachable σl → reachable σr → current σl hl = Some snl → current σr hr = Some snr →
  layout σl hl = [] → layout σr hr = [] →
  is_Some (field_ids_of (v_schema vl) !! key) → is_Some (field_ids_of (v_schema vr) !! key) →
  (src = Shared false → result σl hl reload = Some (Ok false)) →
  result2 σl hl σr hr (run_join_read map_fn keep_fn E blocks src none_ok part key vl vr l r flt None None false batch)
  = Some (Ok []).
Proof. intros F. exact empty_joined. Qed.
Print Assumptions C63_empty.

Definition C63_right_fields : list afield := [AField "k" TInt64 None true; AField "u" TString None true].
Definition C63_sl : schema := Schema (assign_field_ids ex_fields) ["k"] ["r"].
Definition C63_sr : schema := Schema (assign_field_ids C63_right_fields) ["k"] [].
Definition C63_left : sys := ex_calls [ex_create].
Definition C63_right : sys := ex_calls [CCreate 0 C63_right_fields ["k"] []].
Example C63_case :
  schema_at C63_left 0 = Some C63_sl ∧ schema_at C63_right 0 = Some C63_sr
  ∧ valid_request C63_sl C63_sr ["k"] (Some ["v"; "r"]) None
  ∧ make_join C63_sl C63_sr ["k"] (Some ["v"; "r"]) None false false
    = Ok ("k", JoinInput (Some ["v"; "r"; "k"]) false, JoinInput None false)
  ∧ wanted "k" C63_sl (Some ["v"; "r"]) ++ wanted "k" C63_sr None = ["v"; "r"; "u"]
  ∧ make_join C63_sl C63_sr ["k"; "v"] None None false false = Err (EUser UInput)
  ∧ make_join C63_sl C63_sr ["v"] None None false false = Err (EUser UInput)
  ∧ make_join C63_sl C63_sr ["k"] (Some []) None false false = Err (EUser UInput)
  ∧ make_join C63_sl C63_sr ["k"] None (Some ["k"]) false false = Err (EUser UInput)
  ∧ make_join C63_sl C63_sr ["k"] (Some ["u"]) None false false = Err (EUser UInput).
Proof.
  split; [computed|]. split; [computed|]. split.
  { exists "k". split; [done|]. do 4 (split; [by apply (bool_decide_unpack _)|]).
    split; [exists "v"; split; [by left|done]|]. split; [done|]. split; [|done].
    intros n Hn. right. revert n Hn. apply Forall_forall. by apply (bool_decide_unpack _). }
  do 6 (split; [computed|]). computed.
Qed.
Definition C63_map (f : string) (r : row) : list row := [r].
Definition C63_keep (f : string) (r : row) : bool := true.
Definition C63_data : view string := VData "right" MAIN C63_sr.
Definition C63_full : view string := VData "left" MAIN C63_sl.
(** A map that drops the key. *)
Definition C63_bare : view string := VMap (Udf "m" [AField "u" TString None true] [] None) C63_data ["u"].
Definition C63_one : sys := ex_calls [ex_create; ex_add [ex_row 1 "a" "A"; ex_row 3 "c" "C"]].
Example C63_case_no_key : ∃ l r rows,
  reachable C63_one ∧ reachable C63_right ∧ schema_at C63_one 0 = Some C63_sl ∧ schema_at C63_right 0 = Some C63_sr
  ∧ make_join (view_schema C63_full) (view_schema C63_bare) ["k"] None None false false = Ok ("k", l, r)
  ∧ own_columns (view_schema C63_full) l
  ∧ result C63_one 0 (run_read_all ex_env None None None (ji_ref l) None) = Some (Ok rows)
  ∧ good_side C63_map C63_keep C63_sl C63_full (ji_ref l) "k" rows ∧ all_keyed "k" (layout C63_one 0)
  ∧ "k" ∉ s_names (view_schema C63_bare).
Proof.
  do 3 eexists. split; [apply reach; calls|]. split; [apply reach; calls|]. do 3 (split; [computed|]).
  split; [apply own_tested; computed|]. split; [computed|]. split.
  { constructor; [done|done|done| |done|apply plain_tested; computed|].
    - intros r x _ Hx. apply elem_of_list_singleton in Hx as ->. done.
    - apply Forall_forall. apply (bool_decide_unpack _). by vm_compute. }
  split; [|by apply (bool_decide_unpack _)].
  intros man Hman. vm_compute in Hman. apply elem_of_list_singleton in Hman as ->.
  eexists. eexists. exists (SNum 1). split; [by left|]. split; [by left|]. done.
Qed.
(** The case meets the hypotheses of [C63_own_partial]: the left side, which has a
    record field, reads addresses; the right one has none. *)
Example C63_case_own : ∃ l r, reachable C63_left ∧ reachable C63_right
  ∧ schema_at C63_left 0 = Some C63_sl ∧ schema_at C63_right 0 = Some C63_sr
  ∧ make_join C63_sl C63_sr ["k"] (Some ["r"]) None true false = Ok ("k", l, r)
  ∧ s_recs C63_sr = [] ∧ side_fields C63_sl l = ["r"; "k"].
Proof. do 2 eexists. split; [apply reach; calls|]. split; [apply reach; calls|]. do 4 (split; [computed|]). computed. Qed.
Example C63_case_empty : ∃ snl snr,
  reachable C63_left ∧ reachable C63_right ∧ current C63_left 0 = Some snl ∧ current C63_right 0 = Some snr
  ∧ layout C63_left 0 = [] ∧ layout C63_right 0 = []
  ∧ is_Some (field_ids_of (v_schema C63_data) !! "k").
Proof.
  do 2 eexists. split; [apply reach; calls|]. split; [apply reach; calls|]. do 4 (split; [computed|]).
  eexists. computed.
Qed.

(** The left side reads addresses: a record field of the right side is accepted
    as a column of the left one, which has none of this name; reading the join
    raises then. *)
Definition C63_rows_left : sys :=
  ex_calls [CCreate 0 C63_right_fields ["k"] []; ex_add [[("k", CVal (SNum 1)); ("u", CVal (SStr "x"))]]].
Definition C63_rows_right : sys := ex_calls [ex_create; ex_add [ex_row 1 "a" "A"]].
Theorem C63_refuted_column : ∃ sl sr l r e,
  reachable C63_rows_left ∧ reachable C63_rows_right
  ∧ schema_at C63_rows_left 0 = Some sl ∧ schema_at C63_rows_right 0 = Some sr
  ∧ make_join sl sr ["k"] (Some ["r"]) None true false = Ok ("k", l, r)
  ∧ "r" ∉ s_names sl
  ∧ result2 C63_rows_left 0 C63_rows_right 0 (run_join true ex_env true None "k" l r) = Some (Err e).
Proof.
  do 5 eexists. split; [apply reach; calls|]. split; [apply reach; calls|]. do 3 (split; [computed|]).
  split; [by apply (bool_decide_unpack _)|]. computed.
Qed.
Print Assumptions C63_refuted_column.

(** A list of the key, twice, is accepted: no column besides the key is read. *)
Theorem C63_refuted_repeated : ∃ l r,
  make_join C63_sl C63_sr ["k"] (Some ["k"; "k"]) None false false = Ok ("k", l, r)
  ∧ ¬ names_more "k" (Some ["k"; "k"]) ∧ wanted "k" C63_sl (Some ["k"; "k"]) = [].
Proof.
  do 2 eexists. split; [computed|]. split; [|computed]. intros (n&Hn&Hne).
  repeat (apply elem_of_cons in Hn as [->|Hn]; [done|]). by apply elem_of_nil in Hn.
Qed.
Print Assumptions C63_refuted_repeated.
