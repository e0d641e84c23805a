(** Logical plans of views: what is stored rebuilds the view. *)
From Verif.Model Require Import System.
From Verif.Spec Require Import Places Catalogs Views SchemaSpec Durable.
From Verif.Proofs Require Import Lib World Resolve SchemaFacts SchemaLaws Wf Inv SysInv Observe Durable PathFacts Catalogs.

From Verif.Spec Require Import Places.

Section plans.
Context {F : Type}.
Implicit Types (v i : view F) (u : udf F) (b : builder F).

(** Dictionaries built from lists. *)
Lemma fn_dict_snoc l ur a n : fn_dict (l ++ [(ur, a, n)]) = <[a := (ur, n)]> (fn_dict l).
Proof. unfold fn_dict. by rewrite foldl_app. Qed.
Lemma uri_dict_snoc l a x : uri_dict (l ++ [(a, x)]) = <[a := x]> (uri_dict l).
Proof. unfold uri_dict. by rewrite foldl_app. Qed.
Lemma field_ids_in fs n k : field_ids_of fs !! n = Some k → ∃ f, f ∈ fs ∧ f_name f = n ∧ field_id f = k.
Proof.
  unfold field_ids_of. induction fs as [|f fs IH] using rev_ind; [done|]. rewrite foldl_app. cbn.
  rewrite lookup_insert_Some. intros [[<- <-]|[_ H]].
  - exists f. split; [|done]. rewrite elem_of_app. right. by left.
  - destruct (IH H) as (g&Hg&?). exists g. split; [|done]. rewrite elem_of_app. by left.
Qed.
Lemma field_ids_total fs n : n ∈ names_of fs → is_Some (field_ids_of fs !! n).
Proof.
  unfold field_ids_of, names_of. induction fs as [|f fs IH] using rev_ind; [by intros ?%elem_of_nil|].
  rewrite fmap_app, elem_of_app, foldl_app. cbn. intros H.
  destruct (decide (f_name f = n)) as [->|Hne]; [rewrite lookup_insert; eauto|].
  rewrite lookup_insert_ne by done. apply IH. destruct H as [H|H]; [done|]. apply elem_of_list_singleton in H. by subst.
Qed.
Lemma names_by_id_in fs f : NoDup (field_id <$> fs) → f ∈ fs → names_by_id fs !! field_id f = Some (f_name f).
Proof.
  unfold names_by_id. induction fs as [|g fs IH] using rev_ind; [by intros _ ?%elem_of_nil|].
  rewrite fmap_app, NoDup_app, foldl_app. cbn. intros (Hnd&Hni&_). rewrite elem_of_app. intros [Hf|Hf].
  - rewrite lookup_insert_ne; [by apply IH|]. intros He. apply (Hni (field_id f)).
    + by apply elem_of_list_fmap_1.
    + rewrite <-He. by left.
  - apply elem_of_list_singleton in Hf as ->. by rewrite lookup_insert.
Qed.
Lemma arguments_back i fields args :
  NoDup (field_id <$> v_schema i) → arguments i fields = Ok args → load_fields i args = Ok fields.
Proof.
  intros Hnd. unfold arguments, load_fields. destruct fields as [|n0 fields0]; [done|].
  generalize (n0 :: fields0). clear -Hnd. intros fields H. apply rmapM_ok. apply rmapM_ok in H.
  induction H as [|n k fields args Hn _ IH]; constructor; [|done].
  apply of_opt_ok in Hn. apply of_opt_ok. apply field_ids_in in Hn as (f&Hf&<-&<-). by apply names_by_id_in.
Qed.
Lemma arguments_total i fields :
  fields ≠ [] → (∀ n, n ∈ fields → n ∈ names_of (v_schema i)) → ∃ args, arguments i fields = Ok args.
Proof.
  intros Hne H. unfold arguments. destruct fields as [|n0 fields0]; [done|].
  revert H. generalize (n0 :: fields0). clear. intros fields H. induction fields as [|n l IH]; [by exists []|].
  destruct IH as [args Ha]; [intros m Hm; apply H; by right|].
  destruct (field_ids_total (v_schema i) n) as [k Hk]; [apply H; by left|].
  exists (k :: args). cbn. rewrite Hk. cbn. by rewrite Ha.
Qed.

(** Builders. *)
Record bgood b : Prop := {
  bg_fn : ∀ a x, fn_dict (b_exts b) !! a = Some x → (a < b_fn_anchor b)%Z;
  bg_uri : ∀ a x, uri_dict (b_uris b) !! a = Some x → (a < b_uri_anchor b)%Z }.
Record bext b b' : Prop := {
  be_fn : fn_dict (b_exts b) ⊆ fn_dict (b_exts b');
  be_uri : uri_dict (b_uris b) ⊆ uri_dict (b_uris b');
  be_udf : b_udfs b ⊆ b_udfs b' }.
Lemma bext_trans b1 b2 b3 : bext b1 b2 → bext b2 b3 → bext b1 b3.
Proof. intros [] []. split; by etrans. Qed.
Definition holds b (a : Z) u : Prop :=
  ∃ ur name, fn_dict (b_exts b) !! a = Some (ur, name) ∧ uri_dict (b_uris b) !! ur = Some SIMPLE_UDF_URI ∧ b_udfs b !! name = Some u.
Fixpoint represents b v (r : rel) : Prop :=
  match v, r with
  | VData l _ _, RRead [l'] => l = l'
  | VMap u i fields, RProject ri a args => represents b i ri ∧ holds b a u ∧ arguments i fields = Ok args
  | VFilter u i fields, RFilter ri a args => represents b i ri ∧ holds b a u ∧ arguments i fields = Ok args
  | _, _ => False
  end.
Lemma holds_ext b b' a u : bext b b' → holds b a u → holds b' a u.
Proof. intros [] (ur&name&?&?&?). exists ur, name. split_and!; by eapply lookup_weaken. Qed.
Lemma represents_ext b b' v r : bext b b' → represents b v r → represents b' v r.
Proof.
  intros He. revert r. induction v as [| u i IH fields|u i IH fields]; intros r; destruct r; cbn; try done.
  - intros (?&?&?). split_and!; [by apply IH|by eapply holds_ext|done].
  - intros (?&?&?). split_and!; [by apply IH|by eapply holds_ext|done].
Qed.

Lemma draw_fresh rand tries (used : gmap string (udf F)) k name k' :
  draw_name rand tries used k = Ok (name, k') → used !! name = None ∧ ∃ j, name = udf_name rand j.
Proof.
  revert k. induction tries as [|t IH]; intros k; [done|]. cbn. case_decide as Hd; [by apply IH|].
  intros [= <- <-]. split; [|by eexists]. destruct (used !! udf_name rand k) eqn:E; [|done]. destruct Hd. eauto.
Qed.
Lemma add_udf_spec rand b u a b' :
  bgood b → add_udf rand b u = Ok (a, b') → bgood b' ∧ bext b b' ∧ holds b' a u
    ∧ ∃ j, b_udfs b' = <[udf_name rand j := u]> (b_udfs b) ∧ b_udfs b !! udf_name rand j = None.
Proof.
  intros [Hf Hu] H. unfold add_udf in H. apply rbind_ok in H as ([name d]&Hd&[= <- <-]).
  apply draw_fresh in Hd as [Hfresh [j ->]].
  assert (fn_dict (b_exts b) !! b_fn_anchor b = None) as Hf'.
  { destruct (fn_dict (b_exts b) !! b_fn_anchor b) eqn:E; [|done]. apply Hf in E. lia. }
  assert (uri_dict (b_uris b) !! b_uri_anchor b = None) as Hu'.
  { destruct (uri_dict (b_uris b) !! b_uri_anchor b) eqn:E; [|done]. apply Hu in E. lia. }
  split; [|split; [|split]].
  - split; cbn; intros a x; rewrite ?fn_dict_snoc, ?uri_dict_snoc, lookup_insert_Some.
    + intros [[<- _]|[_ ?%Hf]]; lia.
    + intros [[<- _]|[_ ?%Hu]]; lia.
  - split; cbn; rewrite ?fn_dict_snoc, ?uri_dict_snoc; by apply insert_subseteq.
  - exists (b_uri_anchor b), (udf_name rand j). cbn. rewrite fn_dict_snoc, uri_dict_snoc, !lookup_insert. done.
  - by exists j.
Qed.
Definition named_udfs (rand : nat → string) b : Prop := ∀ name u, b_udfs b !! name = Some u → ∃ j, name = udf_name rand j.
Lemma to_relation_spec rand v b r b' :
  bgood b → named_udfs rand b → to_relation rand v b = Ok (r, b') →
  bgood b' ∧ named_udfs rand b' ∧ bext b b' ∧ represents b' v r.
Proof.
  revert b r b'.
  assert (∀ (i : view F) u fields b r b', (∀ b r b', bgood b → named_udfs rand b → to_relation rand i b = Ok (r, b') →
      bgood b' ∧ named_udfs rand b' ∧ bext b b' ∧ represents b' i r) →
    bgood b → named_udfs rand b → ∀ mk : rel → Z → list Z → rel,
    (let? (r, b1) := to_relation rand i b in let? (a, b2) := add_udf rand b1 u in
     let? args := arguments i fields in Ok (mk r a args, b2)) = Ok (r, b') →
    bgood b' ∧ named_udfs rand b' ∧ bext b b' ∧ ∃ ri a args, r = mk ri a args ∧ represents b' i ri ∧ holds b' a u ∧ arguments i fields = Ok args) as Hstep.
  { intros i u fields b r b' IH Hg Hn mk H. apply rbind_ok in H as ([ri b1]&Hi&H). apply rbind_ok in H as ([a b2]&Ha&H).
    apply rbind_ok in H as (args&Hargs&[= <- <-]). destruct (IH _ _ _ Hg Hn Hi) as (Hg1&Hn1&He1&Hr1).
    destruct (add_udf_spec _ _ _ _ _ Hg1 Ha) as (Hg2&He2&Hh&j&Hj&_). split; [done|]. split.
    - intros name u'. rewrite Hj, lookup_insert_Some. intros [[<- _]|[_ ?%Hn1]]; [by exists j|done].
    - split; [by eapply bext_trans|]. exists ri, a, args. split_and!; [done| |done|done]. by eapply represents_ext. }
  induction v as [l br s|u i IH fields|u i IH fields]; intros b r b' Hg Hn H; cbn [to_relation] in H.
  - injection H as <- <-. split; [done|]. split; [done|]. split; [|done]. by split.
  - destruct (Hstep i u fields b r b' IH Hg Hn RProject H) as (?&?&?&ri&a&args&->&?). done.
  - destruct (Hstep i u fields b r b' IH Hg Hn RFilter H) as (?&?&?&ri&a&args&->&?). done.
Qed.
Lemma builder0_good : bgood builder0.
Proof. by split. Qed.
Lemma builder0_named rand : named_udfs rand builder0.
Proof. intros n u H. cbn in H. by rewrite lookup_empty in H. Qed.

(** Views made through the API. *)
Fixpoint view_ok v : Prop :=
  NoDup (field_id <$> v_schema v)
  ∧ match v with
    | VData _ _ _ => True
    | VMap _ i fields | VFilter _ i fields => view_ok i ∧ fields ≠ [] ∧ ∀ n, n ∈ fields → n ∈ names_of (v_schema i)
    end.
Lemma view_ok_ids v : view_ok v → NoDup (field_id <$> v_schema v).
Proof. destruct v; cbn; by intros []. Qed.
Lemma assigned_ids fs : NoDup (field_id <$> assign_field_ids fs).
Proof.
  destruct (assigned_top_ids fs) as (l&Hl&Hnd&_).
  assert (field_id <$> assign_field_ids fs = l) as ->; [|done].
  transitivity ((default NULL_FIELD_ID) <$> (f_meta <$> assign_field_ids fs)); [by rewrite <-list_fmap_compose|].
  rewrite Hl, <-list_fmap_compose. cbn. by rewrite list_fmap_id.
Qed.
Lemma input_fields_ok v o l :
  v_pks v ≠ [] → (∀ k, k ∈ v_pks v → k ∈ names_of (v_schema v)) → input_fields_of v o = Ok l →
  l ≠ [] ∧ ∀ n, n ∈ l → n ∈ names_of (v_schema v).
Proof.
  intros Hne Hk. destruct (v_pks v) as [|k0 ks] eqn:Ek; [done|]. unfold input_fields_of. destruct o as [l0|]; rewrite ?Ek.
  - destruct (forallb _ (k0 :: ks)) eqn:H1; [|done]. destruct (forallb _ l0) eqn:H2; [|done]. intros [= <-]. split.
    + intros ->. rewrite forallb_forall in H1. specialize (H1 k0 (or_introl eq_refl)). apply bool_decide_eq_true in H1. by apply elem_of_nil in H1.
    + intros n Hn. rewrite forallb_forall in H2. apply elem_of_list_In in Hn. by apply H2, bool_decide_eq_true in Hn.
  - intros [= <-]. split; [|done]. intros He. specialize (Hk k0 (elem_of_list_here _ _)). rewrite He in Hk. by apply elem_of_nil in Hk.
Qed.
Lemma validate_pks fs pks recs : validate_logical_schema fs pks recs = Ok tt → ∀ k, k ∈ pks → k ∈ names_of fs.
Proof.
  unfold validate_logical_schema. destruct pks as [|k0 ks]; [done|]. intros H. apply rbind_ok in H as ([]&H&_). revert H.
  generalize (k0 :: ks). intros l. induction l as [|x l IH]; intros H k Hk; [by apply elem_of_nil in Hk|].
  cbn in H. apply rbind_ok in H as ([]&Hx&H). apply elem_of_cons in Hk as [->|Hk]; [|by apply IH].
  unfold check_pk in Hx. by case_decide.
Qed.
Lemma built_ok cwd tr v : allowed cwd tr → built cwd (disk_run cwd tr) v →
  view_ok v ∧ v_pks v ≠ [] ∧ ∀ k, k ∈ v_pks v → k ∈ names_of (v_schema v).
Proof.
  intros Hal. induction 1 as [loc hid h Hh|v fn out fields recs batch v' Hv (Hok&Hne&Hk) Hm|v fn fields v' Hv (Hok&Hne&Hk) Hm].
  - destruct (reachable_handle _ _ _ (allowed_reachable _ _ _ Hal) Hh) as (s&Hs&Hwf).
    pose proof (wi_schema _ _ (si_world _ _ Hs)) as Hsc. cbn. rewrite (wm_schema _ _ _ (proj1 Hwf)).
    split; [split; [apply Hsc|done]|]. split; apply Hsc.
  - unfold map_batches in Hm. apply rbind_ok in Hm as (l&Hl&Hm). apply rbind_ok in Hm as ([]&Hval&[= <-]). cbn.
    destruct (input_fields_ok _ _ _ Hne Hk Hl). split; [split; [apply assigned_ids|done]|]. split; [done|]. by eapply validate_pks.
  - unfold filter_view in Hm. apply rbind_ok in Hm as (l&Hl&[= <-]). cbn.
    destruct (input_fields_ok _ _ _ Hne Hk Hl). split; [split; [by apply view_ok_ids|done]|]. done.
Qed.

(** Totality when the random IDs drawn differ. *)
Definition used_upto (rand : nat → string) b : Prop := ∀ name, is_Some (b_udfs b !! name) → ∃ j, j < b_draws b ∧ name = udf_name rand j.
Lemma udf_name_inj rand j k : udf_name rand j = udf_name rand k → rand j = rand k.
Proof. unfold udf_name. cbn. by intros [= H]. Qed.
Lemma to_relation_total rand v : ∀ b,
  view_ok v → NoDup (rand <$> seq 0 (b_draws b + transforms v)) → used_upto rand b →
  ∃ r b', to_relation rand v b = Ok (r, b') ∧ used_upto rand b' ∧ b_draws b' = b_draws b + transforms v.
Proof.
  assert (∀ (i : view F) u fields b, view_ok i → fields ≠ [] → (∀ n, n ∈ fields → n ∈ names_of (v_schema i)) →
    (∀ b, view_ok i → NoDup (rand <$> seq 0 (b_draws b + transforms i)) → used_upto rand b →
      ∃ r b', to_relation rand i b = Ok (r, b') ∧ used_upto rand b' ∧ b_draws b' = b_draws b + transforms i) →
    NoDup (rand <$> seq 0 (b_draws b + S (transforms i))) → used_upto rand b → ∀ mk : rel → Z → list Z → rel,
    ∃ r b', (let? (r, b1) := to_relation rand i b in let? (a, b2) := add_udf rand b1 u in
     let? args := arguments i fields in Ok (mk r a args, b2)) = Ok (r, b') ∧ used_upto rand b' ∧ b_draws b' = b_draws b + S (transforms i)) as Hstep.
  { intros i u fields b Hok Hne Hin IH Hnd Hu mk.
    destruct (IH b Hok) as (r&b1&Hr&Hu1&Hd1); [|done|].
    { rewrite Nat.add_succ_r, seq_S, fmap_app in Hnd. by apply NoDup_app in Hnd as [? _]. }
    destruct (arguments_total i fields Hne Hin) as [args Ha].
    assert (b_udfs b1 !! udf_name rand (b_draws b1) = None) as Hfree.
    { destruct (b_udfs b1 !! udf_name rand (b_draws b1)) eqn:E; [|done].
      destruct (Hu1 _ (mk_is_Some _ _ E)) as (j&Hj&Hjn%udf_name_inj). exfalso.
      apply (NoDup_fmap_1 _ _) in Hnd as Hnd'. clear Hnd'.
      rewrite NoDup_alt in Hnd. specialize (Hnd (b_draws b1) j (rand (b_draws b1))).
      rewrite !list_lookup_fmap, !lookup_seq_lt in Hnd by lia. cbn in Hnd. rewrite Hjn in Hnd. specialize (Hnd eq_refl eq_refl). lia. }
    eexists _, _. rewrite Hr. cbn [rbind]. unfold add_udf. cbn [draw_name].
    rewrite decide_False by (rewrite Hfree; by intros [? ?]). cbn [rbind]. rewrite Ha. cbn [rbind].
    split; [done|]. cbn [b_udfs b_draws]. split; [|lia]. intros name. cbn [b_udfs b_draws]. intros [x Hx]. apply lookup_insert_Some in Hx as [[<- _]|[_ Hx]].
    - exists (b_draws b1). split; [lia|done].
    - destruct (Hu1 _ (mk_is_Some _ _ Hx)) as (j&?&?). exists j. split; [lia|done]. }
  induction v as [l br s|u i IH fields|u i IH fields]; intros b Hok Hnd Hu; cbn [to_relation transforms] in *.
  - eexists _, _. split; [done|]. split; [done|lia].
  - destruct Hok as (_&Hok&Hne&Hin). by apply (Hstep i u fields b).
  - destruct Hok as (_&Hok&Hne&Hin). by apply (Hstep i u fields b).
Qed.

(** Function files. *)
Definition udf_tail (name : string) : list string := ["metadata"; "udfs"; name +:+ ".pkl"].
Lemma udf_tail_plain name : named name → Forall plain_name (udf_tail name).
Proof.
  intros [Hne Hns]. unfold udf_tail. constructor; [apply (bool_decide_unpack _); by vm_compute|].
  constructor; [apply (bool_decide_unpack _); by vm_compute|]. constructor; [|done].
  assert (noslash (name +:+ ".pkl")) as H by (apply noslash_app; [done|]; apply (bool_decide_unpack _); by vm_compute).
  destruct name as [|c name]; [done|]. unfold plain_name. split; [done|]. split; [|split; [|done]].
  - intros E. injection E as -> E. by destruct name.
  - intros E. injection E as -> E. destruct name as [|c name]; [done|]. injection E as -> E. by destruct name.
Qed.
Lemma join_join (loc a b : string) :
  a ≠ "" → starts_slash a = false → ends_slash a = false → noslash b → join (join loc a) b = join loc (a +:+ "/" +:+ b).
Proof.
  intros Ha Hs He Hb. unfold join. rewrite Hs, (starts_noslash _ Hb).
  assert (starts_slash (a +:+ "/" +:+ b) = false) as -> by (destruct a; done).
  destruct (bool_decide (loc = "") || ends_slash loc).
  - rewrite bool_decide_false, (ends_app _ _ Ha), He by (destruct loc, a; done). cbn. by rewrite app_assoc_str.
  - rewrite bool_decide_false by (by destruct loc). rewrite (ends_app loc ("/" +:+ a)) by done.
    assert (ends_slash ("/" +:+ a) = false) as -> by (by rewrite (ends_app "/" a Ha)).
    cbn [orb]. rewrite !app_assoc_str. done.
Qed.
Lemma udf_path_below loc name : named name → udf_path loc name = join loc (unsplit (udf_tail name)).
Proof.
  intros [Hne Hns]. unfold udf_path, metadata_dir, udf_tail.
  assert (noslash (name +:+ ".pkl")) as H by (apply noslash_app; [done|]; apply (bool_decide_unpack _); by vm_compute).
  rewrite (join_join loc "metadata" "udfs") by (try done; apply (bool_decide_unpack _); by vm_compute).
  by rewrite join_join.
Qed.
Lemma udf_name_named rand j : id_like (rand j) → named (udf_name rand j).
Proof.
  intros H. split; [done|]. unfold udf_name. apply noslash_app; [|done]. apply (bool_decide_unpack _). by vm_compute.
Qed.
Lemma udf_place cwd loc name : named name → place cwd (join loc (unsplit (udf_tail name))) = place cwd loc ++ udf_tail name.
Proof.
  intros Hn. pose proof (udf_tail_plain _ Hn) as Hp. rewrite place_join by (apply starts_unsplit; by apply names_named).
  unfold walk. rewrite split_unsplit by (try done; by apply names_noslash). by apply walk_plain.
Qed.
Lemma udf_tail_inj n n' : udf_tail n = udf_tail n' → n = n'.
Proof.
  intros [= H]. apply (f_equal chars) in H. rewrite !chars_app in H. apply app_inv_tail in H. by apply chars_inj.
Qed.
Lemma dump_spec (cwd loc : string) (l : list (string * udf F)) (paths : gmap string string) (files : udf_files F) :
  abs_path cwd → NoDup l.*1 → (∀ x, x ∈ l → named x.1) →
  ∃ (paths' : gmap string string) (files' : udf_files F),
    rfoldM (fun '(paths, files) '(name, u) =>
      let full := udf_path loc name in
      let? short := relpath cwd full loc in
      Ok (<[name := short]> paths, <[place cwd full := u]> files)) (paths, files) l = Ok (paths', files')
    ∧ (∀ n, n ∉ l.*1 → paths' !! n = paths !! n)
    ∧ (∀ q, (∀ n, n ∈ l.*1 → q ≠ place cwd loc ++ udf_tail n) → files' !! q = files !! q)
    ∧ ∀ n u, (n, u) ∈ l → paths' !! n = Some (unsplit (udf_tail n)) ∧ files' !! (place cwd loc ++ udf_tail n) = Some u.
Proof.
  intros Hc. revert paths files. induction l as [|[n u] l IH]; intros paths files Hnd Hn.
  - exists paths, files. split; [done|]. split; [done|]. split; [done|]. by intros n u ?%elem_of_nil.
  - assert (named n) as Hn1 by (apply (Hn (n, u)); by left). cbn in Hnd. apply NoDup_cons in Hnd as [Hni Hnd].
    destruct (IH (<[n := unsplit (udf_tail n)]> paths) (<[place cwd loc ++ udf_tail n := u]> files) Hnd) as (p'&f'&Hrun&Hp&Hf&Hall).
    { intros x Hx. apply Hn. by right. }
    exists p', f'. cbn [rfoldM]. rewrite udf_path_below by done.
    change (relpath cwd (join loc (unsplit (udf_tail n))) loc) with (short_path cwd loc (join loc (unsplit (udf_tail n)))).
    rewrite short_below by (try done; by apply udf_tail_plain). cbn [rbind]. rewrite udf_place by done.
    split; [exact Hrun|]. split; [|split].
    + intros m Hm. cbn in Hm. rewrite not_elem_of_cons in Hm. rewrite Hp by apply Hm. apply lookup_insert_ne. intros ->. by destruct Hm.
    + intros q Hq. rewrite Hf.
      * apply lookup_insert_ne. intros <-. by apply (Hq n (elem_of_list_here _ _)).
      * intros m Hm. apply Hq. by right.
    + intros m w Hin. apply elem_of_cons in Hin as [[= -> ->]|Hin]; [|by apply Hall]. split.
      * rewrite Hp by done. apply lookup_insert.
      * rewrite Hf; [apply lookup_insert|]. intros m Hm He. apply app_inv_head, udf_tail_inj in He as ->. done.
Qed.
Lemma dump_udfs_spec (cwd loc : string) (udfs : gmap string (udf F)) (files : udf_files F) :
  abs_path cwd → (∀ n u, udfs !! n = Some u → named n) →
  ∃ paths files', dump_udfs cwd loc udfs files = Ok (paths, files')
    ∧ ∀ n u, udfs !! n = Some u → paths !! n = Some (unsplit (udf_tail n)) ∧ files' !! (place cwd loc ++ udf_tail n) = Some u.
Proof.
  intros Hc Hn. destruct (dump_spec cwd loc (map_to_list udfs) ∅ files Hc (NoDup_fst_map_to_list _)) as (p&f&H&_&_&Hall).
  { intros [n u] Hx. apply elem_of_map_to_list in Hx. by eapply Hn. }
  exists p, f. split; [done|]. intros n u Hx. apply Hall. by apply elem_of_map_to_list.
Qed.

(** Loading. *)
Fixpoint source_schema v : schema :=
  match v with VData _ _ s => s | VMap _ i _ | VFilter _ i _ => source_schema i end.
Lemma on_main_schema v : v_schema (on_main v) = v_schema v.
Proof. by induction v. Qed.
Lemma on_main_id v : source_branch v = MAIN → on_main v = v.
Proof. induction v as [l br s|u i IH f|u i IH f]; cbn; [by intros ->|intros H; by rewrite IH..]. Qed.
Lemma on_main_branch v : source_branch (on_main v) = MAIN.
Proof. by induction v. Qed.
Lemma load_represented cwd loc D files (sp : stored_plan) b v r :
  view_ok v → represents b v r →
  (∀ a u, holds b a u → load_fn cwd loc files sp a = Ok u) →
  load_dataset (F:=F) cwd D (source_location v) = Ok (VData (source_location v) MAIN (source_schema v)) →
  load_rel cwd loc D files sp r = Ok (on_main v).
Proof.
  intros Hok Hr Hl Hd. revert r Hr. induction v as [l br s|u i IH fields|u i IH fields]; intros r Hr; destruct r as [ns|ri a args|ri a args|]; try done.
  - cbn in Hr. destruct ns as [|l' [|]]; try done. by subst.
  - cbn in Hr. destruct Hr as (Hr&Hh&Ha). destruct Hok as (_&Hok&_). cbn [load_rel].
    rewrite (Hl _ _ Hh). cbn. rewrite (IH Hok Hd _ Hr). cbn. unfold load_fields. rewrite on_main_schema.
    pose proof (arguments_back _ _ _ (view_ok_ids _ Hok) Ha) as Hb. unfold load_fields in Hb. rewrite Hb. done.
  - cbn in Hr. destruct Hr as (Hr&Hh&Ha). destruct Hok as (_&Hok&_). cbn [load_rel].
    rewrite (Hl _ _ Hh). cbn. rewrite (IH Hok Hd _ Hr). cbn. unfold load_fields. rewrite on_main_schema.
    pose proof (arguments_back _ _ _ (view_ok_ids _ Hok) Ha) as Hb. unfold load_fields in Hb. rewrite Hb. done.
Qed.
Lemma built_source cwd tr after cwd' v :
  allowed cwd (tr ++ after) → built cwd (disk_run cwd tr) v →
  place cwd' (source_location v) = place cwd (source_location v) →
  load_dataset (F:=F) cwd' (disk_run cwd (tr ++ after)) (source_location v) = Ok (VData (source_location v) MAIN (source_schema v)).
Proof.
  intros Hal Hb. induction Hb as [loc hid h Hh|v fn out fields recs batch v' Hv IH Hm|v fn fields v' Hv IH Hm].
  - cbn. intros Hp. unfold load_dataset. rewrite Hp.
    destruct (allowed_history _ _ _ (place cwd loc) Hal) as [Hal0 Hhist].
    destruct (reachable_handle _ _ _ (allowed_reachable _ _ _ Hal0) Hh) as (s&Hs&Hwf).
    destruct (history_sinv _ _ _ Hs Hhist) as [Hs' _]. destruct (wi_stored _ _ (si_world _ _ Hs')) as (p&m&Hst&Hm).
    rewrite (load_run _ _ _ Hst). cbn. by rewrite (wm_schema _ _ _ Hm), (wm_schema _ _ _ (proj1 Hwf)).
  - unfold map_batches in Hm. apply rbind_ok in Hm as (l&Hl&Hm). apply rbind_ok in Hm as ([]&Hval&[= <-]). done.
  - unfold filter_view in Hm. apply rbind_ok in Hm as (l&Hl&[= <-]). done.
Qed.

Lemma rebuilt cwd rand hid location v tr files D' files' sp :
  abs_path cwd → (∀ j, id_like (rand j)) → allowed cwd tr → built cwd (disk_run cwd tr) v →
  materialize cwd rand hid location v (disk_run cwd tr) files = (D', files', Ok sp) →
  ∀ cwd' location' after files'',
    allowed cwd (tr ++ after) → files' ⊆ files'' →
    place cwd' location' = place cwd location →
    place cwd' (source_location v) = place cwd (source_location v) →
    load_view cwd' location' (disk_run cwd (tr ++ after)) files'' sp = Ok (on_main v).
Proof.
  intros Hc Hid Hal Hb Hm cwd' location' after files'' Hal' Hsub Hloc Hsrc.
  unfold materialize, make_plan in Hm. destruct (to_relation rand v builder0) as [[r b]|e] eqn:Hr; [|done]. cbn [rbind] in Hm.
  destruct (to_relation_spec _ _ _ _ _ builder0_good (builder0_named rand) Hr) as (_&Hn&_&Hrep).
  assert (∀ n u, b_udfs b !! n = Some u → named n) as Hnamed.
  { intros n u (j&->)%Hn. by apply udf_name_named. }
  destruct (dump_udfs_spec cwd location (b_udfs b) files Hc Hnamed) as (paths&f&Hdump&Hall). rewrite Hdump in Hm.
  injection Hm as _ -> Hsp. apply rmap_ok in Hsp as (h0&_&->).
  destruct (built_ok _ _ _ Hal Hb) as (Hok&_).
  unfold load_view. cbn [sp_plan pl_root]. eapply load_represented; [done|exact Hrep| |by eapply built_source].
  intros a u (ur&name&Hfn&Huri&Hu). unfold load_fn. cbn [sp_plan pl_exts pl_uris sp_udfs]. rewrite Hfn. cbn [of_opt rbind]. rewrite Huri. cbn [of_opt rbind].
  rewrite decide_True by done. destruct (Hall _ _ Hu) as [Hp Hf]. rewrite Hp. cbn [from_option id].
  rewrite udf_place by (by eapply Hnamed). rewrite Hloc. by rewrite (lookup_weaken _ _ _ _ Hf Hsub).
Qed.
Lemma materializes cwd rand hid location v tr files :
  abs_path cwd → (∀ j, id_like (rand j)) → NoDup (rand <$> seq 0 (transforms v)) →
  allowed cwd tr → built cwd (disk_run cwd tr) v →
  ∃ D' files' sp, materialize cwd rand hid location v (disk_run cwd tr) files
      = (D', files', rmap (fun _ => sp) (create (v_schema v) (v_pks v) (v_recs v) (y_world (storage_at (disk_run cwd tr) (place cwd location)))).2)
    ∧ D' = act cwd (disk_run cwd tr) location (CCreate hid (v_schema v) (v_pks v) (v_recs v)).
Proof.
  intros Hc Hid Hnd Hal Hb. destruct (built_ok _ _ _ Hal Hb) as (Hok&_).
  destruct (to_relation_total rand v builder0 Hok Hnd) as (r&b&Hr&_&_).
  { intros n [u Hu]. cbn in Hu. by rewrite lookup_empty in Hu. }
  destruct (to_relation_spec _ _ _ _ _ builder0_good (builder0_named rand) Hr) as (_&Hn&_&Hrep).
  destruct (dump_udfs_spec cwd location (b_udfs b) files Hc) as (paths&f&Hdump&_).
  { intros n u (j&->)%Hn. by apply udf_name_named. }
  unfold materialize, make_plan. rewrite Hr. cbn [rbind]. rewrite Hdump. by eexists _, _, _.
Qed.
End plans.
