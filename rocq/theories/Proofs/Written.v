(** The schema of written index files. *)
From Verif.Model Require Import System.
From Verif.Spec Require Import SchemaSpec.
From Verif.Proofs Require Import Lib SchemaLaws Durable.

Lemma stored_written fs pks recs ns loaded :
  substrait_fields (assign_field_ids fs) = Ok ns → arrow_schema ns recs false = Ok loaded →
  (∀ f, f ∈ fs → f_name f ∈ recs → record_type (f_ty f)) →
  (∀ f, f ∈ fs → f_name f ∉ recs → file_free (f_ty f) = true ∨ ∃ d, f_ty f = TFile d) →
  arrow_schema ns recs true = Ok (phys_schema (Schema loaded pks recs)).
Proof.
  intros Hns Hl Hrec Hfree.
  assert (Hst : forallb (fun f => storable (f_ty f)) (assign_field_ids fs) = true).
  { apply substrait_list_storable. unfold substrait_fields in Hns.
    destruct (substrait_list (assign_field_ids fs)); [eauto|done]. }
  assert (Hbare : ∀ f, f ∈ assign_field_ids fs → ∃ g, g ∈ fs ∧ f_name f = f_name g ∧ bare_ty (f_ty f) = bare_ty (f_ty g)).
  { intros f Hf. pose proof (assign_field_ids_bare fs) as H. apply elem_of_list_lookup in Hf as [i Hi].
    destruct (Forall2_lookup_l _ _ _ _ _ H Hi) as (g&Hg&?&?). exists g. split_and!; try done. by eapply elem_of_list_lookup_2. }
  destruct (schema_round false recs (assign_field_ids fs) Hst) as (ns1&Hns1&Ha); [done|].
  rewrite Hns in Hns1. injection Hns1 as <-. rewrite Hl in Ha. injection Ha as ->.
  destruct (schema_round true recs (assign_field_ids fs) Hst) as (ns1&Hns1&Ha).
  { intros _ f Hf Hn. destruct (Hbare f Hf) as (g&Hg&Hng&Hb). rewrite Hng in Hn. specialize (Hrec g Hg Hn).
    destruct (f_ty g) as [| | | | | | |[]| | | |], (f_ty f) as [| | | | | | |[]| | | |]; done. }
  rewrite Hns in Hns1. injection Hns1 as <-. rewrite Ha. f_equal. unfold phys_schema. cbn [s_fields]. rewrite <-list_fmap_compose.
  apply list_fmap_ext. intros i f Hf%elem_of_list_lookup_2. unfold compose, phys_field. cbn [s_recs f_name f_meta f_ty].
  destruct (decide (f_name f ∈ recs)) as [Hn|Hn]; [by rewrite bool_decide_true|].
  rewrite bool_decide_false by done. cbn [andb]. f_equal. destruct (Hbare f Hf) as (g&Hg&Hng&Hb).
  destruct (Hfree g Hg) as [Hff|[d Hd]]; [by rewrite <-Hng| |].
  - assert (Hft : file_free (f_ty f) = true) by (by rewrite <-file_free_bare, Hb, file_free_bare).
    assert (view_ty true (f_ty f) = bare_ty (f_ty f)) as ->.
    { unfold view_ty. apply file_free_id. by rewrite file_free_bare. }
    destruct (f_ty f) as [| | | | | | |[]| | | |]; done.
  - rewrite Hd in Hb. destruct (f_ty f) as [| | | | | | |[]| | | |]; done.
Qed.
