(** Manifest statistics of stored snapshots. *)
From Verif.Model Require Import System.
From Verif.Spec Require Import Logical Layout Pruning.
From Verif.Proofs Require Import Lib World Resolve AppendSpec SchemaFacts Bounds Wf Inv SysInv Effects Observe Calls Evolve History Serial.

Lemma recorded_look m i : recorded m i = (stat_look m (i, SMin), stat_look m (i, SMax)).
Proof. unfold recorded, stat_look. cbn. by destruct (list_find _ _) as [[? [? []]]|]. Qed.
Lemma stored_snap σ hid s m i sn :
  reachable σ → schema_at σ hid = Some s → stored_meta (w_fs (y_world σ)) = Some m → md_snaps m !! i = Some sn →
  wf_schema s ∧ wf_snap s (w_fs (y_world σ)) sn ∧ sn_id sn = i.
Proof.
  intros Hr Hsc Hm Hi. unfold schema_at in Hsc. destruct (y_handles σ !! hid) as [h|] eqn:Hh; [|done].
  destruct (reachable_seen σ hid h Hr Hh) as (s'&q&m'&Hseen).
  assert (s' = s) as ->.
  { pose proof (sn_schema _ _ _ _ _ _ Hseen) as H'. unfold schema_at in H'. rewrite Hh in H'. cbn in *. congruence. }
  pose proof (stored_meta_eq _ _ _ (sn_stored _ _ _ _ _ _ Hseen)).
  assert (m' = m) as -> by congruence.
  destruct (wm_snaps _ _ _ (sn_meta _ _ _ _ _ _ Hseen) i sn Hi) as (?&?&_).
  split_and!; try done. by eapply seen_schema.
Qed.
Lemma recorded_bounds σ hid s m i sn q r f :
  reachable σ → schema_at σ hid = Some s → stored_meta (w_fs (y_world σ)) = Some m →
  md_snaps m !! i = Some sn → q ∈ sn_idx sn → r ∈ manifest_rows (w_fs (y_world σ)) q →
  f ∈ s_fields s → f_name f ∈ s_pks s → plain_before s (f_name f) →
  ∃ cols groups, w_fs (y_world σ) !! mr_path r = Some (FIndex cols groups)
    ∧ mr_rows r = Z.of_nat (length (concat groups))
    ∧ bounds (recorded r (field_id f)).1 (recorded r (field_id f)).2 (column_values (f_name f) (concat groups)).
Proof.
  intros Hr Hsc Hm Hi Hq Hrow Hf Hpk Hpl.
  destruct (stored_snap _ _ _ _ _ _ Hr Hsc Hm Hi) as (Hs&(_&Hmans&_)&_).
  eapply Forall_forall in Hmans; [|exact Hq]. apply wf_man_at in Hmans as [_ Hrows].
  eapply Forall_forall in Hrows; [|exact Hrow].
  pose proof (wf_mrow_rows _ _ _ Hrows) as Hlen.
  destruct Hrows as (cols&gs&E&Hp&_&Hc&Hmr&_). exists cols, gs. split; [done|].
  unfold file_rows in Hlen. rewrite Hp in Hlen. split; [done|].
  apply elem_of_list_lookup in Hf as [k Hk]. rewrite recorded_look. cbn.
  by eapply manifest_row_bounds.
Qed.
