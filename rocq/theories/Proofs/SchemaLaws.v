(** Field IDs, the stored form of a schema, and validation. *)
From Verif.Model Require Import Storage.
From Verif.Spec Require Import SchemaSpec.
From Verif.Proofs Require Import Lib SchemaFacts.

Section ind.
Context (P : aty → Prop).
Context (Hlist : ∀ n t i b, P t → P (TList (AField n t i b))).
Context (Hstruct : ∀ fs, Forall (fun f => P (f_ty f)) fs → P (TStruct fs)).
Context (Hleaf : ∀ t, is_list t = false → is_struct t = false → P t).
Fixpoint aty_ind' (t : aty) : P t :=
  match t with
  | TList (AField n t i b) => Hlist n t i b (aty_ind' t)
  | TStruct fs => Hstruct fs
      ((fix go (l : list afield) : Forall (fun f => P (f_ty f)) l :=
          match l with
          | [] => Forall_nil_2 _
          | AField n t i b :: l => Forall_cons_2 (fun f => P (f_ty f)) (AField n t i b) l (aty_ind' t) (go l)
          end) fs)
  | t => Hleaf t eq_refl eq_refl
  end.
End ind.

Lemma all_ids_cons f fs : all_ids (f :: fs) = all_ids [f] ++ all_ids fs.
Proof. unfold all_ids. rewrite !bind_cons. cbn. by rewrite app_nil_r. Qed.
Lemma all_ids_one f : all_ids [f] = f_meta f :: nested_ids (f_ty f).
Proof. unfold all_ids. cbn. by rewrite app_nil_r. Qed.
Lemma nested_ids_struct fs : nested_ids (TStruct fs) = all_ids fs.
Proof.
  cbn. induction fs as [|[n t i b] fs IH]; [done|]. unfold all_ids in *. rewrite bind_cons, IH. done.
Qed.
Lemma assign_id_list n f i b k :
  assign_id k (AField n (TList f) i b) =
    let '(f', nx) := assign_id (k + 1) f in (AField n (TList f') (Some k) true, nx).
Proof. done. Qed.
Lemma assign_id_struct n fs i b k :
  assign_id k (AField n (TStruct fs) i b) =
    let '(fs', nx) := assign_ids (k + 1) fs in (AField n (TStruct fs') (Some k) true, nx).
Proof.
  cbn. generalize (k + 1)%Z as j. intros j.
  assert (∀ j, (fix go (nx : Z) (l : list afield) : list afield * Z :=
               match l with
               | [] => ([], nx)
               | g :: l' => let '(g', nx1) := assign_id nx g in
                            let '(l'', nx2) := go nx1 l' in (g' :: l'', nx2)
               end) j fs = assign_ids j fs) as Hgo.
  { induction fs as [|f fs IH]; intros k'; [done|]. cbn. destruct (assign_id k' f). by rewrite IH. }
  by rewrite Hgo.
Qed.
Lemma assign_ids_spec_of fs :
  Forall (fun f => ∀ k, ∃ n, all_ids [(assign_id k f).1] = Some <$> seqZ k (Z.of_nat n) ∧ (assign_id k f).2 = (k + Z.of_nat n)%Z) fs →
  ∀ k, ∃ n, all_ids (assign_ids k fs).1 = Some <$> seqZ k (Z.of_nat n) ∧ (assign_ids k fs).2 = (k + Z.of_nat n)%Z.
Proof.
  induction 1 as [|f fs Hf _ IH]; intros k; cbn [assign_ids].
  - exists 0. split; [done|]. cbn. lia.
  - destruct (Hf k) as (n&Hn&Hk). destruct (assign_id k f) as [f' k1]. cbn [fst snd] in Hn, Hk. subst k1.
    destruct (IH (k + Z.of_nat n)%Z) as (n2&Hn2&Hk2). destruct (assign_ids _ fs) as [fs' k2]. cbn [fst snd] in *.
    exists (n + n2). rewrite all_ids_cons, Hn, Hn2.
    split; [|lia]. by rewrite Nat2Z.inj_add, seqZ_app, fmap_app by lia.
Qed.
Lemma assign_id_spec f k :
  ∃ n, all_ids [(assign_id k f).1] = Some <$> seqZ k (Z.of_nat n) ∧ (assign_id k f).2 = (k + Z.of_nat n)%Z.
Proof.
  destruct f as [nm t i b]. revert nm i b k.
  induction t as [n t i b IH|fs IH|t Hl Hs] using aty_ind'; intros nm i' b' k.
  - rewrite assign_id_list. destruct (IH n i b (k + 1)%Z) as (c&Hc&Hk).
    destruct (assign_id (k + 1) (AField n t i b)) as [[n2 t2 i2 b2] k2]. 
    exists (S c). rewrite all_ids_one in *. cbn [fst snd f_meta f_ty nested_ids] in *. split; [|lia].
    rewrite seqZ_cons by lia. rewrite fmap_cons. f_equal. 
    replace (Z.pred (Z.of_nat (S c))) with (Z.of_nat c) by lia. exact Hc.
  - rewrite assign_id_struct.
    destruct (assign_ids_spec_of fs) with (k := (k + 1)%Z) as (c&Hc&Hk).
    { eapply Forall_impl; [exact IH|]. intros [n t i b] Hf j. apply Hf. }
    destruct (assign_ids (k + 1) fs) as [fs' k2]. exists (S c). cbn [fst snd] in *. split; [|lia].
    rewrite all_ids_one. cbn [f_meta f_ty]. rewrite nested_ids_struct.
    rewrite seqZ_cons by lia. rewrite fmap_cons. f_equal.
    replace (Z.pred (Z.of_nat (S c))) with (Z.of_nat c) by lia. exact Hc.
  - exists 1. destruct t; try done; cbn; (split; [done|lia]).
Qed.
Lemma assign_field_ids_spec fs :
  all_ids (assign_field_ids fs) = Some <$> seqZ 0 (Z.of_nat (length (all_ids (assign_field_ids fs)))).
Proof.
  destruct (assign_ids_spec_of fs) with (k := 0%Z) as (n&Hn&_).
  { apply Forall_forall. intros. apply assign_id_spec. }
  unfold assign_field_ids. rewrite Hn. by rewrite fmap_length, seqZ_length, Nat2Z.id.
Qed.

(** Apart from IDs and nullability nothing changes. *)
Lemma bare_ty_struct fs :
  bare_ty (TStruct fs) = TStruct ((fun f => AField (f_name f) (bare_ty (f_ty f)) None true) <$> fs).
Proof. cbn. f_equal. induction fs as [|[n t i b] fs IH]; [done|]. by rewrite fmap_cons, IH. Qed.
Lemma assign_ids_bare_of fs :
  Forall (fun f => ∀ k, f_name (assign_id k f).1 = f_name f ∧ bare_ty (f_ty (assign_id k f).1) = bare_ty (f_ty f)) fs →
  ∀ k, Forall2 (fun f g => f_name f = f_name g ∧ bare_ty (f_ty f) = bare_ty (f_ty g)) (assign_ids k fs).1 fs.
Proof.
  induction 1 as [|f fs Hf _ IH]; intros k; cbn; [constructor|]. specialize (Hf k).
  destruct (assign_id k f) as [f' k1]. specialize (IH k1). destruct (assign_ids k1 fs). by constructor.
Qed.
Lemma assign_id_bare f k :
  f_name (assign_id k f).1 = f_name f ∧ bare_ty (f_ty (assign_id k f).1) = bare_ty (f_ty f).
Proof.
  destruct f as [nm t i b]. revert nm i b k.
  induction t as [n t i b IH|fs IH|t Hl Hs] using aty_ind'; intros nm i' b' k.
  - rewrite assign_id_list. destruct (IH n i b (k + 1)%Z) as [Hn Ht].
    destruct (assign_id (k + 1) (AField n t i b)) as [[n2 t2 i2 b2] k2]. cbn in *. split; [done|]. by rewrite Ht.
  - rewrite assign_id_struct.
    assert (HF := assign_ids_bare_of fs).
    assert (HI : Forall (fun f => ∀ k, f_name (assign_id k f).1 = f_name f ∧ bare_ty (f_ty (assign_id k f).1) = bare_ty (f_ty f)) fs).
    { eapply Forall_impl; [exact IH|]. intros [n t i b] Hf j. apply Hf. }
    specialize (HF HI (k + 1)%Z). clear HI.
    destruct (assign_ids (k + 1) fs) as [fs' k2]. cbn [fst f_name f_ty] in *. split; [done|].
    rewrite !bare_ty_struct. f_equal. induction HF as [|f g fs1 fs2 [Hn Ht] _ IH2]; [done|].
    apply Forall_cons in IH as [_ IH]. rewrite !fmap_cons, Hn, Ht. f_equal. auto.
  - destruct t; done.
Qed.
Lemma assign_field_ids_bare fs :
  Forall2 (fun f g => f_name f = f_name g ∧ bare_ty (f_ty f) = bare_ty (f_ty g)) (assign_field_ids fs) fs.
Proof. apply assign_ids_bare_of. apply Forall_forall. intros. apply assign_id_bare. Qed.
Lemma assign_field_ids_names fs : names_of (assign_field_ids fs) = names_of fs.
Proof.
  unfold names_of. induction (assign_field_ids_bare fs) as [|f g l l' [Hn _] _ IH]; [done|].
  by rewrite !fmap_cons, IH, Hn.
Qed.

Lemma sublist_elem {A} (k l : list A) : k `sublist_of` l → ∀ x, x ∈ k → x ∈ l.
Proof. induction 1; set_solver. Qed.
Lemma sublist_NoDup' {A} (k l : list A) : k `sublist_of` l → NoDup l → NoDup k.
Proof.
  induction 1 as [|x k l Hs IH|x k l Hs IH]; [done| |].
  - intros [Hx Hl]%NoDup_cons. constructor; [|auto]. intros Hk. by apply (sublist_elem k l Hs) in Hk.
  - intros [_ ?]%NoDup_cons. auto.
Qed.
Lemma top_ids_sublist fs : (f_meta <$> fs) `sublist_of` all_ids fs.
Proof.
  induction fs as [|f fs IH]; [constructor|]. unfold all_ids in *. rewrite bind_cons, fmap_cons.
  cbn. apply sublist_skip. by apply sublist_inserts_l.
Qed.
Lemma assigned_top_ids fs :
  ∃ l, f_meta <$> assign_field_ids fs = Some <$> l ∧ NoDup l ∧ Forall (fun i => (0 ≤ i)%Z) l.
Proof.
  pose proof (top_ids_sublist (assign_field_ids fs)) as Hs. rewrite (assign_field_ids_spec fs) in Hs.
  set (n := Z.of_nat _) in Hs. clearbody n.
  assert (∀ k l, k `sublist_of` (Some <$> l) → ∃ k', k = Some <$> k' ∧ k' `sublist_of` (l : list Z)) as Hsub.
  { clear. intros k l. revert k. induction l as [|x l IH]; intros k Hk.
    - cbn in Hk. apply sublist_nil_r in Hk as ->. by exists [].
    - rewrite fmap_cons in Hk. apply sublist_cons_r in Hk as [Hk|(k1&->&Hk)].
      + destruct (IH _ Hk) as (k'&->&?). exists k'. split; [done|]. by apply sublist_cons.
      + destruct (IH _ Hk) as (k'&->&?). exists (x :: k'). split; [done|]. by apply sublist_skip. }
  destruct (Hsub _ _ Hs) as (l&Hl&Hsl). exists l. split_and!; [done| |].
  - eapply sublist_NoDup'; [exact Hsl|]. apply NoDup_seqZ.
  - apply Forall_forall. intros i Hi. apply (sublist_elem _ _ Hsl) in Hi. by apply elem_of_seqZ in Hi as [? _].
Qed.

(** * The stored form *)
Lemma storable_struct fs : storable (TStruct fs) = forallb (fun f => storable (f_ty f)) fs.
Proof. cbn. induction fs as [|[n t i b] fs IH]; [done|]. cbn. by rewrite IH. Qed.
Lemma file_free_struct fs : file_free (TStruct fs) = forallb (fun f => file_free (f_ty f)) fs.
Proof. cbn. induction fs as [|[n t i b] fs IH]; [done|]. cbn. by rewrite IH. Qed.
Lemma substrait_ty_struct fs id :
  substrait_ty (TStruct fs) id = rmap (fun '(ss, ns) => (SStruct id ss, ns)) (substrait_list fs).
Proof.
  cbn. match goal with |- rmap _ ?a = _ => assert (a = substrait_list fs) as ->; [|done] end.
  induction fs as [|[n t i b] fs IH]; [done|]. cbn.
  destruct (substrait_ty t (default NULL_FIELD_ID i)) as [[s ns]|]; [|done]. cbn. by rewrite IH.
Qed.
(** Sub-fields of a struct. *)
Fixpoint arrow_subs (l : list sty) (physical : bool) (names : list string) : res (list afield * list string) :=
  match l with
  | [] => Ok ([], names)
  | t :: l' =>
      match names with
      | [] => Err (EOther "IndexError: names")
      | n :: names1 =>
          rbind (arrow_ty t physical names1) (fun '(ty, names2) =>
          rbind (arrow_subs l' physical names2) (fun '(fs, names3) =>
            Ok (AField n ty None true :: fs, names3)))
      end
  end.
Lemma arrow_ty_struct id l physical names :
  arrow_ty (SStruct id l) physical names
  = rmap (fun '(subs, ns) => (TStruct subs, ns)) (arrow_subs l physical names).
Proof.
  cbn. match goal with |- rmap _ ?a = _ => assert (a = arrow_subs l physical names) as ->; [|done] end.
  revert names. induction l as [|t l IH]; intros names; [done|]. destruct names as [|n names]; [done|].
  cbn. destruct (arrow_ty t physical names) as [[ty names2]|]; [|done]. cbn. by rewrite IH.
Qed.

(** The type as the physical schema has it. *)
Fixpoint file_to_string (t : aty) : aty :=
  match t with
  | TFile _ => TString
  | TList (AField n t i b) => TList (AField n (file_to_string t) i b)
  | TStruct subs =>
      TStruct ((fix go (l : list afield) :=
         match l with [] => [] | AField n t i b :: l => AField n (file_to_string t) i b :: go l end) subs)
  | t => t
  end.
Lemma file_to_string_struct fs :
  file_to_string (TStruct fs) = TStruct ((fun f => AField (f_name f) (file_to_string (f_ty f)) (f_meta f) (f_nullable f)) <$> fs).
Proof. cbn. f_equal. induction fs as [|[n t i b] fs IH]; [done|]. by rewrite fmap_cons, IH. Qed.
Definition view_ty (physical : bool) (t : aty) : aty :=
  if physical then file_to_string (bare_ty t) else bare_ty t.

Lemma list_round physical fs :
  Forall (fun f => ∀ id rest, storable (f_ty f) = true →
     ∃ s ns, substrait_ty (f_ty f) id = Ok (s, ns) ∧ sty_id s = id
       ∧ arrow_ty s physical (ns ++ rest) = Ok (view_ty physical (f_ty f), rest)) fs →
  ∀ rest, forallb (fun f => storable (f_ty f)) fs = true →
  ∃ ss ns, substrait_list fs = Ok (ss, ns)
    ∧ arrow_subs ss physical (ns ++ rest)
      = Ok ((fun f => AField (f_name f) (view_ty physical (f_ty f)) None true) <$> fs, rest).
Proof.
  induction 1 as [|[n t i b] fs Hf _ IH]; intros rest Hs; [by exists [], []|].
  cbn in Hs. apply andb_true_iff in Hs as [Hs1 Hs2].
  destruct (IH rest Hs2) as (ss&ns&Hss&Harr).
  destruct (Hf (default NULL_FIELD_ID i) (ns ++ rest) Hs1) as (s&ns1&Hs&_&Ha).
  exists (s :: ss), (n :: ns1 ++ ns). cbn. cbn in Hs. rewrite Hs. cbn. rewrite Hss. cbn. split; [done|].
  rewrite <-app_assoc. cbn in Ha. rewrite Ha. cbn. by rewrite Harr.
Qed.
Lemma ty_round physical t id rest :
  storable t = true →
  ∃ s ns, substrait_ty t id = Ok (s, ns) ∧ sty_id s = id
    ∧ arrow_ty s physical (ns ++ rest) = Ok (view_ty physical t, rest).
Proof.
  revert id rest. induction t as [n t i b IH|fs IH|t Hl Hs] using aty_ind'; intros id rest Hst.
  - destruct (IH (default NULL_FIELD_ID i) rest Hst) as (s&ns&Hs&_&Ha).
    exists (SList id s), ns. cbn [substrait_ty]. rewrite Hs. cbn. split_and!; try done. rewrite Ha.
    by destruct physical.
  - rewrite storable_struct in Hst. destruct (list_round physical fs IH rest Hst) as (ss&ns&Hss&Ha).
    exists (SStruct id ss), ns. rewrite substrait_ty_struct, Hss. split_and!; try done.
    rewrite arrow_ty_struct, Ha. cbn [rmap]. do 2 f_equal. unfold view_ty. rewrite bare_ty_struct.
    destruct physical; [|done]. rewrite file_to_string_struct, <-list_fmap_compose. done.
  - destruct t; try done; do 2 eexists; (split; [reflexivity|]); (split; [reflexivity|]); destruct physical; done.
Qed.
(** Storing and loading a schema. *)
Lemma schema_round physical recs fs :
  forallb (fun f => storable (f_ty f)) fs = true →
  (physical = true → ∀ f, f ∈ fs → f_name f ∈ recs → record_type (f_ty f)) →
  ∃ ns, substrait_fields fs = Ok ns
  ∧ arrow_schema ns recs physical =
     Ok ((fun f => AField (f_name f)
           (if physical && bool_decide (f_name f ∈ recs) then record_address_type else view_ty physical (f_ty f))
           (Some (field_id f)) true) <$> fs).
Proof.
  unfold substrait_fields, arrow_schema. intros Hst Hrec.
  assert (∃ ss ns, substrait_list fs = Ok (ss, ns) ∧ arrow_fields ns ss recs physical =
     Ok ((fun f => AField (f_name f)
           (if physical && bool_decide (f_name f ∈ recs) then record_address_type else view_ty physical (f_ty f))
           (Some (field_id f)) true) <$> fs)) as (ss&ns&Hss&Ha).
  { induction fs as [|[n t i b] fs IH]; [by exists [], []|].
    cbn in Hst. apply andb_true_iff in Hst as [Hs1 Hs2].
    destruct (IH Hs2) as (ss&ns&Hss&Harr); [intros; apply Hrec; set_solver|].
    destruct (ty_round physical t (default NULL_FIELD_ID i) ns Hs1) as (s&ns1&Hs&Hid&Ha).
    exists (s :: ss), (n :: ns1 ++ ns). cbn. rewrite Hs. cbn. rewrite Hss. cbn. split; [done|].
    destruct (physical && bool_decide (n ∈ recs)) eqn:Hpr.
    - apply andb_true_iff in Hpr as [-> Hn%bool_decide_eq_true].
      assert (ns1 = []) as ->.
      { specialize (Hrec eq_refl (AField n t i b) ltac:(set_solver) Hn). cbn in Hrec.
        destruct t; try done; cbn in Hs; by injection Hs as <- <-. }
      cbn. rewrite Harr, Hid. cbn. done.
    - rewrite Ha. cbn. rewrite Harr. cbn. rewrite Hid. done. }
  exists (NamedStruct ns ss). by rewrite Hss.
Qed.
Lemma substrait_list_storable fs : (∃ r, substrait_list fs = Ok r) ↔ forallb (fun f => storable (f_ty f)) fs = true.
Proof.
  split.
  - assert (Hty : ∀ t id r, substrait_ty t id = Ok r → storable t = true).
    { intros t. induction t as [n t i b IH|gs IH|t Hl Hs] using aty_ind'; intros id r.
      - cbn [substrait_ty]. intros (a&Ha&_)%rmap_ok. cbn. by eapply IH.
      - rewrite substrait_ty_struct. intros (a&Ha&_)%rmap_ok. rewrite storable_struct.
        revert a Ha. induction IH as [|[n t i b] gs Hf _ IHl]; intros a Ha; [done|].
        cbn in Ha. apply rbind_ok in Ha as ([s1 n1]&H1&Ha). apply rbind_ok in Ha as ([s2 n2]&H2&_).
        cbn. apply Hf in H1. cbn in H1. rewrite H1. cbn. by eapply IHl.
      - destruct t; done. }
    induction fs as [|[n t i b] fs IH]; [done|]. intros [r Hr]. cbn in Hr.
    apply rbind_ok in Hr as ([s1 n1]&H1&Hr). apply rbind_ok in Hr as ([s2 n2]&H2&_). cbn.
    rewrite (Hty _ _ _ H1). cbn. eauto.
  - intros Hs. destruct (schema_round false [] fs Hs) as (ns&Hns&_); [done|]. unfold substrait_fields in Hns.
    apply rmap_ok in Hns as (r&Hr&_). eauto.
Qed.
Lemma file_free_bare t : file_free (bare_ty t) = file_free t.
Proof.
  induction t as [n t i b IH|fs IH|t Hl Hs] using aty_ind'.
  - exact IH.
  - rewrite bare_ty_struct, !file_free_struct. induction IH as [|f fs Hf _ IHl]; [done|].
    rewrite fmap_cons. cbn. by rewrite Hf, IHl.
  - by destruct t.
Qed.
Lemma file_free_id t : file_free t = true → file_to_string t = t.
Proof.
  induction t as [n t i b IH|fs IH|t Hl Hs] using aty_ind'.
  - cbn. intros H. by rewrite IH.
  - rewrite file_free_struct, file_to_string_struct. intros H. f_equal.
    induction IH as [|[n t i b] fs Hf _ IHl]; [done|]. cbn in H. apply andb_true_iff in H as [H1 H2].
    rewrite fmap_cons. f_equal; [cbn; cbn in Hf; by rewrite Hf|auto].
  - by destruct t.
Qed.

(** * Validation *)
Lemma schema_field_spec fs n :
  length (filter (fun f => f_name f = n) fs) ≤ 1 →
  match schema_field fs n with
  | Ok f => f ∈ fs ∧ f_name f = n ∧ ∀ g, g ∈ fs → f_name g = n → g = f
  | Err _ => ∀ g, g ∈ fs → f_name g ≠ n
  end.
Proof.
  unfold schema_field. intros Hlen.
  assert (Hin : ∀ g, g ∈ filter (fun f => f_name f = n) fs ↔ f_name g = n ∧ g ∈ fs).
  { intros g. by rewrite elem_of_list_filter. }
  revert Hlen Hin. generalize (filter (fun f => f_name f = n) fs). intros [|a [|b l]] Hlen Hin.
  - intros g Hg Hn. assert (g ∈ []) by (apply Hin; done). set_solver.
  - assert (Ha : a ∈ [a]) by set_solver. apply Hin in Ha as [? ?]. split_and!; try done.
    intros g ? ?. assert (Hg : g ∈ [a]) by (apply Hin; done). set_solver.
  - cbn in Hlen. lia.
Qed.
Lemma check_pk_spec fs n :
  length (filter (fun f => f_name f = n) fs) ≤ 1 →
  (check_pk fs n = Ok tt ∧ ∃ f, f ∈ fs ∧ f_name f = n ∧ key_type (f_ty f))
  ∨ (check_pk fs n = Err (EUser UInput) ∧ ¬ ∃ f, f ∈ fs ∧ f_name f = n ∧ key_type (f_ty f)).
Proof.
  intros Hlen. unfold check_pk. case_decide as Hn.
  - pose proof (schema_field_spec fs n Hlen) as Hs. destruct (schema_field fs n) as [f|].
    + destruct Hs as (Hf&Hfn&Hu). destruct (is_list (f_ty f) || is_struct (f_ty f) || is_tf (f_ty f)) eqn:Hk.
      * right. split; [done|]. intros (g&Hg&Hgn&Hkt). rewrite (Hu g Hg Hgn) in Hkt. by destruct (f_ty f).
      * left. split; [done|]. exists f. split_and!; try done. by destruct (f_ty f).
    + exfalso. apply elem_of_list_fmap in Hn as (f&->&Hf). by eapply Hs.
  - right. split; [done|]. intros (f&Hf&<-&_). apply Hn. by apply elem_of_list_fmap_1.
Qed.
Lemma check_rec_spec fs pks n :
  length (filter (fun f => f_name f = n) fs) ≤ 1 →
  (check_rec fs pks n = Ok tt ∧ n ∉ pks ∧ ∃ f, f ∈ fs ∧ f_name f = n ∧ record_type (f_ty f))
  ∨ (check_rec fs pks n = Err (EUser UInput) ∧ ¬ (n ∉ pks ∧ ∃ f, f ∈ fs ∧ f_name f = n ∧ record_type (f_ty f))).
Proof.
  intros Hlen. unfold check_rec. case_decide as Hn.
  - case_decide as Hp; [right; split; [done|]; by intros [? _]|].
    pose proof (schema_field_spec fs n Hlen) as Hs. destruct (schema_field fs n) as [f|].
    + destruct Hs as (Hf&Hfn&Hu). destruct (is_binary (f_ty f) || is_tf (f_ty f)) eqn:Hk.
      * left. split_and!; try done. exists f. split_and!; try done. by destruct (f_ty f).
      * right. split; [done|]. intros (_&g&Hg&Hgn&Hkt). rewrite (Hu g Hg Hgn) in Hkt. by destruct (f_ty f).
    + exfalso. apply elem_of_list_fmap in Hn as (f&->&Hf). by eapply Hs.
  - right. split; [done|]. intros (_&f&Hf&<-&_). apply Hn. by apply elem_of_list_fmap_1.
Qed.
Lemma check_all {A} (f : A → res unit) (P : A → Prop) l e :
  (∀ x, x ∈ l → (f x = Ok tt ∧ P x) ∨ (f x = Err e ∧ ¬ P x)) →
  (rfoldM (fun _ x => f x) tt l = Ok tt ∧ ∀ x, x ∈ l → P x)
  ∨ (rfoldM (fun _ x => f x) tt l = Err e ∧ ¬ ∀ x, x ∈ l → P x).
Proof.
  induction l as [|x l IH]; intros Hl.
  - left. split; [done|]. set_solver.
  - cbn. destruct (Hl x) as [[-> Hx]|[-> Hx]]; [set_solver| |].
    + cbn. destruct IH as [[-> Hall]|[-> Hall]]; [set_solver| |].
      * left. split; [done|]. intros y [->|?]%elem_of_cons; auto.
      * right. split; [done|]. intros H. apply Hall. set_solver.
    + right. split; [done|]. intros H. apply Hx, H. set_solver.
Qed.
Lemma validate_spec fs pks recs :
  unambiguous fs (pks ++ recs) →
  (validate_logical_schema fs pks recs = Ok tt ∧ valid_schema fs pks recs)
  ∨ (validate_logical_schema fs pks recs = Err (EUser UInput) ∧ ¬ valid_schema fs pks recs).
Proof.
  intros Hu. unfold validate_logical_schema, valid_schema.
  destruct (decide (pks = [])) as [->|Hne]; [right; split; [done|]; by intros [? _]|].
  replace (match pks with [] => _ | _ => _ end) with
    (rbind (rfoldM (fun _ n => check_pk fs n) tt pks) (fun _ => rfoldM (fun _ n => check_rec fs pks n) tt recs))
    by by destruct pks.
  destruct (check_all (check_pk fs) (fun n => ∃ f, f ∈ fs ∧ f_name f = n ∧ key_type (f_ty f)) pks (EUser UInput))
    as [[-> Hp]|[-> Hp]].
  { intros n Hn. apply check_pk_spec, Hu. set_solver. }
  2:{ right. split; [done|]. intros (_&?&_). auto. }
  cbn [rbind].
  destruct (check_all (check_rec fs pks) (fun n => n ∉ pks ∧ ∃ f, f ∈ fs ∧ f_name f = n ∧ record_type (f_ty f)) recs (EUser UInput))
    as [[-> Hr]|[-> Hr]].
  { intros n Hn. apply check_rec_spec, Hu. set_solver. }
  - left. split_and!; auto.
  - right. split; [done|]. intros (_&_&?). auto.
Qed.
Lemma nodup_unambiguous fs ns : NoDup (names_of fs) → unambiguous fs ns.
Proof.
  intros Hnd n _. induction fs as [|f fs IH]; [cbn; lia|]. unfold names_of in *. rewrite fmap_cons in Hnd.
  apply NoDup_cons in Hnd as [Hf Hnd]. rewrite filter_cons. case_decide as Hn; [|auto].
  cbn. assert (filter (fun f => f_name f = n) fs = []) as ->; [|done].
  destruct (filter _ fs) as [|g l] eqn:Hg; [done|]. exfalso. apply Hf.
  assert (Hin : g ∈ filter (fun f => f_name f = n) fs) by (rewrite Hg; set_solver).
  apply elem_of_list_filter in Hin as [Hgn Hgf]. rewrite Hn, <-Hgn. by apply elem_of_list_fmap_1.
Qed.

(** Schemas accepted by create are well-formed. *)
Lemma valid_wf fs pks recs :
  NoDup (names_of fs) → valid_schema fs pks recs → wf_schema (Schema (assign_field_ids fs) pks recs).
Proof.
  intros Hnd (Hne&Hp&Hr). pose proof (assign_field_ids_names fs) as Hnames.
  destruct (assigned_top_ids fs) as (ids&Hids&Hidnd&Hpos).
  assert (Hfid : field_id <$> assign_field_ids fs = ids).
  { unfold field_id. rewrite (list_fmap_compose f_meta (default NULL_FIELD_ID)), Hids, <-list_fmap_compose. by apply list_fmap_id. }
  constructor; unfold s_names; cbn [s_fields s_pks s_recs]; rewrite ?Hnames; try done.
  - by rewrite Hfid.
  - rewrite <-Hfid, Forall_fmap in Hpos. exact Hpos.
  - intros n (f&Hf&<-&_)%Hp. by apply elem_of_list_fmap_1.
  - intros n (_&f&Hf&<-&_)%Hr. by apply elem_of_list_fmap_1.
  - intros n Hn Hn'. by apply Hr in Hn' as [? _].
  - intros f Hf Hfn. apply Hp in Hfn as (g&Hg&Hgn&Hk).
    apply elem_of_list_lookup in Hf as [i Hi].
    destruct (Forall2_lookup_l _ _ _ _ _ (assign_field_ids_bare fs) Hi) as (g'&Hg'&Hn&Hb).
    assert (g' = g) as ->.
    { apply elem_of_list_lookup in Hg as [j Hj].
      assert (i = j) as <-; [|by simplify_eq].
      eapply (NoDup_lookup (names_of fs)); [done| |]; unfold names_of; rewrite list_lookup_fmap.
      - rewrite Hg'. done.
      - rewrite Hj. cbn. congruence. }
    destruct (f_ty f) as [| | | | | | |[]| | | |], (f_ty g) as [| | | | | | |[]| | | |]; done.
Qed.
