(** Facts on directory catalogs. *)
From Verif.Spec Require Import Durable SchemaSpec Catalogs.
From Verif.Proofs Require Import SysInv Durable History Inv Txn World Wf PathFacts SchemaLaws Calls.

Lemma disk_run_app cwd tr loc c : disk_run cwd (tr ++ [(loc, c)]) = act cwd (disk_run cwd tr) loc c.
Proof. unfold disk_run. by rewrite foldl_app. Qed.
Lemma at_act cwd D loc c p :
  storage_at (act cwd D loc c) p = if decide (place cwd loc = p) then step (storage_at D p) c else storage_at D p.
Proof.
  unfold storage_at, act. cbv zeta. case_decide as H.
  - subst. by rewrite lookup_insert.
  - by rewrite lookup_insert_ne.
Qed.
Lemma at_empty p : storage_at ∅ p = init.
Proof. unfold storage_at. by rewrite lookup_empty. Qed.
Lemma allowed_reachable cwd tr p : allowed cwd tr → reachable (storage_at (disk_run cwd tr) p).
Proof.
  induction 1 as [|tr loc c _ IH Hok]; [rewrite at_empty; constructor|].
  rewrite disk_run_app, at_act. case_decide as H; [|done]. subst. by constructor.
Qed.
Lemma allowed_inv cwd tr x : allowed cwd (tr ++ [x]) → allowed cwd tr ∧ env_ok (storage_at (disk_run cwd tr) (place cwd x.1)) x.2.
Proof.
  remember (tr ++ [x]) as t eqn:E. destruct 1 as [|tr' loc c H Hok]; [by destruct tr|].
  apply app_inj_2 in E as [-> E]; [|done]. injection E as <-. done.
Qed.
Lemma allowed_history cwd before after p :
  allowed cwd (before ++ after) →
  allowed cwd before ∧ history env_ok (storage_at (disk_run cwd before) p) (storage_at (disk_run cwd (before ++ after)) p).
Proof.
  induction after as [|x after IH] using rev_ind; [rewrite app_nil_r; split; [done|constructor]|].
  rewrite app_assoc. intros [H Hok]%allowed_inv. destruct (IH H) as [Hb Hh]. split; [done|].
  destruct x as [loc c]. rewrite disk_run_app, at_act. case_decide as E; [|done]. subst. by constructor.
Qed.

Lemma entry_meta σ : reachable σ → is_Some (w_fs (y_world σ) !! PEntry) ↔ is_Some (stored_meta (w_fs (y_world σ))).
Proof.
  intros [He|[s Hs]]%reachable_inv.
  - rewrite (se_entry _ He). rewrite stored_meta_none by apply He. by split; intros [??].
  - destruct (wi_stored _ _ (si_world _ _ Hs)) as (p&m&Hst&_). rewrite (stored_meta_eq _ _ _ Hst).
    destruct Hst as [Hp _]. rewrite Hp. by split; eexists.
Qed.

(** A created dataset is there ever after, with the schema given. *)
Lemma created_stays cwd tr p fs pks recs :
  allowed cwd tr → created cwd tr p fs pks recs →
  ∃ q m, stored (w_fs (y_world (storage_at (disk_run cwd tr) p))) q m ∧ md_schema m = created_schema fs pks recs.
Proof.
  intros Hal (before & loc & hid & after & h & -> & Hp & Hc).
  change ((loc, CCreate hid fs pks recs) :: after) with ([(loc, CCreate hid fs pks recs)] ++ after) in *.
  rewrite app_assoc in Hal |- *. destruct (allowed_history _ _ _ p Hal) as [Hal1 Hh].
  apply allowed_inv in Hal1 as [Hal1 Hok]. cbn [fst snd] in Hok. rewrite Hp in Hok.
  pose proof (allowed_reachable cwd before p Hal1) as Hr.
  rewrite disk_run_app, at_act, decide_True in Hh by done.
  set (σ := storage_at (disk_run cwd before) p) in *.
  destruct (create_run fs pks recs (y_world σ)) as (w'&r&Hcr&Hres); [by apply reachable_bounded|].
  rewrite Hcr in Hc. cbn in Hc. subst r. inversion Hres as [| | |w0 ns u Hv _ Hno Hst Hu Hb Hsto]; subst.
  destruct (reachable_inv σ Hr) as [He|[s Hs]].
  2:{ destruct (wi_stored _ _ (si_world _ _ Hs)) as (q&m&[Hq _]&_). congruence. }
  destruct (step_sempty σ _ He Hok) as [[He'|[s Hs]] _].
  { apply se_entry in He'. cbn [step] in He'. rewrite Hcr in He'. cbn in He'. destruct Hsto as [Hq _]. congruence. }
  assert (s = created_schema fs pks recs) as ->.
  { destruct (wi_stored _ _ (si_world _ _ Hs)) as (q&m&[Hq Hm]&Hwf). pose proof (wm_schema _ _ _ Hwf) as Hsc.
    cbn [step] in Hq, Hm. rewrite Hcr in Hq, Hm. cbn in Hq, Hm. destruct Hsto as [Hq2 Hm2].
    rewrite Hq2 in Hq. injection Hq as <-. rewrite Hm2 in Hm. injection Hm as <-. by rewrite <-Hsc. }
  destruct (history_sinv _ _ _ Hs Hh) as [Hs' _].
  destruct (wi_stored _ _ (si_world _ _ Hs')) as (q&m&Hst'&Hwf). exists q, m. split; [done|]. apply (wm_schema _ _ _ Hwf).
Qed.
Lemma created_entry cwd tr p fs pks recs :
  allowed cwd tr → created cwd tr p fs pks recs → is_dataset (disk_run cwd tr) p = true.
Proof.
  intros Hal Hc. destruct (created_stays _ _ _ _ _ _ Hal Hc) as (q & m & [Hq _] & _).
  apply bool_decide_eq_true. rewrite Hq. by eexists.
Qed.

(** The entry point appears only when a create call writes it. *)
Lemma entry_appears σ c :
  sempty σ → env_ok σ c → dies_creating c = false → is_Some (w_fs (y_world (step σ c)) !! PEntry) →
  ∃ hid fs pks recs h, c = CCreate hid fs pks recs ∧ (create fs pks recs (y_world σ)).2 = Ok h.
Proof.
  intros He Hok Hd. pose proof He as [Hb Hent Hhd Htx].
  assert (∀ c, ¬ (∃ hid fs pks recs, c = CCreate hid fs pks recs) → env_ok σ c → dies_creating c = false →
    w_fs (y_world (step σ c)) !! PEntry = None) as Hother.
  { clear c Hok Hd. intros c. induction c as [hid fs pks recs|hid|hid|hid d|hid E fo o|hid tid|tid E fo o|tid|dt|name f|c IH k];
      cbn [step env_ok]; intros Hn Hok Hd.
    - exfalso. apply Hn. by repeat eexists.
    - assert (load (y_world σ) = (y_world σ, Err (EOther "FileNotFoundError"))) as ->; [|done].
      unfold load, read_entry, read_file, bind. cbn. by rewrite Hent.
    - unfold with_handle. by rewrite Hhd, lookup_empty.
    - unfold with_handle. by rewrite Hhd, lookup_empty.
    - unfold with_handle. by rewrite Hhd, lookup_empty.
    - unfold with_handle. by rewrite Hhd, lookup_empty.
    - by rewrite Htx, lookup_empty.
    - by rewrite Htx, lookup_empty.
    - done.
    - destruct (w_fs (y_world σ) !! PExt name); [done|]. destruct f; try done; cbn; by rewrite lookup_insert_ne.
    - destruct (step_sempty σ c He Hok) as [_ Hg].
      change (w_fs (cut k (y_world σ) (y_world (step σ c))) !! PEntry = None).
      destruct (gstep_cut k _ _ Hg) as [Hw|Hw]; [by rewrite (wle_entry _ _ _ Hw)|]. rewrite Hw.
      apply IH; [|done|by destruct c]. intros (?&?&?&?&->). done. }
  intros Hs. destruct c as [hid fs pks recs|hid|hid|hid d|hid E fo o|hid tid|tid E fo o|tid|dt|name f|c k];
    try (rewrite Hother in Hs; [by destruct Hs|by intros (?&?&?&?&?)|done|done]).
  exists hid, fs, pks, recs. cbn [step] in Hs.
  destruct (create_run fs pks recs (y_world σ) Hb) as (w'&r&Hcr&Hres). rewrite Hcr in *. cbn.
  destruct Hres as [e _|e _ _|w' ns _ _ [??] _|w' ns u Hv _ _ Hst Hu Hb' Hsto]; cbn in Hs;
    [rewrite Hent in Hs; by destruct Hs|rewrite Hent in Hs; by destruct Hs|congruence|]. by eexists.
Qed.
Lemma entry_created cwd tr p :
  allowed cwd tr → creates_finish tr → is_dataset (disk_run cwd tr) p = true → ∃ fs pks recs, created cwd tr p fs pks recs.
Proof.
  intros Hal. induction Hal as [|tr loc c Hal IH Hok]; intros Hf.
  - unfold is_dataset. rewrite at_empty. by intros [? ?]%bool_decide_eq_true.
  - apply Forall_app in Hf as [Hf Hc]. apply (proj1 (Forall_singleton _ _)) in Hc. cbn [snd] in Hc.
    assert (∀ fs pks recs, created cwd tr p fs pks recs → created cwd (tr ++ [(loc, c)]) p fs pks recs) as Hmore.
    { intros fs pks recs (b & l & hid & a & h & -> & Hp & Hcr). exists b, l, hid, (a ++ [(loc, c)]), h.
      split_and!; [|done|done]. by rewrite <-app_assoc. }
    unfold is_dataset in *. rewrite disk_run_app, at_act. case_decide as E.
    2:{ intros Hd. destruct (IH Hf Hd) as (fs & pks & recs & Hcr). eauto. }
    intros Hd%bool_decide_eq_true. set (σ := storage_at (disk_run cwd tr) p) in *. rewrite E in Hok. fold σ in Hok.
    destruct (reachable_inv σ (allowed_reachable cwd tr p Hal)) as [He|[s Hs]].
    + destruct (entry_appears σ c He Hok Hc Hd) as (hid & fs & pks & recs & h & -> & Hcr).
      exists fs, pks, recs. by exists tr, loc, hid, [], h.
    + destruct (wi_stored _ _ (si_world _ _ Hs)) as (q&m&[Hq _]&_).
      destruct IH as (fs & pks & recs & Hcr); [done| |eauto]. apply bool_decide_eq_true. rewrite Hq. by eexists.
Qed.

Lemma place_name cwd catalog n : plain_name n → place cwd (dataset_location catalog n) = place cwd catalog ++ [n].
Proof.
  intros Hn. unfold dataset_location. rewrite place_join by (by apply starts_noslash, plain_noslash).
  unfold walk. rewrite split_plain by (by apply plain_noslash). apply walk_plain. by apply Forall_singleton.
Qed.
Lemma in_datasets cwd catalog entries D n l :
  lists_dir cwd catalog D entries →
  (n, l) ∈ datasets cwd catalog entries D ↔ plain_name n ∧ l = dataset_location catalog n ∧ is_dataset D (place cwd (dataset_location catalog n)) = true.
Proof.
  intros (Hpl & _ & Hall). unfold datasets. rewrite elem_of_list_fmap. split.
  - intros (n' & [= -> ->] & [Hd Hin]%elem_of_list_filter). split; [|done]. rewrite Forall_forall in Hpl. by apply Hpl.
  - intros (Hn & -> & Hd). exists n. split; [done|]. apply elem_of_list_filter. split; [done|]. apply Hall; [done|].
    by rewrite <-place_name.
Qed.
Lemma listed_iff cwd catalog tr entries n :
  allowed cwd tr → creates_finish tr → lists_dir cwd catalog (disk_run cwd tr) entries →
  n ∈ (datasets cwd catalog entries (disk_run cwd tr)).*1
  ↔ plain_name n ∧ ∃ fs pks recs, created cwd tr (place cwd (dataset_location catalog n)) fs pks recs.
Proof.
  intros Hal Hf Hl. rewrite elem_of_list_fmap. split.
  - intros ([n' l] & -> & (Hn & -> & Hd)%(in_datasets _ _ _ _ _ _ Hl)). split; [done|]. by apply entry_created.
  - intros (Hn & fs & pks & recs & Hc). exists (n, dataset_location catalog n). split; [done|].
    apply (in_datasets _ _ _ _ _ _ Hl). split_and!; [done|done|]. by eapply created_entry.
Qed.
Lemma created_listed cwd catalog tr entries n fs pks recs :
  allowed cwd tr → lists_dir cwd catalog (disk_run cwd tr) entries → plain_name n →
  created cwd tr (place cwd (dataset_location catalog n)) fs pks recs →
  (n, dataset_location catalog n) ∈ datasets cwd catalog entries (disk_run cwd tr).
Proof.
  intros Hal Hl Hn Hc. apply (in_datasets _ _ _ _ _ _ Hl). split_and!; [done|done|]. by eapply created_entry.
Qed.
Lemma listed_once cwd catalog entries D :
  lists_dir cwd catalog D entries → NoDup (datasets cwd catalog entries D).*1.
Proof.
  intros (_ & Hnd & _). unfold datasets. rewrite <-list_fmap_compose. rewrite (list_fmap_ext _ id).
  - rewrite list_fmap_id. by apply NoDup_filter.
  - done.
Qed.

Lemma load_created cwd catalog tr n fs pks recs :
  allowed cwd tr → created cwd tr (place cwd (dataset_location catalog n)) fs pks recs →
  ∃ h, dataset cwd catalog n (disk_run cwd tr) = Ok h
    ∧ stored_meta (w_fs (y_world (storage_at (disk_run cwd tr) (place cwd (dataset_location catalog n))))) = Some (h_meta h)
    ∧ Forall2 (fun f g => f_name f = f_name g ∧ bare_ty (f_ty f) = bare_ty (f_ty g)) (s_fields (md_schema (h_meta h))) fs
    ∧ s_pks (md_schema (h_meta h)) = pks ∧ s_recs (md_schema (h_meta h)) = recs.
Proof.
  intros Hal Hc. destruct (created_stays _ _ _ _ _ _ Hal Hc) as (q & m & Hst & Hsc).
  exists (init_handle (MShort q) m MAIN). unfold dataset. rewrite (load_run q m) by done. cbn [snd h_meta init_handle].
  split; [done|]. split; [by apply stored_meta_eq in Hst|]. rewrite Hsc. split; [apply assign_field_ids_bare|done].
Qed.
Lemma load_missing cwd catalog tr n :
  allowed cwd tr → creates_finish tr →
  dataset cwd catalog n (disk_run cwd tr) = Err (EUser UStorageNotFound)
  ↔ ¬ ∃ fs pks recs, created cwd tr (place cwd (dataset_location catalog n)) fs pks recs.
Proof.
  intros Hal Hf. split.
  - intros Hd (fs & pks & recs & Hc). destruct (load_created _ _ _ _ _ _ _ Hal Hc) as (h & Hh & _). congruence.
  - intros Hn. unfold dataset. set (p := place _ _) in *.
    destruct (w_fs (y_world (storage_at (disk_run cwd tr) p)) !! PEntry) eqn:E.
    + exfalso. apply Hn, entry_created; [done|done|]. apply bool_decide_eq_true. rewrite E. by eexists.
    + unfold load, read_entry, read_file, bind. by rewrite E.
Qed.
Lemma recreate cwd catalog tr n hid fs pks recs fs0 pks0 recs0 :
  allowed cwd tr → created cwd tr (place cwd (dataset_location catalog n)) fs0 pks0 recs0 → NoDup (names_of fs) →
  (∃ e, (create_dataset cwd catalog n (disk_run cwd tr) hid fs pks recs).2 = Err e)
  ∧ (valid_schema fs pks recs → forallb (fun f => storable (f_ty f)) fs = true →
     (create_dataset cwd catalog n (disk_run cwd tr) hid fs pks recs).2 = Err (EUser UStorageExists))
  ∧ ∀ p, same_storage (storage_at (create_dataset cwd catalog n (disk_run cwd tr) hid fs pks recs).1 p) (storage_at (disk_run cwd tr) p).
Proof.
  intros Hal Hc Hnd. destruct (created_stays _ _ _ _ _ _ Hal Hc) as (q & m & Hst & _).
  destruct (create_exclusive (storage_at (disk_run cwd tr) (place cwd (dataset_location catalog n))) fs pks recs) as (H1 & H2 & H3);
    [by apply allowed_reachable|done|apply stored_meta_eq in Hst; by rewrite Hst|].
  cbn [create_dataset fst snd]. split_and!; [done|done|]. intros p. rewrite at_act. case_decide as E; [|split; done].
  rewrite <-E. apply H3.
Qed.
(** Calls on one storage leave the others alone. *)
Lemma others_untouched cwd D loc c p : place cwd loc ≠ p → storage_at (act cwd D loc c) p = storage_at D p.
Proof. intros H. by rewrite at_act, decide_False. Qed.
