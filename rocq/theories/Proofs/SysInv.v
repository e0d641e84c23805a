(** The invariant of all reachable systems. *)
From Verif.Model Require Import System.
From Verif.Spec Require Import Logical SchemaSpec.
From Verif.Proofs Require Import Lib World Resolve AppendSpec SchemaFacts ReadSpec Wf OpSpec Inv FileSet Ops Bodies Txn SchemaLaws.

(** * create *)
Definition first_meta (s : schema) (t : Z) : metadata :=
  Metadata s 0 {[ 0%Z := Snapshot 0 None t [] [] stats0 None ]} ∅.
Lemma first_meta_wf s fs t : wf_meta s fs (first_meta s t).
Proof.
  constructor; cbn; try done.
  - intros i sn [<- <-]%lookup_singleton_Some. unfold wf_snap. cbn. split_and!; try done; constructor.
Qed.
Definition created_schema (fs : list afield) (pks recs : list string) : schema :=
  Schema (assign_field_ids fs) pks recs.
(** Creating a storage: refused, or the first metadata is stored. *)
Inductive create_result (fs : list afield) (pks recs : list string) (w : world) : world → res handle → Prop :=
| CrInvalid e : validate_logical_schema fs pks recs = Err e → create_result fs pks recs w w (Err e)
| CrUnsupported e : validate_logical_schema fs pks recs = Ok tt →
    substrait_fields (assign_field_ids fs) = Err e → create_result fs pks recs w w (Err e)
| CrExists w' ns : validate_logical_schema fs pks recs = Ok tt →
    substrait_fields (assign_field_ids fs) = Ok ns →
    is_Some (w_fs w !! PEntry) → wnew w w' → create_result fs pks recs w w' (Err (EUser UStorageExists))
| CrCreated w' ns u : validate_logical_schema fs pks recs = Ok tt →
    substrait_fields (assign_field_ids fs) = Ok ns →
    w_fs w !! PEntry = None → wstep w w' → (w_next w ≤ u)%N → bounded w' →
    stored (w_fs w') (PGen KMeta u) (first_meta (created_schema fs pks recs) (w_clock w)) →
    create_result fs pks recs w w'
      (Ok (Handle (first_meta (created_schema fs pks recs) (w_clock w)) (MFull (PGen KMeta u)) MAIN 0)).
Lemma write_metadata_exists w u m :
  bounded w → (u < w_next w)%N → is_Some (w_fs w !! PEntry) →
  ∃ w', write_metadata (PGen KMeta u) m true w = (w', Err (EUser UFileExists)) ∧ wle u w w'.
Proof.
  intros Hb Hu He. destruct (write_proto_wnew u KMeta u (FMeta m) w Hb) as (w0&Hr&Hw0&Hfs0&Hn0); [lia..|].
  exists w0. split; [|done]. unfold write_metadata. erewrite bind_run; [|exact Hr].
  unfold write_proto, bind. cbn. rewrite (wle_entry _ _ _ Hw0). by rewrite bool_decide_eq_true_2.
Qed.
Lemma write_metadata_new w u m :
  bounded w → (u < w_next w)%N → w_fs w !! PEntry = None →
  write_metadata (PGen KMeta u) m true w = write_metadata (PGen KMeta u) m false w.
Proof.
  intros Hb Hu He. destruct (write_proto_wnew u KMeta u (FMeta m) w Hb) as (w0&Hr&Hw0&Hfs0&Hn0); [lia..|].
  unfold write_metadata. erewrite !bind_run by exact Hr. 
  unfold write_proto, bind. cbn. rewrite (wle_entry _ _ _ Hw0), He. done.
Qed.
Lemma create_run fs pks recs w :
  bounded w → ∃ w' r, create fs pks recs w = (w', r) ∧ create_result fs pks recs w w' r.
Proof.
  intros Hb. unfold create. rewrite lift_bind.
  destruct (validate_logical_schema fs pks recs) as [[]|e] eqn:Hv; [|by do 2 eexists; split; [|by constructor]].
  unfold now. unfold bind at 1, gets. rewrite lift_bind.
  destruct (substrait_fields (assign_field_ids fs)) as [ns|e] eqn:Hs; [|by do 2 eexists; split; [|by apply CrUnsupported]].
  erewrite bind_run; [|reflexivity].
  assert (Hb1 : bounded (bump_world w)) by exact (wle_bounded (w_next w) _ _ Hb (wle_bump (w_next w) w)).
  assert (Hu : (w_next w < w_next (bump_world w))%N) by (cbn; lia).
  change (World (w_fs w) (w_next w + 1) (w_clock w) (w_log w)) with (bump_world w).
  destruct (w_fs w !! PEntry) as [f|] eqn:He.
  - destruct (write_metadata_exists (bump_world w) (w_next w)
      (first_meta (created_schema fs pks recs) (w_clock w)) Hb1 Hu) as (w'&Hr&Hw'); [cbn; by rewrite He|].
    unfold first_meta, created_schema in Hr. rewrite Hr. do 2 eexists. split; [done|].
    eapply CrExists; try done. eapply wle_trans; [apply wle_bump|exact Hw'].
  - rewrite write_metadata_new by done.
    destruct (write_metadata_run (bump_world w) (w_next w) (first_meta (created_schema fs pks recs) (w_clock w)) Hb1 Hu)
      as (w1&w'&Hr&Hw1&Hfs&v&Hv1&Hv2&Ht&Hm&->).
    unfold first_meta, created_schema in Hr. rewrite Hr. do 2 eexists. split; [done|].
    assert (Hst : wstep w (entry_move w1 v)).
    { assert (Hnew : wnew w w1) by (eapply wle_trans; [exact (wle_bump (w_next w) w)|]; exact Hw1).
      exact (WsEntry _ _ w1 v _ _ Hnew Hv1 Hv2 Ht Hm eq_refl). }
    assert (Hmax : max_snapshot_id (first_meta (created_schema fs pks recs) (w_clock w)) = 0%Z).
    { unfold max_snapshot_id. cbn. by rewrite map_fold_empty. }
    unfold init_handle. unfold first_meta, created_schema in Hmax. rewrite Hmax.
    eapply (CrCreated _ _ _ _ _ ns (w_next w)); [exact Hv|exact Hs|exact He|exact Hst|lia|exact (wstep_bounded _ _ Hb Hst)|].
    rewrite Hfs. split; [by rewrite lookup_insert|]. rewrite lookup_insert_ne by done. by rewrite lookup_insert.
Qed.

(** * World steps of calls *)
Definition tick (dt : Z) (w : world) : world := World (w_fs w) (w_next w) (w_clock w + dt) (w_log w).
Definition add_ext (n : string) (f : file) (w : world) : world :=
  World (<[PExt n := f]> (w_fs w)) (w_next w) (w_clock w) (w_log w).
Inductive gstep (w w' : world) : Prop :=
| GsStep : wstep w w' → gstep w w'
| GsTick dt : (0 ≤ dt)%Z → w' = tick dt w → gstep w w'
| GsExt n f : w_fs w !! PExt n = None → (∀ q, f ≠ FEntry q) → w' = add_ext n f w → gstep w w'.
Lemma gstep_refl w : gstep w w.
Proof. constructor. constructor. apply wnew_refl. Qed.
Lemma gstep_bounded w w' : bounded w → gstep w w' → bounded w'.
Proof.
  intros Hb [Hs|dt _ ->|n f _ _ ->]; [by eapply wstep_bounded|done|].
  intros p g Hg. cbn in Hg. apply lookup_insert_Some in Hg as [[<- _]|[_ Hg]]; [done|]. by eapply Hb.
Qed.
Lemma gstep_keeps w w' : bounded w → entry_fine w → gstep w w' → keeps (w_fs w) (w_fs w').
Proof.
  intros Hb He [Hs|dt _ ->|n f Hn _ ->]; [by apply wstep_keeps|apply keeps_refl|].
  intros p g Hg _. cbn. rewrite lookup_insert_ne; [done|]. intros <-. congruence.
Qed.
Lemma gstep_next w w' : gstep w w' → (w_next w ≤ w_next w')%N.
Proof. intros [Hs|dt _ ->|n f Hn _ ->]; [by apply wstep_next|cbn; lia..]. Qed.

(** What is left of a step when only its first [k] writes happened. *)
Definition cut (k : nat) (w w' : world) : world :=
  let evs := take k (drop (length (w_log w)) (w_log w')) in
  World (replay (w_fs w) evs) (w_next w') (w_clock w') (w_log w ++ evs).
Lemma wstep_cut k w w' : wstep w w' → wnew w (cut k w w') ∨ cut k w w' = w'.
Proof.
  intros [Hw|w1 u q m Hw Hu1 Hu2 Hq Hm ->].
  - left. destruct Hw as (Hn&Hc&evs&Hl&Hf&Ha). unfold cut. rewrite Hl, drop_app.
    split; [done|]. split; [done|]. exists (take k evs). split_and!; try done. by apply Forall_take.
  - destruct Hw as (Hn&Hc&evs&Hl&Hf&Ha). unfold cut. cbn [entry_move w_log w_next w_clock w_fs].
    rewrite Hl, <-app_assoc, drop_app. destruct (decide (k ≤ length evs)) as [Hk|Hk].
    + left. rewrite take_app_le by done. split; [done|]. split; [done|]. exists (take k evs). cbn.
      split_and!; try done. by apply Forall_take.
    + right. rewrite take_ge by (rewrite app_length; cbn; lia). unfold entry_move. rewrite Hl, Hf, app_assoc.
      f_equal. by rewrite replay_app.
Qed.
Lemma gstep_cut k w w' : gstep w w' → wnew w (cut k w w') ∨ cut k w w' = w'.
Proof.
  intros [Hs|dt _ ->|n f _ _ ->]; [by apply wstep_cut| |].
  - right. unfold cut, tick. cbn. by rewrite drop_ge, take_nil, app_nil_r by lia.
  - left. unfold cut, add_ext. cbn. rewrite drop_ge by lia. rewrite take_nil, app_nil_r. cbn.
    destruct w. apply wnew_refl.
Qed.

(** * The invariant *)
Record sinv (s : schema) (σ : sys) : Prop := {
  si_world : winv s (y_world σ);
  si_handles : ∀ hid h, y_handles σ !! hid = Some h → wf_handle s (y_world σ) h;
  si_txns : ∀ tid x p, y_txns σ !! tid = Some x → pe_patch x = Some p → wf_opatch s (w_fs (y_world σ)) p }.
Record sempty (σ : sys) : Prop := {
  se_bounded : bounded (y_world σ);
  se_entry : w_fs (y_world σ) !! PEntry = None;
  se_handles : y_handles σ = ∅;
  se_txns : y_txns σ = ∅ }.

Lemma gstep_entry_fine w w' : entry_fine w → gstep w w' → entry_fine w'.
Proof.
  intros He [[Hw|w1 u q m Hw Hu1 Hu2 Hq Hm ->]|dt _ ->|n f Hn _ ->]; unfold entry_fine in *; cbn.
  - by rewrite (wle_entry _ _ _ Hw).
  - rewrite Hq. rewrite lookup_insert. intros f [= <-]. eauto.
  - done.
  - by rewrite lookup_insert_ne.
Qed.
Lemma winv_gstep_cut s w w' W :
  winv s w → winv s w' → (wnew w W ∨ W = w') → winv s W.
Proof. intros Hi Hi' [Hw| ->]; [exact (winv_wnew _ _ _ Hi Hw)|done]. Qed.

(** Handles and patches after the world moved. *)
Lemma sinv_move s σ w' :
  sinv s σ → winv s w' → keeps (w_fs (y_world σ)) (w_fs w') → sinv s (Sys w' (y_handles σ) (y_txns σ)).
Proof.
  intros [Hi Hh Ht] Hi' Hk. constructor; cbn; [done| |].
  - intros hid h Hl. eapply wf_handle_keeps; eauto.
  - intros tid x p Hl Hp. eapply wf_opatch_keeps; eauto.
Qed.
Lemma sinv_set_handle s σ hid h :
  sinv s σ → wf_handle s (y_world σ) h → sinv s (Sys (y_world σ) (<[hid := h]> (y_handles σ)) (y_txns σ)).
Proof.
  intros [Hi Hh Ht] Hwf. constructor; cbn; [done| |done].
  intros hid' h' [[<- <-]|[_ ?]]%lookup_insert_Some; [done|eauto].
Qed.
Lemma sinv_set_txn s σ tid x :
  sinv s σ → (∀ p, pe_patch x = Some p → wf_opatch s (w_fs (y_world σ)) p) →
  sinv s (Sys (y_world σ) (y_handles σ) (<[tid := x]> (y_txns σ))).
Proof.
  intros [Hi Hh Ht] Hx. constructor; cbn; [done|done|].
  intros tid' x' p [[<- <-]|[_ ?]]%lookup_insert_Some; eauto.
Qed.
Lemma sinv_del_txn s σ tid : sinv s σ → sinv s (Sys (y_world σ) (y_handles σ) (delete tid (y_txns σ))).
Proof.
  intros [Hi Hh Ht]. constructor; cbn; [done|done|]. intros tid' x' p [_ ?]%lookup_delete_Some; eauto.
Qed.

(** Calling a method of a handle. *)
Lemma with_handle_inv {A} s σ hid (m : H A) :
  sinv s σ →
  (∀ h, y_handles σ !! hid = Some h → wf_handle s (y_world σ) h →
     ∃ h' w' r, m (h, y_world σ) = ((h', w'), r) ∧ wstep (y_world σ) w' ∧ winv s w' ∧ wf_handle s w' h') →
  sinv s (with_handle σ hid m).1 ∧ wstep (y_world σ) (y_world (with_handle σ hid m).1)
  ∧ y_txns (with_handle σ hid m).1 = y_txns σ.
Proof.
  intros Hs Hm. unfold with_handle. destruct (y_handles σ !! hid) as [h|] eqn:Hh.
  2:{ split_and!; try done. constructor. apply wnew_refl. }
  destruct (Hm h eq_refl) as (h'&w'&r&->&Hst&Hi&Hwf); [by eapply si_handles|]. cbn. split_and!; try done.
  apply (sinv_set_handle s (Sys w' (y_handles σ) (y_txns σ))); [|done]. apply sinv_move; try done.
  apply wstep_keeps; [apply Hs|eapply winv_fine, Hs|done].
Qed.

Lemma stored_exists s w : winv s w → ∃ p m, stored (w_fs w) p m ∧ wf_meta s (w_fs w) m.
Proof. apply wi_stored. Qed.
Lemma wstep_refl w : wstep w w.
Proof. constructor. apply wnew_refl. Qed.

Lemma reload_inv s h w :
  winv s w → wf_handle s w h →
  ∃ h' w' r, reload (h, w) = ((h', w'), r) ∧ wstep w w' ∧ winv s w' ∧ wf_handle s w' h'.
Proof.
  intros Hi Hh. destruct (wi_stored _ _ Hi) as (p&m&Hst&Hm). rewrite (reload_run p m) by done.
  do 3 eexists. split; [done|]. split_and!; [apply wstep_refl|done|]. by apply (sync_spec s w p m h).
Qed.
Lemma txn_begin_inv s h w :
  winv s w → wf_handle s w h →
  ∃ h' w' r, txn_begin (h, w) = ((h', w'), r) ∧ wstep w w' ∧ winv s w' ∧ wf_handle s w' h'.
Proof.
  intros Hi Hh. destruct (wi_stored _ _ Hi) as (p&m&Hst&Hm).
  destruct (sync_spec s w p m h Hst Hm Hh) as (Hh0&Hm0&_). rewrite (txn_begin_run p m) by done.
  do 3 eexists. split; [done|]. split_and!; [apply wstep_refl|done..].
Qed.
Lemma run_op_inv E fo s o h w :
  winv s w → wf_handle s w h → op_ok s (w_fs w) o →
  ∃ h' w' r, run_op E fo o (h, w) = ((h', w'), r) ∧ wstep w w' ∧ winv s w' ∧ wf_handle s w' h'.
Proof.
  intros Hi Hh Hok. destruct (wi_stored _ _ Hi) as (p&m&Hst&Hm).
  destruct (run_op_run E fo s o h w p m Hi Hh Hok Hst Hm) as (h'&w'&r&Hr&Ht). exists h', w', r. split; [done|].
  eapply txn_result_step; [done| |done]. by apply (sync_spec s w p m h).
Qed.
Lemma op_body_inv E fo s o h w :
  winv s w → wf_handle s w h → op_ok s (w_fs w) o →
  ∃ h' w' r, op_body E fo o (h, w) = ((h', w'), r) ∧ wstep w w' ∧ winv s w' ∧ wf_handle s w' h'.
Proof.
  intros Hi Hh Hok. destruct (op_body_run E fo s o h w Hi Hh Hok) as (w'&r&Hr&Hw&_).
  assert (wstep w w') by by constructor.
  exists h, w', r. split_and!; try done; [by eapply winv_wnew|by eapply wf_handle_wstep].
Qed.
Lemma catch_commit_inv s x op h w :
  winv s w → wf_handle s w h → wf_opatch s (w_fs w) op →
  ∃ h' w' r, catch_job (txn_commit x op) (h, w) = ((h', w'), r) ∧ wstep w w' ∧ winv s w' ∧ wf_handle s w' h'.
Proof.
  intros Hi Hh Hop. destruct (wi_stored _ _ Hi) as (p&m&Hst&Hm).
  destruct (sync_spec s w p m h Hst Hm Hh) as (Hh0&Hm0&_).
  destruct (txn_commit_run s x op h w p m Hi Hh Hop Hst Hm) as (h'&w'&r&Hr&Hc).
  exists h', w', (catch r). split; [by apply catch_job_run|].
  destruct Hc as [Hn|j Hj Hne|Hj ->|q w' e Hj -> Hw' He|q h' w' Hj -> Hcm]; try (by split_and!; [apply wstep_refl|..]).
  - assert (wstep w w') by by constructor. split_and!; [done|by eapply winv_wnew|].
    apply bump_max_wf. by eapply wf_handle_wstep.
  - split_and!; apply Hcm.
Qed.

Lemma create_result_sinv s σ hid fs pks recs :
  sinv s σ → sinv s (new_handle σ hid (create fs pks recs (y_world σ)))
    ∧ wstep (y_world σ) (y_world (new_handle σ hid (create fs pks recs (y_world σ)))).
Proof.
  intros Hs. pose proof (si_world _ _ Hs) as Hi.
  destruct (create_run fs pks recs (y_world σ)) as (w'&r&->&Hc); [apply Hi|].
  destruct Hc as [e _|e _ _|w' ns _ _ _ Hw|w' ns u _ _ He]; cbn.
  - split; [by destruct σ|apply wstep_refl].
  - split; [by destruct σ|apply wstep_refl].
  - split; [|by constructor]. apply sinv_move; [done|by eapply winv_wnew|].
    apply wnew_keeps; [apply Hi|done].
  - exfalso. destruct (wi_stored _ _ Hi) as (p&m&[Hp _]&_). congruence.
Qed.

Lemma step_sinv s σ c :
  sinv s σ → env_ok σ c → sinv s (step σ c) ∧ gstep (y_world σ) (y_world (step σ c)).
Proof.
  intros Hs. pose proof (si_world _ _ Hs) as Hi.
  induction c as [hid fs pks recs|hid|hid|hid d|hid E fo o|hid tid|tid E fo o|tid|dt|name f|c IH k]; cbn [step env_ok]; intros Hok.
  - destruct (create_result_sinv s σ hid fs pks recs Hs). split; [done|by constructor].
  - destruct (wi_stored _ _ Hi) as (p&m&Hst&Hm). rewrite (load_run p m) by done. cbn. split; [|apply gstep_refl].
    apply sinv_set_handle; [done|]. apply init_handle_wf; [done|apply Hst].
  - destruct (with_handle_inv s σ hid reload Hs) as (?&?&_); [|split; [done|by constructor]].
    intros h _ Hh. by apply reload_inv.
  - destruct (with_handle_inv s σ hid (run_edit d) Hs) as (?&?&_); [|split; [done|by constructor]].
    intros h _ Hh. by apply run_edit_step.
  - destruct (with_handle_inv s σ hid (run_op E fo o) Hs) as (?&?&_); [|split; [done|by constructor]].
    intros h Hl Hh. apply run_op_inv; [done..|]. rewrite <-(wm_schema _ _ _ (proj1 Hh)). by apply Hok.
  - destruct (with_handle_inv s σ hid txn_begin Hs) as (Hs'&Hst&Htx).
    { intros h Hl Hh. by apply txn_begin_inv. }
    destruct (with_handle σ hid txn_begin) as [σ' [[x|]|]]; cbn in *; try (split; [done|by constructor]).
    split; [|by constructor]. apply sinv_set_txn; [done|]. done.
  - destruct (y_txns σ !! tid) as [[hid x [p|]]|] eqn:Htid; try (split; [done|apply gstep_refl]).
    assert (Hb : ∀ h, y_handles σ !! hid = Some h → wf_handle s (y_world σ) h → op_ok s (w_fs (y_world σ)) o).
    { intros h Hl Hh. rewrite <-(wm_schema _ _ _ (proj1 Hh)). by eapply Hok. }
    destruct (with_handle_inv s σ hid (op_body E fo o) Hs) as (Hs'&Hst&Htx).
    { intros h Hl Hh. apply op_body_inv; eauto. }
    assert (Hp : ∀ σ' p, with_handle σ hid (op_body E fo o) = (σ', Some (Ok p)) → wf_opatch s (w_fs (y_world σ')) p).
    { unfold with_handle. destruct (y_handles σ !! hid) as [h|] eqn:Hl; [|done]. intros σ' p.
      pose proof (si_handles _ _ Hs _ _ Hl) as Hh.
      destruct (op_body_run E fo s o h (y_world σ) Hi Hh (Hb h eq_refl Hh)) as (w'&r&->&_&Hr).
      intros [= <- ->]. cbn. apply Hr. }
    destruct (with_handle σ hid (op_body E fo o)) as [σ' [[p|]|]]; cbn in *.
    + split; [|by constructor]. apply sinv_set_txn; [done|]. intros p' [= <-]. by apply Hp.
    + split; [|by constructor]. by apply sinv_del_txn.
    + split; [|by constructor]. by apply sinv_del_txn.
  - destruct (y_txns σ !! tid) as [[hid x [p|]]|] eqn:Htid; try (split; [done|apply gstep_refl]).
    destruct (with_handle_inv s σ hid (catch_job (txn_commit x p)) Hs) as (Hs'&Hst&Htx).
    { intros h Hl Hh. apply catch_commit_inv; [done..|]. by eapply (si_txns _ _ Hs). }
    split; [by apply sinv_del_txn|by constructor].
  - assert (Hg : gstep (y_world σ) (tick dt (y_world σ))) by by eapply GsTick. split; [|done].
    apply (sinv_move s σ (tick dt (y_world σ))); [done| |apply keeps_refl].
    destruct Hi. by constructor.
  - destruct (w_fs (y_world σ) !! PExt name) eqn:Hn; [split; [done|apply gstep_refl]|].
    assert (Hcase : (∀ q, f ≠ FEntry q) → sinv s (Sys (add_ext name f (y_world σ)) (y_handles σ) (y_txns σ))
              ∧ gstep (y_world σ) (add_ext name f (y_world σ))).
    { intros Hf. assert (Hg : gstep (y_world σ) (add_ext name f (y_world σ))) by by eapply GsExt. split; [|done].
      assert (Hk : keeps (w_fs (y_world σ)) (w_fs (add_ext name f (y_world σ)))).
      { eapply gstep_keeps; [apply Hi|by eapply winv_fine|done]. }
      apply sinv_move; try done. destruct Hi as [Hb Hsc (p&m&[Hp Hm]&Hwf)]. constructor; [by eapply gstep_bounded|done|].
      exists p, m. split; [split|by eapply wf_meta_keeps].
      - cbn. by rewrite lookup_insert_ne.
      - by apply Hk. }
    destruct f; try (split; [done|apply gstep_refl]); by apply Hcase.
  - destruct (IH Hok) as [IHs IHg]. fold (cut k (y_world σ) (y_world (step σ c))).
    destruct (gstep_cut k _ _ IHg) as [Hw| ->].
    + split; [|by constructor; constructor]. apply sinv_move; [done|by eapply winv_wnew|].
      apply wnew_keeps; [apply Hi|done].
    + split; [|done]. apply sinv_move; [done|apply IHs|]. eapply gstep_keeps; [apply Hi|by eapply winv_fine|done].
Qed.

Lemma step_sempty σ c :
  sempty σ → env_ok σ c →
  (sempty (step σ c) ∨ ∃ s, sinv s (step σ c)) ∧ gstep (y_world σ) (y_world (step σ c)).
Proof.
  intros Hs. pose proof Hs as [Hb He Hh Ht].
  induction c as [hid fs pks recs|hid|hid|hid d|hid E fo o|hid tid|tid E fo o|tid|dt|name f|c IH k]; cbn [step env_ok]; intros Hok.
  - destruct (create_run fs pks recs (y_world σ) Hb) as (w'&r&->&Hc).
    destruct Hc as [e _|e _ _|w' ns _ _ [??] _|w' ns u Hv _ _ Hst Hu Hb' Hsto]; cbn.
    + split; [|apply gstep_refl]. left. by destruct σ.
    + split; [|apply gstep_refl]. left. by destruct σ.
    + congruence.
    + split; [|by constructor]. right. exists (created_schema fs pks recs).
      assert (Hsch : wf_schema (created_schema fs pks recs)).
      { apply valid_wf; [done|]. destruct (validate_spec fs pks recs) as [[_ ?]|[? _]]; [|done|congruence].
        by apply nodup_unambiguous. }
      constructor; cbn.
      * constructor; [done..|]. eexists _, _. split; [exact Hsto|]. apply first_meta_wf.
      * rewrite Hh. intros hid' h [[<- <-]|[_ ?]]%lookup_insert_Some; [|done].
        split_and!; [apply first_meta_wf|apply Hsto|done].
      * by rewrite Ht.
  - assert (load (y_world σ) = (y_world σ, Err (EOther "FileNotFoundError"))) as ->.
    { unfold load, read_entry, read_file, bind. cbn. by rewrite He. }
    cbn. split; [|apply gstep_refl]. left. by destruct σ.
  - unfold with_handle. rewrite Hh, lookup_empty. split; [by left|apply gstep_refl].
  - unfold with_handle. rewrite Hh, lookup_empty. split; [by left|apply gstep_refl].
  - unfold with_handle. rewrite Hh, lookup_empty. split; [by left|apply gstep_refl].
  - unfold with_handle. rewrite Hh, lookup_empty. split; [by left|apply gstep_refl].
  - rewrite Ht, lookup_empty. split; [by left|apply gstep_refl].
  - rewrite Ht, lookup_empty. split; [by left|apply gstep_refl].
  - split; [left; by constructor|by eapply GsTick].
  - destruct (w_fs (y_world σ) !! PExt name) eqn:Hn; [split; [by left|apply gstep_refl]|].
    assert (Hcase : (∀ q, f ≠ FEntry q) → sempty (Sys (add_ext name f (y_world σ)) (y_handles σ) (y_txns σ))
              ∧ gstep (y_world σ) (add_ext name f (y_world σ))).
    { intros Hf. assert (Hg : gstep (y_world σ) (add_ext name f (y_world σ))) by by eapply GsExt. split; [|done].
      constructor; cbn; try done; [by eapply gstep_bounded|by rewrite lookup_insert_ne]. }
    destruct f; try (split; [by left|apply gstep_refl]); (split; [left|]; by apply Hcase).
  - destruct (IH Hok) as [IHs IHg]. fold (cut k (y_world σ) (y_world (step σ c))).
    destruct (gstep_cut k _ _ IHg) as [Hw| ->].
    + split; [|by constructor; constructor]. left. constructor; cbn [y_world y_handles y_txns]; try done; [by eapply wle_bounded|].
      by rewrite (wle_entry _ _ _ Hw).
    + split; [|done]. destruct IHs as [[? ? ? ?]|[s [Hi' _ _]]]; [left; by constructor|].
      right. exists s. constructor; cbn; [done| |]; intros ??; [rewrite Hh|rewrite Ht]; done.
Qed.

Lemma init_empty : sempty init.
Proof. constructor; cbn; done. Qed.
Lemma reachable_inv σ : reachable σ → sempty σ ∨ ∃ s, sinv s σ.
Proof.
  unfold reachable. remember init as σ0 eqn:H0. induction 1 as [|σ0 σ' c Hh IH Hok]; subst.
  - left. apply init_empty.
  - destruct (IH eq_refl) as [He|[s Hs]]; [by apply step_sempty|]. right. exists s. by apply step_sinv.
Qed.
Lemma reachable_handle σ hid h :
  reachable σ → y_handles σ !! hid = Some h → ∃ s, sinv s σ ∧ wf_handle s (y_world σ) h.
Proof.
  intros [He|[s Hs]]%reachable_inv Hh; [rewrite (se_handles _ He) in Hh; done|].
  exists s. split; [done|]. by eapply si_handles.
Qed.
