(** Invariants of the storage: the entry point names well-formed metadata and
    every handle holds well-formed metadata that is stored somewhere. *)
From Verif.Model Require Import Storage Runner.
From Verif.Spec Require Import Logical.
From Verif.Proofs Require Import Lib World Resolve AppendSpec SchemaFacts ReadSpec Wf OpSpec.

Lemma liftM_run {A} (m : M A) h w w' r : m w = (w', r) → liftM m (h, w) = ((h, w'), r).
Proof. unfold liftM. by intros ->. Qed.
Lemma get_handle_bind {A} (k : handle → H A) h w : bind get_handle k (h, w) = k h (h, w).
Proof. done. Qed.
Lemma lift_bind {S A B} (r : res A) (k : A → ST S B) s :
  bind (lift r) k s = match r with Ok a => k a s | Err e => (s, Err e) end.
Proof. by destruct r. Qed.

(** * Metadata files and the entry point *)
Definition stored (fs : fsys) (p : path) (m : metadata) : Prop :=
  fs !! PEntry = Some (FEntry p) ∧ fs !! p = Some (FMeta m).
Record winv (s : schema) (w : world) : Prop := {
  wi_bounded : bounded w;
  wi_schema : wf_schema s;
  wi_stored : ∃ p m, stored (w_fs w) p m ∧ wf_meta s (w_fs w) m }.
Definition mpath (f : mfile) : path := match f with MShort p | MFull p => p end.
Definition wf_handle (s : schema) (w : world) (h : handle) : Prop :=
  wf_meta s (w_fs w) (h_meta h)
  ∧ w_fs w !! mpath (h_file h) = Some (FMeta (h_meta h))
  ∧ match h_file h with MShort _ => (max_snapshot_id (h_meta h) ≤ h_max h)%Z | MFull _ => True end.

Lemma max_snapshot_id_ge m :
  (md_current m ≤ max_snapshot_id m)%Z ∧ ∀ n r, md_refs m !! n = Some r → (rf_id r ≤ max_snapshot_id m)%Z.
Proof.
  unfold max_snapshot_id.
  apply (map_fold_ind (fun z M => (md_current m ≤ z)%Z ∧ ∀ n r, M !! n = Some r → (rf_id r ≤ z)%Z)).
  - split; [lia|]. intros n r. by rewrite lookup_empty.
  - intros n r M z Hn [Hc Hr]. split; [lia|]. intros n' r'.
    destruct (decide (n = n')) as [->|?].
    + rewrite lookup_insert. intros [= ->]. lia.
    + rewrite lookup_insert_ne by done. intros ?%Hr. lia.
Qed.

(** * Steps of the world *)
Definition entry_move (w : world) (u : N) : world :=
  World (apply_event (w_fs w) (EvMove (PGen KTmp u) PEntry)) (w_next w) (w_clock w)
    (w_log w ++ [EvMove (PGen KTmp u) PEntry]).
Definition entry_fine (w : world) : Prop := ∀ f, w_fs w !! PEntry = Some f → ∃ q, f = FEntry q.
(** Only new files are written, and possibly the entry point is replaced at the
    very end. *)
Inductive wstep (w w' : world) : Prop :=
| WsData : wnew w w' → wstep w w'
| WsEntry w1 u q m : wnew w w1 → (w_next w ≤ u)%N → (u < w_next w1)%N →
    w_fs w1 !! PGen KTmp u = Some (FEntry q) → w_fs w1 !! q = Some (FMeta m) →
    w' = entry_move w1 u → wstep w w'.

Lemma entry_move_lookup w u q p :
  w_fs w !! PGen KTmp u = Some (FEntry q) →
  w_fs (entry_move w u) !! p =
    if decide (p = PEntry) then Some (FEntry q)
    else if decide (p = PGen KTmp u) then None else w_fs w !! p.
Proof.
  intros Hu. cbn. rewrite Hu. case_decide as Hp; [by subst; rewrite lookup_insert|].
  rewrite lookup_insert_ne by done. case_decide; [by subst; rewrite lookup_delete|].
  by rewrite lookup_delete_ne.
Qed.
Lemma wstep_bounded w w' : bounded w → wstep w w' → bounded w'.
Proof.
  intros Hb [Hw|w1 u q m Hw Hu1 Hu2 Hq Hm ->]; [by eapply wle_bounded|].
  pose proof (wle_bounded _ _ _ Hb Hw) as Hb1. intros p f. rewrite (entry_move_lookup w1 u q p Hq).
  case_decide; [by subst|]. case_decide; [done|]. apply Hb1.
Qed.
Lemma wstep_keeps w w' : bounded w → entry_fine w → wstep w w' → keeps (w_fs w) (w_fs w').
Proof.
  intros Hb He [Hw|w1 u q m Hw Hu1 Hu2 Hq Hm ->]; [by apply wnew_keeps|].
  intros p f Hf Hne. rewrite (entry_move_lookup w1 u q p Hq).
  case_decide as Hp; [subst; by destruct (He _ Hf) as [q' ->]; destruct (Hne q')|].
  case_decide as Hp'; [subst; apply Hb in Hf; simpl in Hf; lia|].
  by eapply (wnew_keeps w w1).
Qed.
Lemma wstep_next w w' : wstep w w' → (w_next w ≤ w_next w')%N.
Proof. intros [Hw|w1 u q m Hw Hu1 Hu2 Hq Hm ->]; by apply wle_next in Hw. Qed.
Lemma wstep_clock w w' : wstep w w' → w_clock w' = w_clock w.
Proof. intros [Hw|w1 u q m Hw Hu1 Hu2 Hq Hm ->]; by apply wle_clock in Hw. Qed.
Lemma wnew_wstep w w1 w2 : wnew w w1 → wstep w1 w2 → wstep w w2.
Proof.
  intros H1 [Hw|w1' u q m Hw Hu1 Hu2 Hq Hm ->].
  - apply WsData. by eapply wnew_trans.
  - pose proof (wle_next _ _ _ H1). apply (WsEntry _ _ w1' u q m); try done; [by eapply wnew_trans|lia].
Qed.

Lemma winv_fine s w : winv s w → entry_fine w.
Proof. intros [_ _ (p&m&[Hp _]&_)] f. rewrite Hp. intros [= <-]. eauto. Qed.
Lemma winv_wnew s w w' : winv s w → wnew w w' → winv s w'.
Proof.
  intros [Hb Hs (p&m&[Hp Hm]&Hwf)] Hw. constructor; [by eapply wle_bounded|done|].
  exists p, m. split; [split|].
  - by rewrite (wle_entry _ _ _ Hw).
  - by apply (wnew_keeps w w' Hb Hw).
  - eapply wf_meta_keeps; [|done]. by apply wnew_keeps.
Qed.
Lemma wf_handle_keeps s w w' h : keeps (w_fs w) (w_fs w') → wf_handle s w h → wf_handle s w' h.
Proof.
  intros Hk (?&Hf&?). split_and!; [by eapply wf_meta_keeps| |done]. by apply Hk.
Qed.
Lemma wf_handle_wstep s w w' h : winv s w → wstep w w' → wf_handle s w h → wf_handle s w' h.
Proof.
  intros Hi Hw. apply wf_handle_keeps. apply wstep_keeps; [apply Hi|by eapply winv_fine|done].
Qed.
Lemma stored_wnew s w w' p m : winv s w → wnew w w' → stored (w_fs w) p m → stored (w_fs w') p m.
Proof.
  intros Hi Hw [Hp Hm]. split; [by rewrite (wle_entry _ _ _ Hw)|].
  apply (wnew_keeps w w'); [apply Hi|done..].
Qed.
Lemma stored_fun fs p m p' m' : stored fs p m → stored fs p' m' → p = p' ∧ m = m'.
Proof. intros [H1 H2] [H3 H4]. by simplify_eq. Qed.

(** * write_proto *)
Lemma write_proto_run p f w :
  bounded w →
  ∃ w', write_proto p f false w = (w', Ok tt)
    ∧ w_fs w' = <[p := f]> (w_fs w) ∧ w_next w' = (w_next w + 1)%N ∧ w_clock w' = w_clock w
    ∧ w_log w' = w_log w ++ [EvPut (PGen KTmp (w_next w)) FPartial;
                             EvPut (PGen KTmp (w_next w)) f; EvMove (PGen KTmp (w_next w)) p].
Proof.
  intros Hb. eexists. split; [reflexivity|]. cbn. split_and!; try done.
  - rewrite lookup_insert, insert_insert, delete_insert; [done|].
    destruct (w_fs w !! _) eqn:Hl; [|done]. apply Hb in Hl. simpl in Hl. lia.
  - by rewrite <-!app_assoc.
Qed.
Lemma write_proto_wnew lo k u f w :
  bounded w → (lo ≤ w_next w)%N → (lo ≤ u)%N → (u < w_next w)%N →
  ∃ w', write_proto (PGen k u) f false w = (w', Ok tt) ∧ wle lo w w'
    ∧ w_fs w' = <[PGen k u := f]> (w_fs w) ∧ w_next w' = (w_next w + 1)%N.
Proof.
  intros Hb Hlo Hu1 Hu2. destruct (write_proto_run (PGen k u) f w Hb) as (w'&Hr&Hfs&Hn&Hc&Hl).
  exists w'. split_and!; try done. split; [lia|]. split; [done|]. eexists. split; [exact Hl|].
  assert (HT : touches lo (w_next w') (PGen KTmp (w_next w))).
  { exists KTmp, (w_next w). split; [done|]. lia. }
  split.
  - rewrite Hfs. cbn. rewrite lookup_insert, insert_insert, delete_insert; [done|].
    destruct (w_fs w !! _) eqn:Hlk; [|done]. apply Hb in Hlk. simpl in Hlk. lia.
  - repeat constructor; try done. exists k, u. split; [done|]. lia.
Qed.

(** _write_metadata with a fresh metadata path. *)
Lemma write_metadata_run w u m :
  bounded w → (u < w_next w)%N →
  ∃ w1 w', write_metadata (PGen KMeta u) m false w = (w', Ok tt)
    ∧ wle u w w1
    ∧ w_fs w' = <[PEntry := FEntry (PGen KMeta u)]> (<[PGen KMeta u := FMeta m]> (w_fs w))
    ∧ ∃ v, (u ≤ v)%N ∧ (v < w_next w1)%N ∧ w_fs w1 !! PGen KTmp v = Some (FEntry (PGen KMeta u))
       ∧ w_fs w1 !! PGen KMeta u = Some (FMeta m) ∧ w' = entry_move w1 v.
Proof.
  intros Hb Hu. destruct (write_proto_wnew u KMeta u (FMeta m) w Hb) as (w0&Hr&Hw0&Hfs0&Hn0); [lia..|].
  pose proof (wle_bounded _ _ _ Hb Hw0) as Hb0.
  set (v := w_next w0). set (T := PGen KTmp v).
  set (w1 := put_world (put_world (bump_world w0) T FPartial) T (FEntry (PGen KMeta u))).
  assert (Hfresh : w_fs w0 !! T = None).
  { destruct (w_fs w0 !! T) eqn:Hl; [|done]. apply Hb0 in Hl. simpl in Hl. lia. }
  exists w1, (entry_move w1 v). split_and!.
  - unfold write_metadata. erewrite bind_run; [|exact Hr]. reflexivity.
  - eapply wle_trans; [exact Hw0|]. eapply wle_trans; [apply wle_bump|].
    assert (Ht : touches u (w_next (bump_world w0)) T).
    { exists KTmp, v. split; [done|]. unfold v, bump_world. cbn. lia. }
    eapply wle_trans; apply wle_put; done.
  - cbn. rewrite lookup_insert, insert_insert, delete_insert by done. by rewrite Hfs0.
  - exists v. split_and!; try done.
    + unfold v. lia.
    + unfold v, w1. cbn. lia.
    + cbn. by rewrite lookup_insert.
    + cbn. rewrite !lookup_insert_ne by done. rewrite Hfs0. by rewrite lookup_insert.
Qed.

(** The world after metadata [m] was written to the new file [mp]. *)
Lemma write_metadata_step s w0 w u m :
  winv s w0 → wnew w0 w → (w_next w0 ≤ u)%N → (u < w_next w)%N →
  w_fs w !! PGen KMeta u = None →
  wf_meta s (w_fs w) m →
  ∃ w', write_metadata (PGen KMeta u) m false w = (w', Ok tt)
    ∧ wstep w0 w' ∧ winv s w' ∧ stored (w_fs w') (PGen KMeta u) m
    ∧ keeps (w_fs w) (w_fs w').
Proof.
  intros Hi Hw Hu1 Hu2 Hnone Hwf. pose proof (winv_wnew _ _ _ Hi Hw) as Hi'.
  destruct (write_metadata_run w u m) as (w1&w'&Hr&Hw1&Hfs&v&Hv1&Hv2&Ht&Hm&->); [apply Hi'|done|].
  assert (Hk : keeps (w_fs w) (w_fs (entry_move w1 v))).
  { rewrite Hfs. intros p f Hp Hf. rewrite lookup_insert_ne.
    - rewrite lookup_insert_ne; [done|]. intros <-. by rewrite Hnone in Hp.
    - intros <-. destruct (winv_fine _ _ Hi' _ Hp) as [q ->]. by destruct (Hf q). }
  assert (Hst : stored (w_fs (entry_move w1 v)) (PGen KMeta u) m).
  { rewrite Hfs. split; [by rewrite lookup_insert|]. rewrite lookup_insert_ne by done. by rewrite lookup_insert. }
  exists (entry_move w1 v). split_and!; try done.
  - apply (WsEntry w0 _ w1 v (PGen KMeta u) m); try done; [|lia].
    eapply wle_trans; [exact Hw|]. eapply wle_weaken; [|exact Hw1]. lia.
  - constructor.
    + eapply wstep_bounded; [apply Hi|]. apply (WsEntry w0 _ w1 v (PGen KMeta u) m); try done; [|lia].
      eapply wle_trans; [exact Hw|]. eapply wle_weaken; [|exact Hw1]. lia.
    + apply Hi.
    + exists (PGen KMeta u), m. split; [done|]. by eapply wf_meta_keeps.
Qed.

(** * load and reload *)
Definition sync (p : path) (m : metadata) (h : handle) : handle :=
  if decide (h_file h = MShort p) then h else init_handle (MShort p) m (h_branch h).
Lemma reload_run p m h w :
  stored (w_fs w) p m →
  reload (h, w) = ((sync p m h, w), Ok (bool_decide (h_file h ≠ MShort p))).
Proof.
  intros [Hp Hm]. unfold reload, sync, read_entry, read_meta, read_file, bind, get_handle, gets, liftM, bind. cbn.
  rewrite Hp. cbn. case_decide as Hd.
  - cbn. by rewrite bool_decide_false by naive_solver.
  - cbn. rewrite Hm. cbn. by rewrite bool_decide_true.
Qed.
Lemma load_run p m w :
  stored (w_fs w) p m → load w = (w, Ok (init_handle (MShort p) m MAIN)).
Proof.
  intros [Hp Hm]. unfold load, read_entry, read_meta, read_file, bind. cbn. rewrite Hp. cbn. by rewrite Hm.
Qed.
Lemma init_handle_wf s w p m b :
  wf_meta s (w_fs w) m → w_fs w !! p = Some (FMeta m) → wf_handle s w (init_handle (MShort p) m b).
Proof. intros Hm Hp. split_and!; try done. cbn. lia. Qed.
Lemma sync_spec s w p m h :
  stored (w_fs w) p m → wf_meta s (w_fs w) m → wf_handle s w h →
  wf_handle s w (sync p m h) ∧ h_meta (sync p m h) = m ∧ h_file (sync p m h) = MShort p
  ∧ h_branch (sync p m h) = h_branch h ∧ (max_snapshot_id m ≤ h_max (sync p m h))%Z.
Proof.
  intros [Hp Hm] Hwf Hh. unfold sync. case_decide as Hd.
  - split; [done|]. destruct Hh as (Hhm&Hf&Hmax). rewrite Hd in Hf, Hmax. cbn in Hf. rewrite Hm in Hf.
    injection Hf as ->. by split_and!.
  - split_and!; try done. by apply init_handle_wf.
Qed.
Lemma sync_synced p m h : h_file h = MShort p → sync p m h = h.
Proof. intros Hf. unfold sync. by rewrite decide_True. Qed.

(** * References *)
Definition head_of (m : metadata) (b : string) : option Z :=
  if decide (b = MAIN) then Some (md_current m) else rf_id <$> md_refs m !! b.
Lemma current_snapshot_id_head h b :
  current_snapshot_id h b = of_opt (EUser UVersionNotFound) (head_of (h_meta h) b).
Proof.
  unfold current_snapshot_id, head_of, lookup_reference. case_decide; [done|].
  by destruct (md_refs (h_meta h) !! b).
Qed.
Lemma head_of_some s fs m b i : wf_meta s fs m → head_of m b = Some i → is_Some (md_snaps m !! i).
Proof.
  intros Hm. unfold head_of. case_decide; [intros [= <-]; apply Hm|].
  destruct (md_refs m !! b) eqn:Hr; [|done]. intros [= <-]. by eapply (wm_refs _ _ _ Hm).
Qed.
Lemma head_of_max m b i : head_of m b = Some i → (i ≤ max_snapshot_id m)%Z.
Proof.
  unfold head_of. destruct (max_snapshot_id_ge m) as [Hc Hr].
  case_decide; [by intros [= <-]|]. destruct (md_refs m !! b) eqn:Hl; [|done]. intros [= <-]. eauto.
Qed.

Lemma write_new_metadata_run s h w m :
  winv s w → wf_handle s w h → wf_meta s (w_fs w) m →
  ∃ u w', write_new_metadata m (h, w) = ((Handle m (MFull (PGen KMeta u)) (h_branch h) (h_max h), w'), Ok tt)
    ∧ wstep w w' ∧ winv s w' ∧ stored (w_fs w') (PGen KMeta u) m
    ∧ (w_next w ≤ u)%N.
Proof.
  intros Hi Hh Hm. pose proof (winv_wnew _ _ _ Hi (wle_bump _ w)) as Hi1.
  destruct (write_metadata_step s w (bump_world w) (w_next w) m) as (w'&Hr&Hs&Hi'&Hst&_);
    [done|apply wle_bump|lia|cbn; lia| | |].
  { destruct (w_fs (bump_world w) !! _) eqn:Hl; [|done]. apply (wi_bounded _ _ Hi) in Hl. simpl in Hl. lia. }
  { exact Hm. }
  exists (w_next w), w'. split_and!; try done.
  unfold write_new_metadata.
  erewrite bind_run; [|by apply liftM_run]. erewrite bind_run; [|by apply liftM_run]. done.
Qed.

(** add_tag, add_branch: fails without effect, or stores the new reference. *)
Definition with_refs (m : metadata) (refs : gmap string sref) : metadata :=
  Metadata (md_schema m) (md_current m) (md_snaps m) refs.
Lemma wf_meta_add_ref s fs m n r :
  wf_meta s fs m → is_Some (md_snaps m !! rf_id r) → n ≠ "" → n ≠ MAIN →
  wf_meta s fs (with_refs m (<[n := r]> (md_refs m))).
Proof.
  intros [? ? ? Hr] Hs He Hm. constructor; cbn; try done. intros n' r'.
  destruct (decide (n = n')) as [->|?].
  - rewrite lookup_insert. by intros [= <-].
  - rewrite lookup_insert_ne by done. apply Hr.
Qed.
Lemma wf_meta_del_ref s fs m n :
  wf_meta s fs m → wf_meta s fs (with_refs m (delete n (md_refs m))).
Proof.
  intros [? ? ? Hr]. constructor; cbn; try done. intros n' r' [_ ?]%lookup_delete_Some. by apply Hr.
Qed.
Lemma add_reference_run s h w n k sid :
  winv s w → wf_handle s w h →
  let i := default (md_current (h_meta h)) sid in
  (∃ e, add_reference n k sid (h, w) = ((h, w), Err (EUser e))
     ∧ (md_snaps (h_meta h) !! i = None ∨ n = "" ∨ n = MAIN ∨ is_Some (md_refs (h_meta h) !! n)))
  ∨ (is_Some (md_snaps (h_meta h) !! i) ∧ n ≠ "" ∧ n ≠ MAIN ∧ md_refs (h_meta h) !! n = None
     ∧ ∃ u w', let m' := with_refs (h_meta h) (<[n := SRef i k]> (md_refs (h_meta h))) in
        add_reference n k sid (h, w) = ((Handle m' (MFull (PGen KMeta u)) (h_branch h) (h_max h), w'), Ok tt)
        ∧ wstep w w' ∧ winv s w' ∧ stored (w_fs w') (PGen KMeta u) m' ∧ (w_next w ≤ u)%N
        ∧ wf_handle s w' (Handle m' (MFull (PGen KMeta u)) (h_branch h) (h_max h))).
Proof.
  intros Hi Hh i. unfold add_reference. rewrite get_handle_bind. fold i.
  case_decide as Hs; [|left; eexists; split; [done|]; left; by apply eq_None_not_Some].
  case_decide as He; [left; eexists; split; [done|]; auto|].
  case_decide as Hm; [left; eexists; split; [done|]; auto|].
  case_decide as Hr; [left; eexists; split; [done|]; auto|].
  right. split_and!; try done; [by apply eq_None_not_Some|].
  assert (Hwf : wf_meta s (w_fs w) (with_refs (h_meta h) (<[n := SRef i k]> (md_refs (h_meta h))))).
  { apply wf_meta_add_ref; try done. apply Hh. }
  destruct (write_new_metadata_run s h w _ Hi Hh Hwf) as (u&w'&Hrun&Hs'&Hi'&Hst&Hu).
  exists u, w'. split_and!; try done. split_and!; [|apply Hst|done].
  eapply wf_meta_keeps; [|exact Hwf]. apply wstep_keeps; [apply Hi|by eapply winv_fine|done].
Qed.
Lemma remove_reference_run s h w n k :
  winv s w → wf_handle s w h →
  (∃ e, remove_reference n k (h, w) = ((h, w), Err (EUser e))
     ∧ ∀ r, md_refs (h_meta h) !! n = Some r → rf_kind r ≠ k)
  ∨ (∃ r, md_refs (h_meta h) !! n = Some r ∧ rf_kind r = k
     ∧ ∃ u w', let m' := with_refs (h_meta h) (delete n (md_refs (h_meta h))) in
        remove_reference n k (h, w) = ((Handle m' (MFull (PGen KMeta u)) (h_branch h) (h_max h), w'), Ok tt)
        ∧ wstep w w' ∧ winv s w' ∧ stored (w_fs w') (PGen KMeta u) m' ∧ (w_next w ≤ u)%N
        ∧ wf_handle s w' (Handle m' (MFull (PGen KMeta u)) (h_branch h) (h_max h))).
Proof.
  intros Hi Hh. unfold remove_reference. rewrite get_handle_bind.
  destruct (md_refs (h_meta h) !! n) as [r|] eqn:Hr; [|left; eexists; split; [done|]; intros; congruence].
  case_decide as Hk; [|left; eexists; split; [done|]; intros; congruence].
  right. exists r. split_and!; try done.
  assert (Hwf : wf_meta s (w_fs w) (with_refs (h_meta h) (delete n (md_refs (h_meta h))))).
  { apply wf_meta_del_ref. apply Hh. }
  destruct (write_new_metadata_run s h w _ Hi Hh Hwf) as (u&w'&Hrun&Hs'&Hi'&Hst&Hu).
  exists u, w'. split_and!; try done. split_and!; [|apply Hst|done].
  eapply wf_meta_keeps; [|exact Hwf]. apply wstep_keeps; [apply Hi|by eapply winv_fine|done].
Qed.

(** * commit *)
Definition bump_max (h : handle) : handle := Handle (h_meta h) (h_file h) (h_branch h) (h_max h + 1).
Lemma bump_max_wf s w h : wf_handle s w h → wf_handle s w (bump_max h).
Proof. intros (?&?&?). split_and!; try done. cbn. destruct (h_file h); [lia|done]. Qed.

(** The metadata stored by a commit. *)
Definition with_snap (m : metadata) (b : string) (sn : snapshot) : metadata :=
  Metadata (md_schema m) (if decide (b = MAIN) then sn_id sn else md_current m)
    (<[sn_id sn := sn]> (md_snaps m))
    (if decide (b = MAIN) then md_refs m else <[b := SRef (sn_id sn) RBranch]> (md_refs m)).
(** [sn] is the snapshot a commit of [p] on top of [base] makes. *)
Definition next_snap (fs : fsys) (p : patch) (base : snapshot) (i t : Z) (sn : snapshot) : Prop :=
  sn_id sn = i ∧ sn_parent sn = Some (sn_id base) ∧ sn_time sn = t
  ∧ patch_manifests (sn_idx base) (sn_rec base) p = Ok (sn_idx sn, sn_rec sn)
  ∧ sn_stats sn = update_record_bytes (update_index_stats (sn_stats base) (pa_stats p)) (pa_stats p)
  ∧ match pa_log p, sn_log sn with
    | None, None => True
    | Some c, Some lp => fs !! lp = Some (FChange c)
    | _, _ => False
    end.
Record committed (s : schema) (p : patch) (b : string) (h : handle) (w : world)
    (h' : handle) (w' : world) : Prop := {
  cm_ex : ∃ j base sn u,
    head_of (h_meta h) b = Some j
    ∧ md_snaps (h_meta h) !! j = Some base
    ∧ (b ≠ MAIN → ∃ r, md_refs (h_meta h) !! b = Some r ∧ rf_kind r = RBranch)
    ∧ next_snap (w_fs w') p base (h_max h + 1) (w_clock w) sn
    ∧ h' = Handle (with_snap (h_meta h) b sn) (MFull (PGen KMeta u)) (h_branch h) (h_max h + 1)
    ∧ stored (w_fs w') (PGen KMeta u) (with_snap (h_meta h) b sn)
    ∧ (w_next w ≤ u)%N;
  cm_step : wstep w w';
  cm_inv : winv s w';
  cm_handle : wf_handle s w' h' }.

Lemma remove_rev_in fs0 del kept rest :
  remove_rev fs0 del = (kept, rest) → kept `sublist_of` fs0 ∧ ∀ x, x ∈ kept → x ∈ fs0.
Proof.
  revert del kept rest. induction fs0 as [|f l IH]; intros del kept rest; cbn.
  - intros [= <- <-]. split; [constructor|done].
  - case_decide.
    + intros [Hs Hi]%IH. split; [by apply sublist_cons|set_solver].
    + destruct (remove_rev l del) as [k d] eqn:Hr. intros [= <- <-]. apply IH in Hr as [Hs Hi].
      split; [by apply sublist_skip|set_solver].
Qed.
Lemma patch_manifests_in idx rec p idx' rec' :
  patch_manifests idx rec p = Ok (idx', rec') →
  NoDup idx' ∧ (∀ x, x ∈ idx' → x ∈ idx ∨ x ∈ pa_add_idx p) ∧ rec' = rec ++ pa_add_rec p ∧ NoDup rec'.
Proof.
  unfold patch_manifests. intros (i1&Hi&H)%rbind_ok. apply rbind_ok in H as ([]&Hc&H).
  apply rbind_ok in H as ([]&Hc2&[= <- <-]).
  unfold check_duplicated in *. case_decide; [|done]. case_decide; [|done].
  split_and!; try done. unfold patch_index_manifests in Hi.
  destruct (remove_rev (rev idx) (pa_del_idx p)) as [k d] eqn:Hr. destruct d; [|done].
  injection Hi as <-. apply remove_rev_in in Hr as [_ Hin]. intros x [Hx|Hx]%elem_of_app; [|by right].
  left. rewrite elem_of_list_In, <-in_rev, <-elem_of_list_In in Hx. apply Hin in Hx.
  by rewrite elem_of_list_In, <-in_rev, <-elem_of_list_In in Hx.
Qed.

Lemma wf_next_snap s fs p base i t sn :
  wf_snap s fs base → wf_patch s fs p → next_snap fs p base i t sn → wf_snap s fs sn.
Proof.
  intros (Hnd&Hm&[Hr _]&Hl) (Hp1&Hp2&Hp3) (_&_&_&Hpm&_&Hlog).
  apply patch_manifests_in in Hpm as (Hnd'&Hin&Hrec&Hndr). split_and!; try done.
  - apply Forall_forall. intros x [Hx|Hx]%Hin; [by eapply Forall_forall in Hm|by eapply Forall_forall in Hp1].
  - rewrite Hrec. by apply Forall_app.
  - destruct (pa_log p) as [c|], (sn_log sn) as [lp|]; try done. by exists c.
Qed.
Lemma wf_with_snap s fs m b j base p i t sn :
  wf_meta s fs m → wf_patch s fs p →
  head_of m b = Some j → md_snaps m !! j = Some base → (max_snapshot_id m < i)%Z →
  (b ≠ MAIN → is_Some (md_refs m !! b)) →
  next_snap fs p base i t sn → wf_meta s fs (with_snap m b sn).
Proof.
  intros Hm Hp Hj Hb Hi Hbr Hsn.
  destruct (wm_snaps _ _ _ Hm _ _ Hb) as (Hbid&Hbwf&Hbp).
  assert (Hj0 : (0 ≤ j)%Z).
  { destruct (sn_parent base) as [k|]; [|lia]. destruct Hbp as [? _]. lia. }
  assert (Hji : (j < i)%Z) by (apply head_of_max in Hj; lia).
  pose proof (wf_next_snap s fs p base i t sn Hbwf Hp Hsn) as Hwf.
  destruct Hsn as (Hid&Hpar&_). constructor; cbn.
  - apply Hm.
  - intros k sk. destruct (decide (sn_id sn = k)) as [<-|Hk].
    + rewrite lookup_insert. intros [= <-]. split_and!; try done. rewrite Hpar, Hbid.
      rewrite Hid. split; [lia|]. rewrite lookup_insert_ne by lia. by exists base.
    + rewrite lookup_insert_ne by done. intros Hk'. destruct (wm_snaps _ _ _ Hm _ _ Hk') as (?&?&Hpk).
      split_and!; try done. destruct (sn_parent sk) as [q|]; [|done]. destruct Hpk as [? Hq]. split; [done|].
      by apply lookup_insert_is_Some'; right.
  - apply lookup_insert_is_Some'. case_decide; [by left|right; apply Hm].
  - intros n r. case_decide as Hmain.
    + intros Hr. destruct (wm_refs _ _ _ Hm _ _ Hr) as (?&?&?). split_and!; try done.
      apply lookup_insert_is_Some'. by right.
    + destruct (decide (b = n)) as [<-|Hn].
      * rewrite lookup_insert. intros [= <-]. cbn. split_and!.
        -- apply lookup_insert_is_Some'. by left.
        -- destruct (Hbr Hmain) as [r Hr]. by apply (wm_refs _ _ _ Hm) in Hr as (_&?&_).
        -- done.
      * rewrite lookup_insert_ne by done. intros Hr. destruct (wm_refs _ _ _ Hm _ _ Hr) as (?&?&?).
        split_and!; try done. apply lookup_insert_is_Some'. by right.
Qed.

(** A commit is refused only if the branch cannot be committed to or the patch
    does not fit its head. *)
Definition commit_ready (p : patch) (b : string) (m : metadata) : Prop :=
  ∃ j base idx rec, head_of m b = Some j ∧ md_snaps m !! j = Some base
    ∧ (b ≠ MAIN → ∃ r, md_refs m !! b = Some r ∧ rf_kind r = RBranch)
    ∧ patch_manifests (sn_idx base) (sn_rec base) p = Ok (idx, rec).
Lemma commit_run s p b h w0 w :
  winv s w0 → wnew w0 w → wf_handle s w h → wf_patch s (w_fs w) p →
  (max_snapshot_id (h_meta h) ≤ h_max h)%Z →
  (∃ w' e, commit p b (h, w) = ((bump_max h, w'), Err e) ∧ wnew w w'
     ∧ match e with EOther _ => False | _ => True end ∧ ¬ commit_ready p b (h_meta h))
  ∨ (∃ h' w', commit p b (h, w) = ((h', w'), Ok tt) ∧ committed s p b h w h' w').
Proof.
  intros Hi0 Hw0 Hh Hp Hmax. unfold commit. rewrite get_handle_bind.
  pose proof (winv_wnew _ _ _ Hi0 Hw0) as Hi. clear Hi0 Hw0 w0.
  pose proof Hi as [Hb _ _]. pose proof Hh as (Hm&Hf&_).
  set (m := h_meta h) in *. set (i := (h_max h + 1)%Z).
  change (Handle m (h_file h) (h_branch h) i) with (bump_max h).
  erewrite bind_run; [|reflexivity]. rewrite lift_bind.
  destruct (if decide (b = MAIN) then _ else _) as [[[refs cur] base]|e] eqn:Hbase.
  2:{ left. exists w, e. split_and!; [done|apply wnew_refl| |].
      2:{ intros (j&base&idx&rec&Hj&Hs&Hk&_). revert Hbase. fold m in Hj, Hs, Hk.
          unfold get_snapshot, lookup_reference. fold m. unfold head_of in Hj. case_decide as Hd; cbn.
          - injection Hj as <-. by rewrite Hs.
          - destruct (Hk Hd) as (r&Hr&Hkr). rewrite Hr in Hj |- *. injection Hj as <-. cbn.
            rewrite decide_True by done. cbn. by rewrite Hs. }
      clear - Hbase Hm.
      unfold get_snapshot, lookup_reference in Hbase. case_decide; cbn in Hbase.
      - destruct (md_snaps _ !! _); cbn in Hbase; [done|]. by injection Hbase as <-.
      - destruct (md_refs _ !! b) as [r|]; cbn in Hbase; [|by injection Hbase as <-].
        case_decide; cbn in Hbase; [|by injection Hbase as <-].
        destruct (md_snaps _ !! _); cbn in Hbase; [done|]. by injection Hbase as <-. }
  assert (∃ j, head_of m b = Some j ∧ md_snaps m !! j = Some base
    ∧ (b ≠ MAIN → ∃ r, md_refs m !! b = Some r ∧ rf_kind r = RBranch)
    ∧ cur = (if decide (b = MAIN) then i else md_current m)
    ∧ refs = (if decide (b = MAIN) then md_refs m else <[b := SRef i RBranch]> (md_refs m)))
    as (j&Hj&Hbs&Hbr&->&->).
  { unfold get_snapshot, lookup_reference in Hbase. fold m in Hbase. unfold head_of. case_decide as Hd; cbn in Hbase.
    - destruct (md_snaps m !! md_current m) eqn:Hc; cbn in Hbase; [|done]. injection Hbase as <- <- <-.
      exists (md_current m). by split_and!.
    - destruct (md_refs m !! b) as [r|] eqn:Hr; cbn in Hbase; [|done].
      case_decide as Hkind; cbn in Hbase; [|done].
      destruct (md_snaps m !! rf_id r) eqn:Hc; cbn in Hbase; [|done]. injection Hbase as <- <- <-.
      exists (rf_id r). split_and!; try done. intros _. eauto. }
  erewrite bind_run; [|by apply liftM_run]. set (u := w_next w). set (w1 := bump_world w).
  change (World (w_fs w) (w_next w + 1) (w_clock w) (w_log w)) with w1.
  erewrite bind_run; [|by apply liftM_run]. rewrite lift_bind. cbn [w_clock w1 bump_world].
  destruct (patch_manifests (sn_idx base) (sn_rec base) p) as [[idx rec]|e] eqn:Hpm.
  2:{ left. exists w1, e. split_and!; [done|apply wle_bump| |].
      2:{ intros (j'&base'&idx&rec&Hj'&Hs'&_&Hp'). fold m in Hj', Hs'. assert (base' = base) as -> by congruence. congruence. }
      clear - Hpm.
      unfold patch_manifests, patch_index_manifests, check_duplicated in Hpm.
      destruct (remove_rev _ _) as [k d]. destruct d; cbn in Hpm; [|by injection Hpm as <-].
      case_decide; cbn in Hpm; [|by injection Hpm as <-]. case_decide; cbn in Hpm; [done|by injection Hpm as <-]. }
  assert (Hi1 : winv s w1) by (eapply winv_wnew; [exact Hi|apply wle_bump]).
  assert (Hnone : w_fs w !! PGen KMeta u = None).
  { destruct (w_fs w !! PGen KMeta u) eqn:Hl; [|done]. by apply Hb, N.lt_irrefl in Hl. }
  (** the change log *)
  assert (∃ w2 lo, (match pa_log p with
              | None => ret None
              | Some c => let! lp := liftM (new_path KChange) in
                          liftM (write_proto lp (FChange c) false) ;; ret (Some lp)
              end) (bump_max h, w1) = ((bump_max h, w2), Ok lo) ∧ wnew w w2 ∧ (u < w_next w2)%N
              ∧ w_fs w2 !! PGen KMeta u = None
              ∧ match pa_log p, lo with
                | None, None => True
                | Some c, Some lp => w_fs w2 !! lp = Some (FChange c)
                | _, _ => False
                end) as (w2&lo&Hlog&Hw2&Hu2&Hnone2&Hlo).
  { destruct (pa_log p) as [c|].
    - set (w1' := bump_world w1).
      destruct (write_proto_wnew (w_next w) KChange (w_next w1) (FChange c) w1') as (w2&Hr&Hw2&Hfs2&Hn2);
        [|cbn; lia..|].
      { intros q g Hq. apply Hb in Hq. eapply below_mono; [|done]. cbn. lia. }
      exists w2, (Some (PGen KChange (w_next w1))). split_and!.
      + erewrite bind_run; [|by apply liftM_run]. erewrite bind_run; [|apply liftM_run; exact Hr]. done.
      + eapply wle_trans; [apply wle_bump|]. eapply wle_trans; [apply wle_bump|]. exact Hw2.
      + rewrite Hn2. cbn. unfold u. lia.
      + rewrite Hfs2. by rewrite lookup_insert_ne.
      + rewrite Hfs2. by rewrite lookup_insert.
    - exists w1, None. split_and!; try done; [apply wle_bump|]. cbn. unfold u. lia. }
  erewrite bind_run; [|exact Hlog].
  set (sn := Snapshot i (Some (sn_id base)) (w_clock w) idx rec _ lo).
  assert (Hsn : next_snap (w_fs w2) p base i (w_clock w) sn) by (by split_and!).
  assert (Hk2 : keeps (w_fs w) (w_fs w2)) by (by apply wnew_keeps).
  assert (Hwfm : wf_meta s (w_fs w2) (with_snap m b sn)).
  { eapply wf_with_snap; [by eapply wf_meta_keeps|by eapply wf_patch_keeps|exact Hj|exact Hbs| | |exact Hsn].
    - unfold i. lia.
    - intros Hne. destruct (Hbr Hne) as (r&Hr&_). by exists r. }
  destruct (write_metadata_step s w w2 u (with_snap m b sn)) as (w3&Hr3&Hs3&Hi3&Hst3&Hk3); try done.
  right. exists (Handle (with_snap m b sn) (MFull (PGen KMeta u)) (h_branch h) i), w3. split.
  - erewrite bind_run; [|apply liftM_run; exact Hr3]. done.
  - constructor; try done.
    + exists j, base, sn, u. split_and!; try done.
      * destruct Hsn as (?&?&?&?&?&Hl). split_and!; try done.
        destruct (pa_log p), (sn_log sn); try done. by apply Hk3.
    + split_and!; [|apply Hst3|done]. by eapply wf_meta_keeps.
Qed.
