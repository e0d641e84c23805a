(** How computations change the world: only files with fresh names are
    touched.  [hoare] is a program logic that also covers exceptions. *)
From Verif.Model Require Import Store Manifests.
From Verif.Proofs Require Import Lib.

Definition touches (lo hi : N) (p : path) : Prop :=
  ∃ k u, p = PGen k u ∧ (lo ≤ u)%N ∧ (u < hi)%N.
Inductive data_event (lo hi : N) : event → Prop :=
| DePut p f : touches lo hi p → data_event lo hi (EvPut p f)
| DeMove a b : touches lo hi a → touches lo hi b → data_event lo hi (EvMove a b).

Definition wle (lo : N) (w w' : world) : Prop :=
  (w_next w ≤ w_next w')%N ∧ w_clock w' = w_clock w ∧
  ∃ evs, w_log w' = w_log w ++ evs ∧ w_fs w' = replay (w_fs w) evs
       ∧ Forall (data_event lo (w_next w')) evs.

Lemma touches_mono lo lo' hi hi' p :
  (lo' ≤ lo)%N → (hi ≤ hi')%N → touches lo hi p → touches lo' hi' p.
Proof. intros ?? (k&u&->&?&?). exists k, u. split; [done|]. lia. Qed.
Lemma data_event_mono lo lo' hi hi' e :
  (lo' ≤ lo)%N → (hi ≤ hi')%N → data_event lo hi e → data_event lo' hi' e.
Proof. intros ?? []; constructor; eapply touches_mono; eauto. Qed.

Lemma wle_refl lo w : wle lo w w.
Proof.
  split; [lia|]. split; [done|]. exists []. rewrite app_nil_r. repeat split. constructor.
Qed.
Lemma replay_app fs e1 e2 : replay fs (e1 ++ e2) = replay (replay fs e1) e2.
Proof. apply foldl_app. Qed.
Lemma wle_trans lo w1 w2 w3 : wle lo w1 w2 → wle lo w2 w3 → wle lo w1 w3.
Proof.
  intros (?&?&e1&Hl1&Hf1&Ha1) (?&?&e2&Hl2&Hf2&Ha2). split; [lia|]. split; [congruence|].
  exists (e1 ++ e2). split; [|split].
  - by rewrite Hl2, Hl1, app_assoc.
  - by rewrite replay_app, Hf2, Hf1.
  - apply Forall_app. split; [|done]. eapply Forall_impl; [done|].
    intros e. apply data_event_mono; lia.
Qed.
Lemma wle_weaken lo lo' w w' : (lo' ≤ lo)%N → wle lo w w' → wle lo' w w'.
Proof.
  intros ? (?&?&e1&Hl1&Hf1&Ha1). split; [done|]. split; [done|]. exists e1.
  repeat split; auto. eapply Forall_impl; [done|]. intros e. apply data_event_mono; lia.
Qed.
Lemma wle_next lo w w' : wle lo w w' → (w_next w ≤ w_next w')%N.
Proof. by intros []. Qed.
Lemma wle_clock lo w w' : wle lo w w' → w_clock w' = w_clock w.
Proof. by intros (?&?&?). Qed.

Definition below (lo : N) (p : path) : Prop :=
  match p with PGen _ u => (u < lo)%N | _ => True end.
Global Instance below_dec lo p : Decision (below lo p).
Proof. destruct p; simpl; apply _. Defined.
Lemma below_mono lo lo' p : (lo ≤ lo')%N → below lo p → below lo' p.
Proof. destruct p; simpl; try done. lia. Qed.

Lemma data_event_lookup lo hi fs e p :
  data_event lo hi e → below lo p → apply_event fs e !! p = fs !! p.
Proof.
  intros [q f (k&u&->&?&?)|a b (k&u&->&?&?) (k'&u'&->&?&?)] Hp; simpl.
  - apply lookup_insert_ne. intros <-. simpl in Hp. lia.
  - destruct (fs !! PGen k u) as [f|] eqn:Hf; [|done].
    rewrite lookup_insert_ne by (intros <-; simpl in Hp; lia).
    apply lookup_delete_ne. intros <-; simpl in Hp; lia.
Qed.
Lemma replay_lookup lo hi fs evs p :
  Forall (data_event lo hi) evs → below lo p → replay fs evs !! p = fs !! p.
Proof.
  intros Hall Hp. revert fs. induction Hall as [|e evs He _ IH]; intros fs; [done|].
  simpl. rewrite IH. by eapply data_event_lookup.
Qed.
Lemma wle_lookup lo w w' p : wle lo w w' → below lo p → w_fs w' !! p = w_fs w !! p.
Proof. intros (?&?&e1&Hl1&->&Ha1) Hp. by eapply replay_lookup. Qed.

(** File systems only contain generated names below the counter. *)
Definition bounded (w : world) : Prop := ∀ p f, w_fs w !! p = Some f → below (w_next w) p.
(** Files present are kept, except for the entry point. *)
Definition ext (fs fs' : fsys) : Prop :=
  ∀ p f, p ≠ PEntry → fs !! p = Some f → fs' !! p = Some f.

Lemma ext_refl fs : ext fs fs.
Proof. by intros ???. Qed.
Lemma ext_trans a b c : ext a b → ext b c → ext a c.
Proof. intros H1 H2 p f Hp Hf. apply H2, H1; done. Qed.

Lemma apply_event_dom lo hi fs e p f :
  data_event lo hi e → apply_event fs e !! p = Some f → touches lo hi p ∨ is_Some (fs !! p).
Proof.
  intros [q g Hq|a b Ha Hb]; simpl.
  - destruct (decide (q = p)) as [->|?]; [by left|]. rewrite lookup_insert_ne by done. eauto.
  - destruct (fs !! a) as [g|] eqn:Hg; [|eauto].
    destruct (decide (b = p)) as [->|?]; [by left|]. rewrite lookup_insert_ne by done.
    rewrite lookup_delete_Some. intros [??]; eauto.
Qed.
Lemma replay_dom lo hi fs evs p f :
  Forall (data_event lo hi) evs → replay fs evs !! p = Some f → touches lo hi p ∨ is_Some (fs !! p).
Proof.
  intros Hall. revert fs. induction Hall as [|e evs He _ IH]; intros fs; simpl; [eauto|].
  intros [?|[g Hg]]%IH; [by left|]. eapply apply_event_dom in Hg; eauto.
Qed.
Lemma replay_bounded lo hi w evs p f :
  bounded w → (w_next w ≤ hi)%N → Forall (data_event lo hi) evs →
  replay (w_fs w) evs !! p = Some f → below hi p.
Proof.
  intros Hb Hn Hall Hp. eapply replay_dom in Hp as [(k&u&->&?&?)|[g Hg]]; [|eauto|eauto]; simpl; [lia|].
  eapply below_mono; [done|]. by eapply Hb.
Qed.
Lemma wle_bounded lo w w' : bounded w → wle lo w w' → bounded w'.
Proof. intros Hb (?&?&e1&Hl1&Hf&Ha1) p f. rewrite Hf. by eapply replay_bounded. Qed.
Lemma wle_ext w w' : bounded w → wle (w_next w) w w' → ext (w_fs w) (w_fs w').
Proof.
  intros Hb Hw p f Hp Hf. rewrite (wle_lookup _ _ _ _ Hw); [done|]. by eapply Hb.
Qed.
Lemma wle_entry lo w w' : wle lo w w' → w_fs w' !! PEntry = w_fs w !! PEntry.
Proof. intros Hw. by eapply wle_lookup. Qed.
Lemma wle_pext lo w w' s : wle lo w w' → w_fs w' !! PExt s = w_fs w !! PExt s.
Proof. intros Hw. by eapply wle_lookup. Qed.

(** * Hoare triples *)
Definition hoare {A} (lo : N) (P : world → Prop) (m : M A) (Q : A → world → Prop) : Prop :=
  ∀ w, P w → (lo ≤ w_next w)%N →
    wle lo w (m w).1 ∧ match (m w).2 with Ok a => Q a (m w).1 | Err _ => True end.

Lemma hoare_ok {A} lo P (m : M A) Q w w' a :
  hoare lo P m Q → P w → (lo ≤ w_next w)%N → m w = (w', Ok a) → wle lo w w' ∧ Q a w'.
Proof. intros Hh HP Hlo Hm. specialize (Hh w HP Hlo). by rewrite Hm in Hh. Qed.
Lemma hoare_wle {A} lo P (m : M A) Q w :
  hoare lo P m Q → P w → (lo ≤ w_next w)%N → wle lo w (m w).1.
Proof. intros Hh HP Hlo. by destruct (Hh w HP Hlo). Qed.

Lemma hoare_pre {A} lo (P P' : world → Prop) (m : M A) Q :
  (∀ w, (lo ≤ w_next w)%N → P w → P' w) → hoare lo P' m Q → hoare lo P m Q.
Proof. intros HP Hh w Hw Hlo. apply Hh; auto. Qed.
Lemma hoare_post {A} lo P (m : M A) (Q Q' : A → world → Prop) :
  hoare lo P m Q → (∀ a w, (lo ≤ w_next w)%N → Q a w → Q' a w) → hoare lo P m Q'.
Proof.
  intros Hh HQ w Hw Hlo. destruct (Hh w Hw Hlo) as [Hle Hr]. split; [done|].
  destruct (m w) as [w' [a|e]]; simpl in *; [|done]. apply HQ; [|done].
  apply wle_next in Hle. lia.
Qed.
Lemma hoare_ret {A} lo (P : world → Prop) (a : A) : hoare lo P (ret a) (fun b w => b = a ∧ P w).
Proof. intros w Hw Hlo. simpl. split; [apply wle_refl|done]. Qed.
Lemma hoare_ret' {A} lo (P : world → Prop) (Q : A → world → Prop) (a : A) :
  (∀ w, (lo ≤ w_next w)%N → P w → Q a w) → hoare lo P (ret a) Q.
Proof. intros HQ w Hw Hlo. simpl. split; [apply wle_refl|auto]. Qed.
Lemma hoare_raise {A} lo (P : world → Prop) e Q : hoare lo P (raise (A:=A) e) Q.
Proof. intros w Hw Hlo. simpl. split; [apply wle_refl|done]. Qed.
Lemma hoare_lift {A} lo (P : world → Prop) (r : res A) :
  hoare lo P (lift r) (fun a w => r = Ok a ∧ P w).
Proof. intros w Hw Hlo. simpl. split; [apply wle_refl|by destruct r]. Qed.
Lemma hoare_bind {A B} lo P (m : M A) Q (k : A → M B) R :
  hoare lo P m Q → (∀ a, hoare lo (Q a) (k a) R) → hoare lo P (bind m k) R.
Proof.
  intros Hm Hk w Hw Hlo. unfold bind. destruct (Hm w Hw Hlo) as [Hle Hr].
  destruct (m w) as [w1 [a|e]]; simpl in *; [|done].
  assert (Hlo1 : (lo ≤ w_next w1)%N) by (apply wle_next in Hle; lia).
  destruct (Hk a w1 Hr Hlo1) as [Hle2 Hr2]. split; [by eapply wle_trans|done].
Qed.
Lemma hoare_frame {A} lo P (m : M A) Q (R : world → Prop) :
  (∀ w w', wle lo w w' → R w → R w') → hoare lo P m Q →
  hoare lo (fun w => P w ∧ R w) m (fun a w => Q a w ∧ R w).
Proof.
  intros HR Hm w [HP Hr] Hlo. destruct (Hm w HP Hlo) as [Hle Hq]. split; [done|].
  destruct (m w) as [w1 [a|e]]; simpl in *; eauto.
Qed.
Lemma hoare_pure {A} lo (φ : Prop) (P : world → Prop) (m : M A) Q :
  (φ → hoare lo P m Q) → hoare lo (fun w => φ ∧ P w) m Q.
Proof. intros Hh w [Hφ HP] Hlo. by apply Hh. Qed.
Lemma hoare_pure_r {A} lo (φ : Prop) (P : world → Prop) (m : M A) Q :
  (φ → hoare lo P m Q) → hoare lo (fun w => P w ∧ φ) m Q.
Proof. intros Hh w [HP Hφ] Hlo. by apply Hh. Qed.
Lemma hoare_lift_bind {A B} lo P (r : res A) (k : A → M B) R :
  (∀ a, r = Ok a → hoare lo P (k a) R) → hoare lo P (bind (lift r) k) R.
Proof.
  intros Hk. eapply hoare_bind; [apply hoare_lift|]. intros a. apply hoare_pure. apply Hk.
Qed.
Lemma hoare_ex {A X} lo (P : X → world → Prop) (m : M A) Q :
  (∀ x, hoare lo (P x) m Q) → hoare lo (fun w => ∃ x, P x w) m Q.
Proof. intros Hh w [x Hx] Hlo. by apply (Hh x). Qed.

Definition put_world (w : world) (p : path) (f : file) : world :=
  World (<[p := f]> (w_fs w)) (w_next w) (w_clock w) (w_log w ++ [EvPut p f]).
Lemma wle_put lo w p f : touches lo (w_next w) p → wle lo w (put_world w p f).
Proof.
  intros Hp. split; [simpl; lia|]. split; [done|]. exists [EvPut p f]. simpl.
  repeat split. by repeat constructor.
Qed.
Lemma hoare_put lo (P : world → Prop) (Q : unit → world → Prop) p f :
  (∀ w, (lo ≤ w_next w)%N → P w → touches lo (w_next w) p ∧ Q tt (put_world w p f)) →
  hoare lo P (put_file p f) Q.
Proof.
  intros HQ w Hw Hlo. destruct (HQ w Hlo Hw) as [Ht HQ'].
  split; [by apply wle_put|done].
Qed.

Definition bump_world (w : world) : world :=
  World (w_fs w) (w_next w + 1) (w_clock w) (w_log w).
Lemma wle_bump lo w : wle lo w (bump_world w).
Proof.
  split; [simpl; lia|]. split; [done|]. exists []. simpl. rewrite app_nil_r. repeat split. constructor.
Qed.
Lemma hoare_new_path lo (P : world → Prop) (Q : path → world → Prop) k :
  (∀ w, (lo ≤ w_next w)%N → P w → Q (PGen k (w_next w)) (bump_world w)) →
  hoare lo P (new_path k) Q.
Proof.
  intros HQ w Hw Hlo. simpl. split; [apply wle_bump|]. by apply HQ.
Qed.
Lemma hoare_fresh lo (P : world → Prop) (Q : N → world → Prop) :
  (∀ w, (lo ≤ w_next w)%N → P w → Q (w_next w) (bump_world w)) → hoare lo P fresh Q.
Proof. intros HQ w Hw Hlo. simpl. split; [apply wle_bump|]. by apply HQ. Qed.

Lemma hoare_read_file lo (P : world → Prop) p :
  hoare lo P (read_file p) (fun f w => w_fs w !! p = Some f ∧ P w).
Proof.
  intros w Hw Hlo. simpl. split; [apply wle_refl|].
  destruct (w_fs w !! p); simpl; done.
Qed.
Lemma hoare_read_index lo (P : world → Prop) p :
  hoare lo P (read_index p) (fun a w => w_fs w !! p = Some (FIndex a.1 a.2) ∧ P w).
Proof.
  eapply hoare_bind; [apply hoare_read_file|]. intros f.
  destruct f; try apply hoare_raise. by apply hoare_ret'.
Qed.
Lemma hoare_read_records lo (P : world → Prop) p :
  hoare lo P (read_records p) (fun a w => w_fs w !! p = Some (FRecord a) ∧ P w).
Proof.
  eapply hoare_bind; [apply hoare_read_file|]. intros f.
  destruct f; try apply hoare_raise. by apply hoare_ret'.
Qed.
Lemma hoare_read_idx_man lo (P : world → Prop) p :
  hoare lo P (read_idx_man p) (fun a w => w_fs w !! p = Some (FIdxMan a) ∧ P w).
Proof.
  eapply hoare_bind; [apply hoare_read_file|]. intros f.
  destruct f; try apply hoare_raise. by apply hoare_ret'.
Qed.

Lemma hoare_write_parquet lo (P : world → Prop) (Q : unit → world → Prop) p f :
  (∀ w, (lo ≤ w_next w)%N → P w →
     touches lo (w_next w) p ∧ Q tt (put_world (put_world w p FPartial) p f)) →
  hoare lo P (write_parquet p f) Q.
Proof.
  intros HQ. eapply hoare_bind.
  - apply (hoare_put lo P (fun _ w => touches lo (w_next w) p ∧ Q tt (put_world w p f))).
    intros w Hlo HP. destruct (HQ w Hlo HP). done.
  - intros []. apply hoare_put. tauto.
Qed.

(** Computations that only read. *)
Definition readonly {A} (m : M A) : Prop := ∀ w, (m w).1 = w.
Lemma readonly_ret {A} (a : A) : readonly (ret a).
Proof. done. Qed.
Lemma readonly_raise {A} e : readonly (raise (A:=A) e).
Proof. done. Qed.
Lemma readonly_lift {A} (r : res A) : readonly (lift r).
Proof. done. Qed.
Lemma readonly_bind {A B} (m : M A) (k : A → M B) :
  readonly m → (∀ a, readonly (k a)) → readonly (bind m k).
Proof.
  intros Hm Hk w. unfold bind. specialize (Hm w). destruct (m w) as [w1 [a|e]]; simpl in *; [|done].
  subst. apply Hk.
Qed.
Lemma readonly_mapM {A B} (f : A → M B) l : (∀ x, readonly (f x)) → readonly (mapM_st f l).
Proof.
  intros Hf. induction l; simpl; [apply readonly_ret|].
  apply readonly_bind; [done|]. intros. apply readonly_bind; [done|]. intros; apply readonly_ret.
Qed.
Lemma readonly_foldM {A B} (f : B → A → M B) b l : (∀ b x, readonly (f b x)) → readonly (foldM_st f b l).
Proof.
  intros Hf. revert b. induction l; intros b; simpl; [apply readonly_ret|].
  apply readonly_bind; [done|]. intros. apply IHl.
Qed.
Lemma readonly_read_file p : readonly (read_file p).
Proof. done. Qed.
Lemma readonly_read_index p : readonly (read_index p).
Proof. apply readonly_bind; [done|]. by intros []. Qed.
Lemma readonly_read_records p : readonly (read_records p).
Proof. apply readonly_bind; [done|]. by intros []. Qed.
Lemma readonly_read_idx_man p : readonly (read_idx_man p).
Proof. apply readonly_bind; [done|]. by intros []. Qed.
Lemma readonly_read_change p : readonly (read_change p).
Proof. apply readonly_bind; [done|]. by intros []. Qed.
Lemma readonly_read_meta p : readonly (read_meta p).
Proof. apply readonly_bind; [done|]. by intros []. Qed.
Lemma readonly_read_entry : readonly read_entry.
Proof. apply readonly_bind; [done|]. by intros []. Qed.
Lemma hoare_readonly {A} lo (P : world → Prop) (m : M A) :
  readonly m → hoare lo P m (fun a w => m w = (w, Ok a) ∧ P w).
Proof.
  intros Hm w Hw Hlo. specialize (Hm w). destruct (m w) as [w1 r] eqn:E. simpl in *. subst.
  split; [apply wle_refl|]. destruct r; [|done]. done.
Qed.
