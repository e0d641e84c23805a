(** Lemmas on rows, projections and address resolution. *)
From Verif.Model Require Import Schema AppendOp ReadOp.
From Verif.Spec Require Import Logical.
From Verif.Proofs Require Import Lib World.

Definition rview := path → option (list string).
(** Record files may grow at the end. *)
Definition vle (rv rv' : rview) : Prop :=
  ∀ p rs, rv p = Some rs → ∃ more, rv' p = Some (rs ++ more).
Lemma vle_refl rv : vle rv rv.
Proof. intros p rs Hp. exists []. by rewrite app_nil_r. Qed.
Lemma vle_trans a b c : vle a b → vle b c → vle a c.
Proof.
  intros H1 H2 p rs Hp. destruct (H1 _ _ Hp) as [m1 Hm1]. destruct (H2 _ _ Hm1) as [m2 Hm2].
  exists (m1 ++ m2). by rewrite app_assoc.
Qed.
Lemma resolve_cell_vle rv rv' c d :
  vle rv rv' → resolve_cell rv c = Some d → resolve_cell rv' c = Some d.
Proof.
  intros Hv. destruct c as [|v|p i|ls]; simpl; try done. case_decide; [|done].
  destruct (rv p) as [rs|] eqn:Hp; [|done]. simpl. destruct (Hv _ _ Hp) as [more ->]. simpl.
  destruct (rs !! Z.to_nat i) eqn:Hi; [|done]. simpl. intros [= <-].
  by rewrite (lookup_app_l_Some _ _ _ _ Hi).
Qed.
Lemma resolve_field_vle rv rv' recs c d :
  vle rv rv' → resolve_field rv recs c = Some d → resolve_field rv' recs c = Some d.
Proof.
  intros Hv. unfold resolve_field. case_decide; [|done].
  destruct (resolve_cell rv c.2) eqn:Hc; [|done]. simpl.
  by rewrite (resolve_cell_vle _ _ _ _ Hv Hc).
Qed.
Lemma mapM_impl {A B} (f g : A → option B) l k :
  (∀ x y, f x = Some y → g x = Some y) → mapM f l = Some k → mapM g l = Some k.
Proof. rewrite !mapM_Some. intros Hfg Hl. eapply Forall2_impl; eauto. Qed.
Lemma resolve_row_vle rv rv' recs r l :
  vle rv rv' → resolve_row rv recs r = Some l → resolve_row rv' recs r = Some l.
Proof. intros Hv. apply mapM_impl. intros ??. by apply resolve_field_vle. Qed.
Definition resolve_rows rv recs := mapM (resolve_row rv recs).
Lemma resolve_rows_vle rv rv' recs r l :
  vle rv rv' → resolve_rows rv recs r = Some l → resolve_rows rv' recs r = Some l.
Proof. intros Hv. apply mapM_impl. intros ??. by apply resolve_row_vle. Qed.
Lemma mapM_app_Some {A B} (f : A → option B) l1 l2 k :
  mapM f (l1 ++ l2) = Some k ↔ ∃ k1 k2, mapM f l1 = Some k1 ∧ mapM f l2 = Some k2 ∧ k = k1 ++ k2.
Proof.
  setoid_rewrite mapM_Some. split.
  - intros (k1&k2&?&?&->)%Forall2_app_inv_l. eauto.
  - intros (k1&k2&?&?&->). by apply Forall2_app.
Qed.

Lemma resolve_row_names rv recs r l : resolve_row rv recs r = Some l → l.*1 = r.*1.
Proof.
  intros H%mapM_Some. induction H as [|[n c] [m d] r l Hx _ IH]; [done|]. simpl. f_equal; [|done].
  unfold resolve_field in Hx. simpl in Hx. case_decide; [|congruence].
  destruct (resolve_cell rv c); simpl in Hx; congruence.
Qed.

Lemma rget_in n r c : rget n r = Some c → (n, c) ∈ r.
Proof.
  induction r as [|[m d] r IH]; simpl; [done|]. case_decide; [|set_solver].
  intros [= ->]. subst. set_solver.
Qed.
Lemma rget_some n (r : row) : n ∈ r.*1 → is_Some (rget n r).
Proof.
  induction r as [|[m d] r IH]; simpl; [set_solver|]. case_decide; [eauto|].
  intros [?|?]%elem_of_cons; [done|auto].
Qed.
Lemma rget_none n (r : row) : n ∉ r.*1 → rget n r = None.
Proof.
  induction r as [|[m d] r IH]; simpl; [done|]. intros Hn. case_decide; [set_solver|]. apply IH; set_solver.
Qed.
Lemma in_rget n c (r : row) : NoDup (r.*1) → (n, c) ∈ r → rget n r = Some c.
Proof.
  induction r as [|[m d] r IH]; simpl; [set_solver|]. intros [Hm Hnd]%NoDup_cons Hin.
  case_decide as Hd; apply elem_of_cons in Hin as [[=]|Hin]; subst; try done; auto.
  exfalso. apply Hm. apply elem_of_list_fmap. exists (m, c). done.
Qed.
Lemma rget_app n (a b : row) : rget n (a ++ b) = match rget n a with Some c => Some c | None => rget n b end.
Proof. induction a as [|[m d] a IH]; simpl; [done|]. by case_decide. Qed.

Lemma rsel_ok names r r' :
  rsel names r = Ok r' ↔ Forall2 (fun n nc => nc.1 = n ∧ rget n r = Some nc.2) names r'.
Proof.
  unfold rsel. rewrite rmapM_ok. split; intros H; (eapply Forall2_impl; [exact H|]).
  - intros n [m c]; simpl. destruct (rget n r); [|done]. intros [= <- <-]. done.
  - intros n [m c]; simpl. intros [-> ->]. done.
Qed.
Lemma rsel_names names r r' : rsel names r = Ok r' → r'.*1 = names.
Proof.
  rewrite rsel_ok. intros H. induction H as [|n [m c] names r' [<- _] _ IH]; simpl; [done|]. by f_equal.
Qed.
Lemma rsel_app a b r r' :
  rsel (a ++ b) r = Ok r' ↔ ∃ r1 r2, rsel a r = Ok r1 ∧ rsel b r = Ok r2 ∧ r' = r1 ++ r2.
Proof. unfold rsel. apply rmapM_app. Qed.
(** Selecting all columns in order is the identity. *)
Lemma rsel_all r : NoDup (r.*1) → rsel (r.*1) r = Ok r.
Proof.
  intros Hnd. apply rsel_ok.
  assert (Hin : ∀ nc, nc ∈ r → rget nc.1 r = Some nc.2).
  { intros [n c] Hnc. by apply in_rget. }
  cut (∀ r1 : row, (∀ nc, nc ∈ r1 → rget nc.1 r = Some nc.2) →
         Forall2 (fun n nc => nc.1 = n ∧ rget n r = Some nc.2) r1.*1 r1); [auto|].
  clear. intros r1. induction r1 as [|nc r1 IH]; simpl; intros Hin; constructor.
  - split; [done|]. apply Hin. set_solver.
  - apply IH. intros. apply Hin. set_solver.
Qed.
Lemma rsel_total names r : (∀ n, n ∈ names → n ∈ r.*1) → ∃ r', rsel names r = Ok r'.
Proof.
  intros Hin. induction names as [|n names IH]; [by exists []|].
  destruct (rget_some n r) as [c Hc]; [set_solver|].
  destruct IH as [r' Hr']; [set_solver|].
  exists ((n, c) :: r'). apply rsel_ok. constructor; [done|]. by apply rsel_ok.
Qed.

Lemma rget_resolve rv recs r l n :
  resolve_row rv recs r = Some l →
  match rget n r with
  | Some c => ∃ d, resolve_field rv recs (n, c) = Some (n, d) ∧ rget n l = Some d
  | None => rget n l = None
  end.
Proof.
  intros H%mapM_Some. induction H as [|[m c] [m' d] r l Hx _ IH]; simpl; [done|].
  assert (m' = m) as ->.
  { unfold resolve_field in Hx. simpl in Hx. case_decide; [|congruence].
    destruct (resolve_cell rv c); simpl in Hx; congruence. }
  case_decide; [subst; eauto|done].
Qed.
(** Projection commutes with resolution. *)
Lemma rsel_resolve rv recs names r l r' :
  resolve_row rv recs r = Some l → rsel names r = Ok r' →
  ∃ l', resolve_row rv recs r' = Some l' ∧ rsel names l = Ok l'.
Proof.
  intros Hl. rewrite rsel_ok. intros H.
  induction H as [|n [m c] names r' [Hm Hg] _ (l'&Hl'&Hs)]; simpl in *.
  - by exists [].
  - subst m. pose proof (rget_resolve rv recs r l n Hl) as Hr. rewrite Hg in Hr.
    destruct Hr as (d&Hd&Hgl). exists ((n, d) :: l').
    unfold resolve_row in *. simpl. rewrite Hd. simpl. rewrite Hl'. split; [done|].
    apply rsel_ok. constructor; [done|]. by apply rsel_ok.
Qed.
Lemma row_look_resolve rv recs r l n :
  resolve_row rv recs r = Some l → n ∉ recs → row_look l n = row_look r n.
Proof.
  intros Hl Hn. unfold row_look. pose proof (rget_resolve rv recs r l n Hl) as Hr.
  destruct (rget n r) as [c|]; [|by rewrite Hr].
  destruct Hr as (d&Hd&->). unfold resolve_field in Hd. simpl in Hd.
  rewrite decide_False in Hd by done. by injection Hd as ->.
Qed.

Lemma tsel_ok names t t' : tsel names t = Ok t' ↔ Forall2 (fun r r' => rsel names r = Ok r') t t'.
Proof. apply rmapM_ok. Qed.
Lemma tcol_ok n t col : tcol n t = Ok col ↔ Forall2 (fun r c => rget n r = Some c) t col.
Proof.
  unfold tcol. rewrite rmapM_ok. split; intros H; (eapply Forall2_impl; [exact H|]).
  - intros r c; simpl. by destruct (rget n r); [intros [= ->]|].
  - intros r c; simpl. by intros ->.
Qed.
