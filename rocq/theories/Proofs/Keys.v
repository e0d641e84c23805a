(** Filters on primary keys (primary_key_filter). *)
From Verif.Model Require Import System.
From Verif.Spec Require Import Logical Pruning Keys.
From Verif.Proofs Require Import Lib Order World Resolve SchemaFacts.

(** Expressions built from "key = value" by "and" and "or". *)
Inductive keyf (pks : list string) : filter_expr → Prop :=
| keyf_leaf k v : k ∈ pks → keyf pks (key_expr k (Some v))
| keyf_and a b : keyf pks a → keyf pks b → keyf pks (EBin FnAnd a b)
| keyf_or a b : keyf pks a → keyf pks b → keyf pks (EBin FnOr a b).

Lemma keyf_prunable pks pks' e : keyf pks e → prunable pks' e = true.
Proof. induction 1; cbn; [done|by rewrite IHkeyf1, IHkeyf2..]. Qed.
Lemma keyf_fields pks e n : keyf pks e → n ∈ filter_fields e → n ∈ pks.
Proof. induction 1; cbn; set_solver. Qed.
Lemma keyf_ext pks e (look look' : string → option scalar) :
  keyf pks e → (∀ n, n ∈ pks → look n = look' n) → eval look e = eval look' e.
Proof.
  intros He Hl. induction He; cbn; [by rewrite Hl|..]; by rewrite IHHe1, IHHe2.
Qed.
Lemma keyf_ignores s e : wf_schema s → keyf (s_pks s) e → ignores (s_recs s) e.
Proof. intros Hs He look look' Hl. eapply keyf_ext; [done|]. intros n Hn. by apply Hl, Hs. Qed.
Lemma keyf_safe s e : wf_schema s → plain_keys s → keyf (s_pks s) e → safe_filter s e.
Proof.
  intros Hs Hp He. split_and!; [by eapply keyf_prunable|by apply keyf_ignores|].
  intros n [Hn|Hn]%elem_of_app; apply Hp; [done|]. by eapply keyf_fields.
Qed.

(** Equality of keys. *)
Definition same_keys (pks : list string) (look : string → option scalar) (vals : list (option scalar)) : Prop :=
  Forall2 (fun k v => ∃ x y, look k = Some x ∧ v = Some y ∧ cmp_holds OpEq x y = true) pks vals.
Definition nonnull (vals : list (option scalar)) : Prop := Forall (fun v => v ≠ None) vals.

Lemma row_key_foldl pks0 pks vals look e0 b0 e :
  (∀ k, k ∈ pks → k ∈ pks0) →
  keyf pks0 e0 → eval look e0 = Some (SBool b0) →
  (∀ k, k ∈ pks → look k ≠ None) → nonnull vals → length vals = length pks →
  foldl (fun acc '(k, v) => match acc with
                            | None => Some (key_expr k v)
                            | Some e => Some (EBin FnAnd e (key_expr k v)) end) (Some e0) (zip pks vals) = Some e →
  keyf pks0 e ∧ ∃ b, eval look e = Some (SBool b) ∧ (b = true ↔ b0 = true ∧ same_keys pks look vals).
Proof.
  revert vals e0 b0. induction pks as [|k pks IH]; intros [|v vals] e0 b0 Hin He0 Hev Hl Hn Hlen Hf; try done.
  - injection Hf as <-. split; [done|]. exists b0. split; [done|]. split; [|by intros [? _]]. intros ->. split; [done|constructor].
  - cbn in Hf. inversion Hn as [|? ? Hv Hn']; subst. destruct v as [v|]; [|done].
    destruct (look k) as [x|] eqn:Hk; [|exfalso; eapply Hl; [|exact Hk]; set_solver].
    edestruct (IH vals (EBin FnAnd e0 (key_expr k (Some v))) (b0 && cmp_holds OpEq x v)) as (He&b&Hb&Hiff); try done.
    + set_solver.
    + constructor; [done|]. constructor. set_solver.
    + cbn. rewrite Hev, Hk. cbn. by destruct b0, (cmp_holds OpEq x v).
    + set_solver.
    + cbn in Hlen. lia.
    + split; [done|]. exists b. split; [done|]. rewrite Hiff, andb_true_iff. split.
      * intros [[Hb0 Hc] Hs]. split; [done|]. constructor; [|done]. eauto.
      * intros [Hb0 Hs]. apply Forall2_cons in Hs as [(x'&y'&Hx'&Hy'&Hc) Hs'].
        injection Hy' as <-. rewrite Hk in Hx'. by injection Hx' as <-.
Qed.
Lemma row_key_filter_spec pks vals look e :
  (∀ k, k ∈ pks → look k ≠ None) → nonnull vals → length vals = length pks →
  row_key_filter pks vals = Some e →
  keyf pks e ∧ ∃ b, eval look e = Some (SBool b) ∧ (b = true ↔ same_keys pks look vals).
Proof.
  unfold row_key_filter. intros Hl Hn Hlen. destruct pks as [|k pks], vals as [|v vals]; try done. cbn.
  inversion Hn as [|? ? Hv Hn']; subst. destruct v as [v|]; [|done].
  destruct (look k) as [x|] eqn:Hk; [|exfalso; eapply Hl; [|exact Hk]; set_solver]. intros Hf.
  edestruct (row_key_foldl (k :: pks) pks vals look (key_expr k (Some v)) (cmp_holds OpEq x v) e) as (He&b&Hb&Hiff); try done.
  - set_solver.
  - constructor. set_solver.
  - cbn. by rewrite Hk.
  - set_solver.
  - cbn in Hlen. lia.
  - split; [done|]. exists b. split; [done|]. rewrite Hiff. split.
    + intros [Hc Hs]. constructor; [|done]. eauto.
    + intros Hs. apply Forall2_cons in Hs as [(x'&y'&Hx'&Hy'&Hc) Hs']. injection Hy' as <-. rewrite Hk in Hx'. by injection Hx' as <-.
Qed.
Lemma key_filter_loop_spec pks keys seen acc look e b0 :
  (∀ k, k ∈ pks → look k ≠ None) → Forall nonnull keys → Forall (fun k => length k = length pks) keys →
  match acc with None => b0 = false | Some a => keyf pks a ∧ eval look a = Some (SBool b0) end →
  key_filter_loop pks keys seen acc = Ok (Some e) →
  NoDup keys ∧ (∀ k, k ∈ keys → k ∉ seen) ∧
  keyf pks e ∧ ∃ b, eval look e = Some (SBool b) ∧ (b = true ↔ b0 = true ∨ ∃ k, k ∈ keys ∧ same_keys pks look k).
Proof.
  intros Hl. revert seen acc b0. induction keys as [|k keys IH]; intros seen acc b0 Hn Hlen Hacc Hf.
  - cbn in Hf. injection Hf as ->. destruct Hacc as [Ha He]. split_and!; [constructor|set_solver|done|].
    exists b0. set_solver.
  - cbn in Hf. case_decide as Hs; [done|]. destruct (row_key_filter pks k) as [ek|] eqn:Hek; [|done].
    apply Forall_cons in Hn as [Hnk Hn]. apply Forall_cons in Hlen as [Hlk Hlen].
    destruct (row_key_filter_spec pks k look ek Hl Hnk Hlk Hek) as (Hke&bk&Hbk&Hiffk).
    destruct (IH (k :: seen) (Some (match acc with None => ek | Some a => EBin FnOr a ek end)) (b0 || bk)) as (Hnd&Hns&He&b&Hb&Hiff); [done|done| |exact Hf|].
    + destruct acc as [a|]; cbn.
      * destruct Hacc as [Ha Hea]. split; [by constructor|]. rewrite Hea, Hbk. by destruct b0, bk.
      * subst b0. done.
    + split_and!; [|set_solver|done|].
      * constructor; [|done]. intros Hk. apply (Hns k Hk). set_solver.
      * exists b. split; [done|]. rewrite Hiff, orb_true_iff, Hiffk. set_solver.
Qed.

(** Keys of rows. *)
Lemma row_key_ok pks r vals : row_key pks r = Ok vals → vals = key_of pks r.
Proof.
  unfold row_key, key_of. intros H%rmapM_ok. induction H as [|k v pks vals Hk _ IH]; [done|].
  rewrite fmap_cons, IH. f_equal. unfold row_look. destruct (rget k r); [|done]. by injection Hk as <-.
Qed.
Lemma same_keys_eq pks look r :
  (∀ n, n ∈ pks → ∃ x, look n = Some x ∧ x ≠ SNaN) →
  same_keys pks look (key_of pks r) ↔ key_of pks r = look <$> pks.
Proof.
  intros Hl. unfold same_keys, key_of. induction pks as [|k pks IH]; [split; [done|constructor]|].
  rewrite !fmap_cons, Forall2_cons. rewrite IH by set_solver. destruct (Hl k) as (x&Hx&Hnx); [set_solver|].
  split.
  - intros [(x'&y&Hx'&Hy&Hc) Hrest]. rewrite Hx in Hx'. injection Hx' as <-. rewrite Hx, Hy, Hrest. do 2 f_equal.
    unfold cmp_holds in Hc. destruct (is_nan x || is_nan y); [done|]. destruct (scmp x y) eqn:Hs; try done.
    symmetry. by apply scmp_eq_nan.
  - intros [= Hy Hrest]. split; [|done]. exists x, x. rewrite <-Hx. split_and!; [done|done|].
    unfold cmp_holds. assert (is_nan x = false) as Hn by (by destruct x). rewrite Hn. cbn. by rewrite scmp_refl.
Qed.
Lemma primary_key_filter_spec pks data e :
  key_nonnull pks data → primary_key_filter pks data = Ok (Some e) →
  NoDup (key_of pks <$> data) ∧ keyf pks e ∧
  ∀ r, (∀ n, n ∈ pks → row_look r n ≠ None ∧ row_look r n ≠ Some SNaN) →
    ∃ b, eval (row_look r) e = Some (SBool b) ∧ (b = true ↔ ∃ d, d ∈ data ∧ key_of pks d = key_of pks r).
Proof.
  unfold primary_key_filter. intros Hn Hf. apply rbind_ok in Hf as (keys&Hk&Hf).
  assert (Hkeys : keys = key_of pks <$> data).
  { apply rmapM_ok in Hk. clear -Hk. induction Hk as [|r v data keys Hr _ IH]; [done|].
    rewrite fmap_cons, IH. f_equal. by apply row_key_ok. }
  subst keys.
  assert (Hnn : Forall nonnull (key_of pks <$> data)).
  { apply Forall_forall. intros k (r&->&Hr)%elem_of_list_fmap. apply Forall_forall.
    intros v (n&->&Hnn)%elem_of_list_fmap. by apply Hn. }
  assert (Hlen : Forall (fun k => length k = length pks) (key_of pks <$> data)).
  { apply Forall_forall. intros k (r&->&Hr)%elem_of_list_fmap. unfold key_of. by rewrite fmap_length. }
  split_and!.
  - edestruct (key_filter_loop_spec pks (key_of pks <$> data) [] None (fun _ => Some SNaN) e false) as (?&_); done.
  - edestruct (key_filter_loop_spec pks (key_of pks <$> data) [] None (fun _ => Some SNaN) e false) as (_&_&?&_); done.
  - intros r Hr.
    edestruct (key_filter_loop_spec pks (key_of pks <$> data) [] None (row_look r) e false) as (_&_&_&b&Hb&Hiff);
      [|done..|].
    { intros k Hkk. by apply Hr. }
    exists b. split; [done|]. rewrite Hiff. split.
    + intros [?|(k&(d&->&Hd)%elem_of_list_fmap&Hs)]; [done|]. exists d. split; [done|]. apply same_keys_eq in Hs; [done|].
      intros n Hnn'. destruct (Hr n Hnn') as [H1 H2]. destruct (row_look r n) as [x|]; [|done]. exists x. naive_solver.
    + intros (d&Hd&Heq). right. exists (key_of pks d). split; [apply elem_of_list_fmap; eauto|]. apply same_keys_eq; [|done].
      intros n Hnn'. destruct (Hr n Hnn') as [H1 H2]. destruct (row_look r n) as [x|]; [|done]. exists x. naive_solver.
Qed.
