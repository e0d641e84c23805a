(** Which files an operation can touch, whatever its outcome. *)
From Verif.Model Require Import System.
From Verif.Proofs Require Import Lib.

(** [m] relates the states before and after by [R], and returns only values
    that satisfy [P]. *)
Definition frame {S A} (R : S → S → Prop) (P : A → Prop) (m : ST S A) : Prop :=
  ∀ x x' r, m x = (x', r) → R x x' ∧ ∀ a, r = Ok a → P a.

Section rules.
Context {S : Type} (R : S → S → Prop) `{!PreOrder R}.
Lemma frame_ret {A} (P : A → Prop) a : P a → frame R P (ret a).
Proof. intros HP x x' r [= <- <-]. split; [done|]. by intros ? [= <-]. Qed.
Lemma frame_raise {A} (P : A → Prop) e : frame R P (raise e).
Proof. intros x x' r [= <- <-]. by split. Qed.
Lemma frame_lift {A} (P : A → Prop) r : (∀ a, r = Ok a → P a) → frame R P (lift r).
Proof. intros HP x x' r' [= <- <-]. by split. Qed.
Lemma frame_gets {A} (P : A → Prop) (f : S → A) : (∀ x, P (f x)) → frame R P (gets f).
Proof. intros HP x x' r [= <- <-]. split; [done|]. by intros ? [= <-]. Qed.
Lemma frame_bind {A B} (P : A → Prop) (Q : B → Prop) (m : ST S A) k :
  frame R P m → (∀ a, P a → frame R Q (k a)) → frame R Q (bind m k).
Proof.
  intros Hm Hk x x' r. unfold bind. destruct (m x) as [x1 [a|e]] eqn:He.
  - destruct (Hm _ _ _ He) as [H1 HP]. intros H. destruct (Hk a (HP _ eq_refl) _ _ _ H) as [H2 HQ].
    split; [by etrans|done].
  - destruct (Hm _ _ _ He) as [H1 _]. intros [= <- <-]. by split.
Qed.
Lemma frame_weaken {A} (P Q : A → Prop) m : frame R P m → (∀ a, P a → Q a) → frame R Q m.
Proof. intros Hm HPQ x x' r H. destruct (Hm _ _ _ H) as [? HP]. split; [done|]. intros a Ha. by apply HPQ, HP. Qed.
Lemma frame_mapM {A B} (f : A → ST S B) l : (∀ x, x ∈ l → frame R (fun _ => True) (f x)) → frame R (fun _ => True) (mapM_st f l).
Proof.
  induction l as [|x l IH]; intros Hf; cbn; [by apply frame_ret|].
  eapply frame_bind; [apply Hf; by left|]. intros ? _. eapply frame_bind; [apply IH; intros; apply Hf; by right|].
  intros ? _. by apply frame_ret.
Qed.
Lemma frame_foldM {A T} (P : T → Prop) (f : T → A → ST S T) l : ∀ t,
  P t → (∀ t x, P t → x ∈ l → frame R P (f t x)) → frame R P (foldM_st f t l).
Proof.
  induction l as [|x l IH]; intros t Ht Hf; cbn; [by apply frame_ret|].
  eapply frame_bind; [apply Hf; [done|by left]|]. intros t' Ht'. apply IH; [done|]. intros; apply Hf; [done|by right].
Qed.
End rules.

(** The files on which [K] holds stay the same. *)
Definition same_files (K : path → Prop) (w w' : world) : Prop := ∀ p, K p → w_fs w' !! p = w_fs w !! p.
Global Instance same_files_preorder K : PreOrder (same_files K).
Proof. split; [by intros ? ?|]. intros a b c H1 H2 p Hp. by rewrite H2, H1. Qed.
Definition same_files_h (K : path → Prop) (x x' : handle * world) : Prop := same_files K x.2 x'.2.
Global Instance same_files_h_preorder K : PreOrder (same_files_h K).
Proof. split; [by intros ? ?|]. intros a b c H1 H2 p Hp. by rewrite H2, H1. Qed.

(** Files that only commits write. *)
Definition commit_path (p : path) : Prop := p = PEntry ∨ ∃ u, p = PGen KMeta u ∨ p = PGen KChange u ∨ p = PGen KTmp u.
Section commit.
Context (K : path → Prop) (HK : ∀ p, K p → ¬ commit_path p).
Notation frm := (frame (same_files K) (fun _ => True)).
Notation frh := (frame (same_files_h K) (fun _ => True)).

Lemma frame_put p f : ¬ K p → frm (put_file p f).
Proof.
  intros Hp w w' r [= <- <-]. split; [|done]. intros q Hq. cbn. rewrite lookup_insert_ne; [done|]. congruence.
Qed.
Lemma frame_fresh : frm fresh.
Proof. intros w w' r [= <- <-]. by split. Qed.
Lemma frame_new k : frame (same_files K) (fun p => ∃ u, p = PGen k u) (new_path k).
Proof. intros w w' r [= <- <-]. split; [done|]. intros ? [= <-]. eauto. Qed.
Lemma frame_read_file p : frm (read_file p).
Proof. intros w w' r [= <- <-]. by split. Qed.
Lemma frame_read {A} p (k : file → M A) : (∀ f, ∃ r, k f = lift r) → frm (bind (read_file p) k).
Proof.
  intros Hk. eapply frame_bind; [apply _|apply frame_read_file|]. intros f _. destruct (Hk f) as [r ->]. apply frame_lift; [apply _|done].
Qed.
Lemma frame_read_index p : frm (read_index p).
Proof. apply frame_read. intros []; first [by exists (Err (EOther "ArrowInvalid: not Parquet"))|by eexists (Ok _)]. Qed.
Lemma frame_read_records p : frm (read_records p).
Proof. apply frame_read. intros []; first [by exists (Err (EOther "not an ArrayRecord file"))|by eexists (Ok _)]. Qed.
Lemma frame_read_meta p : frm (read_meta p).
Proof. apply frame_read. intros []; first [by exists (Err (EOther "ParseError"))|by eexists (Ok _)]. Qed.
Lemma frame_read_entry : frm read_entry.
Proof. apply frame_read. intros []; first [by exists (Err (EOther "ParseError"))|by eexists (Ok _)]. Qed.
Lemma frame_write_parquet p f : ¬ K p → frm (write_parquet p f).
Proof. intros Hp. eapply frame_bind; [apply _|by apply frame_put|]. intros _ _. by apply frame_put. Qed.
Lemma frame_write_proto p f b : commit_path p → frm (write_proto p f b).
Proof.
  intros Hp. unfold write_proto. eapply frame_bind; [apply _|by apply (frame_gets _ (fun _ => True))|]. intros found _.
  destruct (b && found); [apply frame_raise; apply _|].
  eapply frame_bind; [apply _|apply frame_fresh|]. intros u _.
  assert (Ht : ¬ K (PGen KTmp u)) by (intros Hk; apply (HK _ Hk); right; eauto).
  eapply frame_bind; [apply _|by apply frame_put|]. intros _ _.
  eapply frame_bind; [apply _|by apply frame_put|]. intros _ _.
  intros w w' r [= <- <-]. split; [|done]. intros q Hq. cbn. destruct (w_fs w !! PGen KTmp u); [|done].
  rewrite lookup_insert_ne by (intros ->; by apply (HK _ Hq)).
  rewrite lookup_delete_ne; [done|]. congruence.
Qed.
Lemma frame_write_metadata p m b : commit_path p → frm (write_metadata p m b).
Proof.
  intros Hp. eapply frame_bind; [apply _|by apply frame_write_proto|]. intros _ _. apply frame_write_proto. by left.
Qed.
Lemma frame_liftM {A} (P : A → Prop) (m : M A) : frame (same_files K) P m → frame (same_files_h K) P (liftM m).
Proof.
  intros Hm [h w] [h' w'] r. unfold liftM. destruct (m w) as [w1 r1] eqn:He. intros [= <- <- <-]. by apply (Hm _ _ _ He).
Qed.
Lemma frame_get_handle : frh get_handle.
Proof. by apply (frame_gets _ (fun _ => True)). Qed.
Lemma frame_set_handle h : frh (set_handle h).
Proof. intros [h0 w] x' r [= <- <-]. by split. Qed.

Lemma frame_reload : frh reload.
Proof.
  unfold reload. eapply frame_bind; [apply _|apply frame_get_handle|]. intros h _.
  eapply frame_bind; [apply _|apply frame_liftM, frame_read_entry|]. intros p _.
  case_decide; [by apply frame_ret; [apply _|]|].
  eapply frame_bind; [apply _|apply frame_liftM, frame_read_meta|]. intros m _.
  eapply frame_bind; [apply _|apply frame_set_handle|]. intros _ _. by apply frame_ret; [apply _|].
Qed.
Lemma frame_commit p b : frh (commit p b).
Proof.
  unfold commit. eapply frame_bind; [apply _|apply frame_get_handle|]. intros h _.
  eapply frame_bind; [apply _|apply frame_set_handle|]. intros _ _.
  eapply frame_bind; [apply _|by apply (frame_lift _ (fun _ => True))|]. intros [[refs cur] base] _.
  eapply frame_bind; [apply _|apply frame_liftM, frame_new|]. intros mp [u ->].
  eapply frame_bind; [apply _|apply (frame_liftM (fun _ => True)), frame_gets; [apply _|done]|]. intros t _.
  eapply frame_bind; [apply _|by apply (frame_lift _ (fun _ => True))|]. intros [idx rec] _.
  eapply (frame_bind _ (fun _ => True)).
  { destruct (pa_log p); [|by apply frame_ret; [apply _|]].
    eapply frame_bind; [apply _|apply frame_liftM, frame_new|]. intros lp [v ->].
    eapply frame_bind; [apply _|apply frame_liftM, frame_write_proto; right; eauto|]. intros _ _. by apply frame_ret; [apply _|]. }
  intros log _. eapply frame_bind; [apply _|apply frame_liftM, frame_write_metadata; right; eauto|]. intros _ _.
  eapply frame_bind; [apply _|apply frame_get_handle|]. intros h' _. apply frame_set_handle.
Qed.
Lemma frame_txn_commit x p : frh (txn_commit x p).
Proof.
  unfold txn_commit. eapply (frame_bind _ (fun _ => True)).
  - unfold txn_check. eapply frame_bind; [apply _|apply frame_reload|]. intros _ _.
    eapply frame_bind; [apply _|apply frame_get_handle|]. intros h _.
    eapply frame_bind; [apply _|by apply (frame_lift _ (fun _ => True))|]. intros i _.
    destruct (_ =? _)%Z; [destruct p|]; by apply frame_ret; [apply _|].
  - intros [j|] _; [by apply frame_ret; [apply _|]|]. destruct p as [p|]; [|by apply frame_ret; [apply _|]].
    eapply frame_bind; [apply _|apply frame_commit|]. intros _ _. by apply frame_ret; [apply _|].
Qed.
Lemma frame_transactional fn : frh fn → frh (transactional fn).
Proof.
  intros Hfn. assert (Hb : frh (let! x := txn_begin in let! p := fn in txn_commit x p)).
  { eapply (frame_bind _ (fun _ => True)).
    - unfold txn_begin. eapply frame_bind; [apply _|apply frame_get_handle|]. intros h0 _.
      eapply frame_bind; [apply _|apply frame_reload|]. intros _ _.
      eapply frame_bind; [apply _|apply frame_get_handle|]. intros h _.
      eapply frame_bind; [apply _|by apply (frame_lift _ (fun _ => True))|]. intros i _. by apply frame_ret; [apply _|].
    - intros x _. eapply frame_bind; [apply _|exact Hfn|]. intros p _. apply frame_txn_commit. }
  intros x x' r. unfold transactional, catch_job. destruct ((let! _ := _ in _) x) as [x1 r1] eqn:He.
  intros H. assert (x1 = x') as <- by (destruct r1 as [|[]]; by injection H). split; [|done]. by apply (Hb _ _ _ He).
Qed.
End commit.
