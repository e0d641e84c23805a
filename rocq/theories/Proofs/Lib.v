(** Generic lemmas. *)
From Verif.Model Require Import Base.

Lemma rbind_ok {A B} (m : res A) (f : A → res B) b :
  rbind m f = Ok b ↔ ∃ a, m = Ok a ∧ f a = Ok b.
Proof. destruct m; simpl; split; try done; [eauto|intros (?&[= ->]&?); done|intros (?&?&?); done]. Qed.
Lemma rmap_ok {A B} (f : A → B) (m : res A) b :
  rmap f m = Ok b ↔ ∃ a, m = Ok a ∧ b = f a.
Proof. destruct m; simpl; split; try done; [intros [= <-]; eauto|intros (?&[= ->]&->); done|intros (?&?&?); done]. Qed.
Lemma of_opt_ok {A} e (o : option A) a : of_opt e o = Ok a ↔ o = Some a.
Proof. destruct o; simpl; split; congruence. Qed.

Lemma rmapM_ok {A B} (f : A → res B) l l' :
  rmapM f l = Ok l' ↔ Forall2 (fun x y => f x = Ok y) l l'.
Proof.
  revert l'; induction l as [|x l IH]; intros l'; simpl.
  - split; [intros [= <-]; constructor|]. intros Hf; inversion Hf; done.
  - rewrite rbind_ok. setoid_rewrite rbind_ok. split.
    + intros (y&Hy&ys&Hys&[= <-]). constructor; [done|]. by apply IH.
    + intros Hf; inversion Hf; subst. eexists; split; [done|]. eexists; split; [by apply IH|done].
Qed.
Lemma rmapM_total {A B} (f : A → res B) (g : A → B) l :
  (∀ x, x ∈ l → f x = Ok (g x)) → rmapM f l = Ok (g <$> l).
Proof.
  intros Hf. induction l as [|x l IH]; simpl; [done|].
  rewrite Hf by set_solver. simpl. rewrite IH; [done|]. intros; apply Hf; set_solver.
Qed.
Lemma rmapM_ok_length {A B} (f : A → res B) l l' : rmapM f l = Ok l' → length l' = length l.
Proof. intros H%rmapM_ok%Forall2_length. done. Qed.
Lemma rmapM_app {A B} (f : A → res B) l1 l2 l :
  rmapM f (l1 ++ l2) = Ok l ↔ ∃ k1 k2, rmapM f l1 = Ok k1 ∧ rmapM f l2 = Ok k2 ∧ l = k1 ++ k2.
Proof.
  setoid_rewrite rmapM_ok. split.
  - intros (k1&k2&?&?&->)%Forall2_app_inv_l. eauto.
  - intros (k1&k2&?&?&->). by apply Forall2_app.
Qed.
Lemma rmapM_concat {A B} (f : A → res B) ls l :
  rmapM f (concat ls) = Ok l → ∃ ks, Forall2 (fun x y => rmapM f x = Ok y) ls ks ∧ l = concat ks.
Proof.
  revert l; induction ls as [|x ls IH]; intros l; simpl.
  - intros [= <-]. exists []; split; [constructor|done].
  - intros (k1&k2&H1&H2&->)%rmapM_app. apply IH in H2 as (ks&Hks&->).
    exists (k1 :: ks). split; [by constructor|done].
Qed.

Lemma bind_inv {S A B} (m : ST S A) (k : A → ST S B) s s' r :
  bind m k s = (s', r) →
  (∃ e, m s = (s', Err e) ∧ r = Err e) ∨
  (∃ a s1, m s = (s1, Ok a) ∧ k a s1 = (s', r)).
Proof.
  unfold bind. destruct (m s) as [s1 [a|e]]; [eauto|]. intros [= <- <-]. eauto.
Qed.
Lemma bind_ok {S A B} (m : ST S A) (k : A → ST S B) s s' b :
  bind m k s = (s', Ok b) ↔ ∃ a s1, m s = (s1, Ok a) ∧ k a s1 = (s', Ok b).
Proof.
  unfold bind. destruct (m s) as [s1 [a|e]]; split; try done; eauto.
  - by intros (?&?&[= -> ->]&?).
  - by intros (?&?&?&?).
Qed.
Lemma bind_run {S A B} (m : ST S A) (k : A → ST S B) s s1 a :
  m s = (s1, Ok a) → bind m k s = k a s1.
Proof. unfold bind. by intros ->. Qed.
Lemma lift_ok {S A} (r : res A) (s s' : S) (a : A) : lift r s = (s', Ok a) ↔ s' = s ∧ r = Ok a.
Proof. unfold lift. split; [intros [= <- ->]; done|intros [-> ->]; done]. Qed.
Lemma ret_ok {S A} (x : A) (s s' : S) (a : A) : ret x s = (s', Ok a) ↔ s' = s ∧ a = x.
Proof. unfold ret. split; [intros [= <- ->]; done|intros [-> ->]; done]. Qed.

Lemma concat_chop {A} sizes (l : list A) : concat (chop sizes l) = l.
Proof.
  revert l; induction sizes as [|n sizes IH]; intros [|x l]; simpl; try done.
  - by rewrite app_nil_r.
  - f_equal. rewrite IH. apply take_drop.
Qed.
Lemma chop_nonempty {A} sizes (l : list A) : Forall (fun c => c ≠ []) (chop sizes l).
Proof.
  revert l; induction sizes as [|n sizes IH]; intros [|x l]; simpl; repeat constructor; try done.
Qed.
Lemma concat_chunks_fuel {A} fuel n (l : list A) : length l ≤ fuel → concat (chunks_fuel fuel n l) = l.
Proof.
  revert l; induction fuel as [|fuel IH]; intros [|x l]; simpl; intros Hl; try done; try lia.
  f_equal. rewrite IH; [apply take_drop|]. rewrite drop_length. lia.
Qed.
Lemma concat_chunks {A} n (l : list A) : concat (chunks n l) = l.
Proof. by apply concat_chunks_fuel. Qed.
Lemma chunks_fuel_bound {A} fuel n (l : list A) :
  1 ≤ n → Forall (fun c => length c ≤ n) (chunks_fuel fuel n l).
Proof.
  intros Hn. revert l; induction fuel as [|fuel IH]; intros [|x l]; simpl; constructor; auto.
  simpl. rewrite take_length. lia.
Qed.
Lemma chunks_bound {A} n (l : list A) : 1 ≤ n → Forall (fun c => length c ≤ n) (chunks n l).
Proof. apply chunks_fuel_bound. Qed.

Lemma Zsum_app l1 l2 : Zsum (l1 ++ l2) = (Zsum l1 + Zsum l2)%Z.
Proof. induction l1; simpl; unfold Zsum in *; simpl; lia. Qed.

Lemma concat_map_fmap {A B} (f : A → B) (ls : list (list A)) :
  concat (map (map f) ls) = map f (concat ls).
Proof. induction ls as [|l ls IH]; simpl; [done|]. by rewrite IH, map_app. Qed.
