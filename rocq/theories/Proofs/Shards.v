(** How the Ray operations split their work. *)
From Verif.Model Require Import RayOps.
From Verif.Proofs Require Import Lib.

Lemma shard_loop_spec {A} (data : list A) size k : 1 ≤ size → ∀ i off l o,
  shard_loop k i off size data = (l, o) →
  off ≤ o ∧ take off data ++ concat l.*2 = take o data ∧ l.*1 = seq i (length l) ∧ length l ≤ k
  ∧ (off < o ∨ k = 0).
Proof.
  intros Hsize. induction k as [|k IH]; intros i off l o; cbn [shard_loop].
  - intros [= <- <-]. cbn. rewrite app_nil_r. split_and!; auto; lia.
  - destruct (Nat.leb_spec (length data) (off + size)) as [Hle|Hgt].
    + intros [= <- <-]. cbn. rewrite app_nil_r, take_take_drop. split_and!; auto; try lia.
    + destruct (shard_loop k (S i) (off + size) size data) as [l' o'] eqn:Hl. intros [= <- <-].
      destruct (IH _ _ _ _ Hl) as (Ho&Hc&Hf&Hlen&_). cbn. split_and!; try lia.
      * by rewrite app_assoc, take_take_drop.
      * by rewrite Hf.
Qed.
Lemma ray_shards_spec {A} n (data : list A) :
  1 ≤ n → concat (ray_shards n data).*2 = data ∧ ∀ c, c ∈ ray_shards n data → c.1 < n.
Proof.
  intros Hn. unfold ray_shards. set (size := match length data / n with 0 => 1 | k => k end).
  assert (Hs : 1 ≤ size) by (unfold size; destruct (length data / n); lia).
  destruct (shard_loop n 0 0 size data) as [l o] eqn:Hl.
  destruct (shard_loop_spec data size n Hs _ _ _ _ Hl) as (_&Hc&Hf&Hlen&_). rewrite take_0, app_nil_l in Hc.
  assert (Hin : ∀ c, c ∈ l → c.1 < n).
  { intros c Hc'. apply (elem_of_list_fmap_1 fst) in Hc'. rewrite Hf in Hc'. apply elem_of_seq in Hc'. lia. }
  destruct (Nat.ltb_spec o (length data)) as [Hlt|Hge].
  - split.
    + rewrite fmap_app, concat_app, Hc. cbn. by rewrite app_nil_r, take_drop.
    + intros c [Hc'|Hc']%elem_of_app; [by apply Hin|]. apply elem_of_list_singleton in Hc' as ->. cbn. lia.
  - split; [|done]. rewrite Hc. by apply take_ge.
Qed.
Lemma ray_sources_spec {A} n (l : list A) :
  (ray_sources n l).*2 = l ∧ ∀ c, c ∈ ray_sources n l → 1 ≤ n → c.1 < n.
Proof.
  unfold ray_sources. split.
  - apply list_eq. intros i. rewrite list_lookup_fmap, list_lookup_imap. by destruct (l !! i).
  - intros c (i&x&->&_)%elem_of_lookup_imap Hn. cbn. apply Nat.mod_upper_bound. lia.
Qed.

(** Taking the calls of each worker together only changes their order. *)
Lemma filter_key_notin {A} (calls : list (nat * A)) i n :
  n ≤ i → Forall (fun c => c.1 < n) calls → filter (fun c => c.1 = i) calls = [].
Proof.
  intros Hi Hc. induction Hc as [|c calls Hc _ IH]; [done|]. rewrite filter_cons, decide_False by lia. done.
Qed.
Lemma by_worker {A} (calls : list (nat * list A)) n :
  (∀ c, c ∈ calls → c.1 < n) →
  concat ((fun i => concat (filter (fun c => c.1 = i) calls).*2) <$> seq 0 n) ≡ₚ concat calls.*2.
Proof.
  intros Hc. assert (Hg : ∀ a, concat ((fun i => concat (filter (fun c => c.1 = i) calls).*2) <$> seq a n)
    ≡ₚ concat (filter (fun c => a ≤ c.1 < a + n) calls).*2).
  { clear Hc. induction n as [|n IH]; intros a.
    - cbn. assert (filter (fun c : nat * list A => a ≤ c.1 < a + 0) calls = []) as ->; [|done].
      induction calls as [|c calls IH]; [done|]. rewrite filter_cons, decide_False by lia. done.
    - cbn [seq fmap list_fmap concat]. rewrite IH.
      clear. induction calls as [|c calls IH]; [done|]. rewrite !filter_cons.
      destruct (decide (c.1 = a)) as [Hca|Hca].
      + rewrite (decide_False (P := S a ≤ c.1 < S a + n)), (decide_True (P := a ≤ c.1 < a + S n)) by lia.
        cbn. rewrite <-app_assoc. by rewrite IH.
      + destruct (decide (S a ≤ c.1 < S a + n)).
        * rewrite (decide_True (P := a ≤ c.1 < a + S n)) by lia. cbn. rewrite <-IH.
          rewrite !app_assoc. apply Permutation_app_tail. apply Permutation_app_comm.
        * rewrite (decide_False (P := a ≤ c.1 < a + S n)) by lia. done. }
  rewrite Hg. cbn. assert (filter (fun c : nat * list A => 0 ≤ c.1 < n) calls = calls) as ->; [|done].
  clear Hg. induction calls as [|c calls IH]; [done|].
  rewrite filter_cons, decide_True by (split; [lia|apply Hc; left]).
  f_equal. apply IH. intros. apply Hc. by right.
Qed.

(** Slices of equal size, the last one shorter. *)
Lemma ceil_div_spec a b : 1 ≤ b → a ≤ ceil_div a b * b ∧ (∀ i, i < ceil_div a b → i * b < a).
Proof.
  intros Hb. unfold ceil_div. pose proof (Nat.div_mod (a + (b - 1)) b ltac:(lia)) as Hd.
  pose proof (Nat.mod_upper_bound (a + (b - 1)) b ltac:(lia)) as Hm.
  set (q := (a + (b - 1)) / b) in *. split; [nia|]. intros i Hi. nia.
Qed.
Lemma slices_concat {A} (l : list A) n size k :
  length l ≤ n → n ≤ k * size →
  concat ((fun i => slice_of (i * size) (((i + 1) * size) `min` n) l) <$> seq 0 k) = l.
Proof.
  intros Hn Hk. assert (Hg : ∀ j, concat ((fun i => slice_of (i * size) (((i + 1) * size) `min` n) l) <$> seq 0 j)
    = take (j * size) l).
  { intros j. induction j as [|j IH]; [done|].
    rewrite seq_S, fmap_app, concat_app, IH. cbn [fmap list_fmap concat]. rewrite app_nil_r, Nat.add_0_l. unfold slice_of.
    destruct (le_lt_dec (length l) (j * size)).
    - rewrite drop_ge by lia. rewrite take_nil, app_nil_r. rewrite !take_ge by nia. done.
    - replace (take (S j * size) l) with (take (j * size + size) l) by (f_equal; lia).
      destruct (le_lt_dec ((j + 1) * size) n).
      + rewrite Nat.min_l by lia. replace ((j + 1) * size - j * size) with size by nia.
        by rewrite take_take_drop.
      + rewrite Nat.min_r by lia.
        rewrite (take_ge l (j * size + size)) by nia.
        rewrite (take_ge (drop _ _)) by (rewrite drop_length; lia). by rewrite take_drop. }
  rewrite Hg. apply take_ge. lia.
Qed.
Lemma ray_streams_concat {A} n (l : list A) : 1 ≤ n → concat (ray_streams n l) = l.
Proof. intros Hn. apply slices_concat; [done|]. pose proof (ceil_div_spec (length l) n Hn). lia. Qed.
Lemma ray_streams_length {A} n (l : list A) : length (ray_streams n l) = n.
Proof. unfold ray_streams. by rewrite fmap_length, seq_length. Qed.
Lemma ray_streams_all {A} n (l : list A) : 1 ≤ n → concat (ray_streams n l) = l ∧ length (ray_streams n l) = n.
Proof. split; [by apply ray_streams_concat|apply ray_streams_length]. Qed.
