(** Facts on paths. *)
From Verif.Spec Require Import Places.

Notation chars := String.list_ascii_of_string.

(** A component as [split] returns them: no slash. *)
Definition noslash (s : string) : Prop := slash ∉ chars s.

Lemma app_nil_r_str s : s +:+ "" = s.
Proof. induction s as [|c s IH]; [done|]. exact (f_equal (String c) IH). Qed.
Lemma app_assoc_str a b c : (a +:+ b) +:+ c = a +:+ (b +:+ c).
Proof. induction a as [|x a IH]; [done|]. exact (f_equal (String x) IH). Qed.

Lemma split_cons s : ∃ x xs, split s = x :: xs.
Proof. destruct s as [|c s]; [by eauto|]. cbn. case_decide; [by eauto|]. destruct (split s); eauto. Qed.
Lemma split_noslash s : Forall noslash (split s).
Proof.
  unfold noslash. induction s as [|c s IH]; cbn.
  - constructor; [apply not_elem_of_nil|done].
  - case_decide; [constructor; [apply not_elem_of_nil|done]|].
    destruct (split s) as [|x xs]; [constructor; [|done]|]; cbn.
    + by intros [?|?%elem_of_nil]%elem_of_cons.
    + inversion IH; subst. constructor; [|done]. cbn. intros [?|?]%elem_of_cons; done.
Qed.
Lemma split_app a b : split (a +:+ "/" +:+ b) = split a ++ split b.
Proof.
  induction a as [|c a IH]; [done|]. change (String c a +:+ "/" +:+ b) with (String c (a +:+ "/" +:+ b)).
  cbn [split]. rewrite IH. case_decide; [done|]. destruct (split_cons a) as (x & xs & ->). done.
Qed.
Lemma split_plain s : noslash s → split s = [s].
Proof.
  unfold noslash. induction s as [|c s IH]; [done|]. cbn. intros [H1 H2]%not_elem_of_cons.
  rewrite decide_False by done. by rewrite IH.
Qed.
Lemma split_unsplit l : l ≠ [] → Forall noslash l → split (unsplit l) = l.
Proof.
  induction l as [|x l IH]; [done|]. intros _ [Hx Hl]%Forall_cons. destruct l as [|y l].
  - cbn. by apply split_plain.
  - change (unsplit (x :: y :: l)) with (x +:+ "/" +:+ unsplit (y :: l)).
    rewrite split_app, split_plain by done. by rewrite IH.
Qed.

Lemma step_empty d : walk_step d "" = d.
Proof. done. Qed.
Lemma walk_nil d : walk d "" = d.
Proof. done. Qed.
Lemma walk_app d a b : walk d (a +:+ "/" +:+ b) = walk (walk d a) b.
Proof. unfold walk. by rewrite split_app, foldl_app. Qed.
Lemma ends_split s : ends_slash s = true → ∃ t, s = t +:+ "/".
Proof.
  induction s as [|c s IH]; [done|]. destruct s as [|c' s].
  - cbn. intros ->%bool_decide_eq_true. by exists "".
  - intros H. destruct IH as [t Ht]; [exact H|]. exists (String c t). cbn. by rewrite Ht.
Qed.
(** Following a joined path is following one and then the other. *)
Lemma walk_join d a b : starts_slash b = false → walk d (join a b) = walk (walk d a) b.
Proof.
  intros Hb. unfold join. rewrite Hb. destruct (bool_decide (a = "")) eqn:Ha.
  - apply bool_decide_eq_true in Ha as ->. done.
  - cbn [orb]. destruct (ends_slash a) eqn:He; [|by rewrite walk_app].
    destruct (ends_split _ He) as [t ->]. rewrite app_assoc_str, walk_app.
    f_equal. change (t +:+ "/") with (t +:+ "/" +:+ ""). by rewrite walk_app.
Qed.
Lemma starts_join a b : starts_slash b = false → starts_slash (join a b) = starts_slash a.
Proof.
  intros Hb. unfold join. rewrite Hb. destruct a as [|c a]; [done|].
  by destruct (ends_slash (String c a)).
Qed.
Lemma place_join cwd a b : starts_slash b = false → place cwd (join a b) = walk (place cwd a) b.
Proof.
  intros Hb. unfold place. rewrite starts_join by done. destruct (starts_slash a); by rewrite walk_join.
Qed.
(** What is reached from the root: names only. *)
Definition names (d : list string) : Prop := Forall plain_name d.
Lemma plain_noslash s : plain_name s → noslash s.
Proof. by intros (_ & _ & _ & H). Qed.
Lemma names_noslash d : names d → Forall noslash d.
Proof. intros H. eapply Forall_impl; [exact H|]. intros x. apply plain_noslash. Qed.
Lemma step_names d c : names d → noslash c → names (walk_step d c).
Proof.
  intros Hd Hc. unfold walk_step. case_decide as H1; [done|]. case_decide as H2; [by apply Forall_take|].
  apply Forall_app. split; [done|]. apply Forall_singleton. repeat split; try done; intros ->; apply H1; auto.
Qed.
Lemma walk_names d p : names d → names (walk d p).
Proof.
  unfold walk. pose proof (split_noslash p) as H. revert d. induction (split p) as [|c l IH]; intros d Hd; [done|].
  inversion H; subst. cbn. apply IH; [done|]. by apply step_names.
Qed.
Lemma place_names cwd p : names (place cwd p).
Proof. unfold place. destruct (starts_slash p); repeat apply walk_names; constructor. Qed.

(** On an absolute path, normalising walks. *)
Lemma norm_walk d c : names d → norm_step true d c = walk_step d c.
Proof.
  intros Hd. unfold norm_step, walk_step. case_decide as H1; [done|]. case_decide as H2; case_decide as H3; subst; try done.
  - destruct H2 as [?|[[? ?]|H2]]; [done|done|]. apply last_Some in H2 as [d' ->].
    apply Forall_app in Hd as [_ Hd]. apply Forall_singleton in Hd as (_ & _ & ? & _). done.
  - exfalso. apply H2. by left.
Qed.
Lemma norm_walks d l : names d → Forall noslash l → foldl (norm_step true) d l = foldl walk_step d l.
Proof.
  revert d. induction l as [|c l IH]; intros d Hd Hl; [done|]. inversion Hl; subst. cbn.
  rewrite norm_walk by done. apply IH; [|done]. by apply step_names.
Qed.

Lemma leading_abs p : abs_path p → leading p = "/" ∨ leading p = "//".
Proof.
  unfold abs_path, leading. destruct p as [|a [|b [|c p]]]; [done| | |]; cbn; intros ->%bool_decide_eq_true;
    rewrite decide_True by done; try case_decide; auto.
Qed.
Lemma unsplit_nil_filter l : names l → filter (.≠ "") (split (unsplit l)) = l.
Proof.
  intros Hl. destruct l as [|x l]; [done|]. rewrite split_unsplit; [|done|by apply names_noslash].
  induction Hl as [|y l' Hy Hl IH]; [done|]. rewrite filter_cons_True by (by destruct Hy). by rewrite IH.
Qed.
Lemma filter_lead l q : (l = "/" ∨ l = "//") → filter (.≠ "") (split (l +:+ q)) = filter (.≠ "") (split q).
Proof. intros [-> | ->]; done. Qed.
(** The components of an absolute path made normal are its place. *)
Lemma abspath_place cwd p : abs_path cwd → filter (.≠ "") (split (abspath cwd p)) = place cwd p.
Proof.
  intros Hcwd. unfold abspath. set (q := if starts_slash p then p else join cwd p).
  assert (abs_path q) as Hq. { unfold q. destruct (starts_slash p) eqn:E; [done|]. unfold abs_path. by rewrite starts_join. }
  assert (place cwd p = walk [] q) as ->.
  { unfold place, q. destruct (starts_slash p) eqn:E; [done|]. by rewrite walk_join. }
  unfold normpath. rewrite decide_False by (intros E; by rewrite E in Hq).
  rewrite Hq, norm_walks; [|constructor|apply split_noslash].
  cbv zeta. change (foldl walk_step [] (split q)) with (walk [] q).
  pose proof (leading_abs _ Hq) as Hl.
  rewrite decide_False by (by destruct Hl as [-> | ->]).
  rewrite filter_lead by done. apply unsplit_nil_filter, walk_names. constructor.
Qed.

Lemma common_take a b : take (common_prefix a b) a = take (common_prefix a b) b.
Proof. revert b. induction a as [|x a IH]; intros [|y b]; cbn; try done. case_decide; [|done]. subst. cbn. by rewrite IH. Qed.
Lemma common_le a b : common_prefix a b ≤ length a.
Proof. revert b. induction a as [|x a IH]; intros [|y b]; cbn; try lia. case_decide; [|lia]. specialize (IH b). lia. Qed.
Lemma common_app a b : common_prefix a (a ++ b) = length a.
Proof. induction a as [|x a IH]; cbn; [by destruct b|]. rewrite decide_True by done. by rewrite IH. Qed.

Lemma walk_ups n d : n ≤ length d → foldl walk_step d (replicate n "..") = take (length d - n) d.
Proof.
  revert d. induction n as [|n IH]; intros d Hn.
  - cbn. rewrite Nat.sub_0_r. by rewrite firstn_all.
  - cbn [replicate foldl]. change (walk_step d "..") with (take (pred (length d)) d). rewrite IH by (rewrite take_length; lia). rewrite take_length, take_take. f_equal. lia.
Qed.
Lemma walk_plain d l : names l → foldl walk_step d l = d ++ l.
Proof.
  intros Hl. revert d. induction Hl as [|x l Hx Hl IH]; intros d; cbn; [by rewrite app_nil_r|].
  destruct Hx as (? & ? & ? & ?). unfold walk_step at 2. rewrite decide_False by tauto. rewrite decide_False by done.
  rewrite IH. by rewrite <-app_assoc.
Qed.

Lemma starts_noslash x : noslash x → starts_slash x = false.
Proof.
  destruct x as [|c x]; [done|]. unfold noslash. cbn. intros [H _]%not_elem_of_cons. apply bool_decide_eq_false. congruence.
Qed.
Lemma ends_noslash x : noslash x → ends_slash x = false.
Proof.
  unfold noslash. induction x as [|c x IH]; [done|]. intros [H1 H2]%not_elem_of_cons. destruct x as [|c' x].
  - cbn. apply bool_decide_eq_false. congruence.
  - by apply IH.
Qed.
Lemma ends_app a b : b ≠ "" → ends_slash (a +:+ b) = ends_slash b.
Proof.
  intros Hb. induction a as [|c a IH]; [done|]. destruct (a +:+ b) as [|c' r] eqn:E.
  - destruct a; [|done]. cbn in E. done.
  - change (String c a +:+ b) with (String c (a +:+ b)). rewrite E. done.
Qed.
Definition named (s : string) : Prop := s ≠ "" ∧ noslash s.
Lemma join_named x y : x ≠ "" → ends_slash x = false → named y → join x y = x +:+ "/" +:+ y.
Proof.
  intros Hx He [Hy Hs]. unfold join. rewrite starts_noslash by done. rewrite bool_decide_eq_false_2 by done. by rewrite He.
Qed.
Lemma unsplit_snoc a l : unsplit (a :: l) = foldl (λ x y, x +:+ "/" +:+ y) a l.
Proof.
  revert a. induction l as [|b l IH]; intros a; [done|]. change (unsplit (a :: b :: l)) with (a +:+ "/" +:+ unsplit (b :: l)).
  rewrite IH. cbn. rewrite <-!IH. clear IH. revert a b. induction l as [|c l IH]; intros a b; [done|].
  change (unsplit (b :: c :: l)) with (b +:+ "/" +:+ unsplit (c :: l)).
  change (unsplit ((a +:+ "/" +:+ b) :: c :: l)) with ((a +:+ "/" +:+ b) +:+ "/" +:+ unsplit (c :: l)).
  by rewrite !app_assoc_str.
Qed.
Lemma join_all_unsplit l : Forall named l → join_all l = unsplit l.
Proof.
  destruct l as [|x l]; [done|]. intros [[Hx Hs] Hl]%Forall_cons. rewrite unsplit_snoc. cbn.
  assert (x ≠ "" ∧ ends_slash x = false) as [H1 H2] by (split; [done|by apply ends_noslash]). clear Hx Hs.
  revert x H1 H2. induction Hl as [|y l Hy Hl IH]; intros x H1 H2; [done|]. cbn. rewrite join_named by done.
  apply IH.
  - by destruct x.
  - destruct Hy as [? ?]. rewrite !ends_app; [by apply ends_noslash|done|done].
Qed.
Lemma ups_named n : Forall named (replicate n "..").
Proof. apply Forall_replicate. split; [done|]. apply (bool_decide_unpack _). by vm_compute. Qed.
Lemma names_named l : names l → Forall named l.
Proof. intros H. eapply Forall_impl; [exact H|]. intros x (? & ? & ? & ?). by split. Qed.
Lemma starts_unsplit l : Forall named l → starts_slash (unsplit l) = false.
Proof.
  destruct l as [|x l]; [done|]. intros [[Hx Hs] Hl]%Forall_cons. pose proof (starts_noslash _ Hs) as H.
  destruct l as [|y l]; [done|]. change (unsplit (x :: y :: l)) with (x +:+ "/" +:+ unsplit (y :: l)).
  destruct x; [done|]. exact H.
Qed.

(** The stored form of a path names the same place. *)
Lemma short_full_place cwd location p s :
  abs_path cwd → short_path cwd location p = Ok s → place cwd (full_path location s) = place cwd p.
Proof.
  intros Hcwd. unfold short_path, relpath, full_path. case_decide as Hp; [done|]. cbv zeta. rewrite !abspath_place by done.
  set (S := place cwd location). set (P := place cwd p).
  pose proof (place_names cwd p) as HP. fold P in HP. pose proof (place_names cwd location) as HS. fold S in HS.
  set (i := common_prefix S P). set (rel := replicate (length S - i) ".." ++ drop i P).
  assert (Forall named rel) as Hrel.
  { apply Forall_app. split; [apply ups_named|]. apply names_named, Forall_drop, HP. }
  assert (foldl walk_step S rel = P) as Hw.
  { unfold rel. rewrite foldl_app, walk_ups by lia. pose proof (common_le S P). fold i in H.
    replace (length S - (length S - i)) with i by lia. rewrite walk_plain by (by apply Forall_drop).
    unfold i. rewrite common_take. apply take_drop. }
  intros [= <-]. destruct rel as [|x l] eqn:E.
  - rewrite place_join by done. fold S. cbn in Hw. exact Hw.
  - rewrite <-E in *. rewrite join_all_unsplit by done. rewrite place_join by (by apply starts_unsplit). fold S.
    unfold walk. rewrite split_unsplit; [done|by rewrite E|]. eapply Forall_impl; [exact Hrel|]. by intros ? [? ?].
Qed.
Lemma short_total cwd location p : p ≠ "" → ∃ s, short_path cwd location p = Ok s.
Proof. intros Hp. unfold short_path, relpath. rewrite decide_False by done. by eexists. Qed.

(** Below the location the stored form is the names below it. *)
Lemma short_below cwd location cs :
  abs_path cwd → cs ≠ [] → Forall plain_name cs →
  short_path cwd location (join location (unsplit cs)) = Ok (unsplit cs).
Proof.
  intros Hcwd Hne Hcs. pose proof (starts_unsplit _ (names_named _ Hcs)) as Hst.
  unfold short_path, relpath. rewrite decide_False.
  2:{ intros E. unfold join in E. rewrite Hst in E. destruct cs as [|x cs]; [done|].
      assert (x ≠ "") as Hx by (apply Forall_cons in Hcs as [(? & _) _]; done).
      assert (unsplit (x :: cs) ≠ "") as Hu by (destruct cs; [done|]; by destruct x).
      destruct location as [|c location]; [done|]. by destruct (_ || _). }
  cbv zeta. rewrite !abspath_place by done. rewrite place_join by done.
  unfold walk. rewrite split_unsplit; [|done|by apply names_noslash].
  rewrite !walk_plain by done. rewrite common_app, Nat.sub_diag, drop_app. cbn [replicate app].
  f_equal. destruct cs as [|x cs]; [done|]. apply join_all_unsplit, names_named, Hcs.
Qed.
Lemma short_full_below cwd location cs s :
  abs_path cwd → cs ≠ [] → Forall plain_name cs →
  short_path cwd location (join location (unsplit cs)) = Ok s → full_path location s = join location (unsplit cs).
Proof. intros ? ? ? H. rewrite short_below in H by done. by injection H as <-. Qed.

Lemma open_absolute cwd location f : abs_path f → place cwd (open_external location f) = place cwd f.
Proof. intros Hf. unfold open_external, full_path, join. by rewrite Hf. Qed.
Lemma open_relative cwd location f : ¬ abs_path f → place cwd (open_external location f) = walk (place cwd location) f.
Proof. intros Hf. unfold open_external, full_path. apply place_join. by apply not_true_is_false. Qed.
(** A relative path of names only is found again only when the location is
    the working directory. *)
Lemma open_relative_iff cwd location f :
  ¬ abs_path f → Forall (λ x, x ≠ "..") (split f) →
  place cwd (open_external location f) = place cwd f ↔ place cwd location = walk [] cwd.
Proof.
  intros Hf Hn. rewrite open_relative by done. unfold place at 2.
  rewrite (not_true_is_false _ Hf). split; [|by intros ->].
  unfold walk at 1 2. generalize (place cwd location) as a, (walk [] cwd) as b. intros a b.
  assert (∃ t, ∀ d, foldl walk_step d (split f) = d ++ t) as [t Ht].
  { induction Hn as [|x l Hx Hl [t Ht]]; [exists []; intros d; by rewrite app_nil_r|].
    destruct (decide (x = "" ∨ x = ".")) as [H|H].
    - exists t. intros d. cbn. unfold walk_step at 2. by rewrite decide_True.
    - exists (x :: t). intros d. cbn. unfold walk_step at 2. rewrite decide_False by done. rewrite decide_False by done.
      rewrite Ht. by rewrite <-app_assoc. }
  rewrite !Ht. apply app_inv_tail.
Qed.

(** Files created with different UUIDs are at different places. *)
From Verif.Spec Require Import FileNames.

Lemma chars_app a b : chars (a +:+ b) = chars a ++ chars b.
Proof. induction a as [|c a IH]; [done|]. exact (f_equal (cons c) IH). Qed.
Lemma chars_inj a b : chars a = chars b → a = b.
Proof. intros H. rewrite <-(String.string_of_list_ascii_of_string a), <-(String.string_of_list_ascii_of_string b). by rewrite H. Qed.
Lemma chars_length a : length (chars a) = String.length a.
Proof. induction a as [|c a IH]; [done|]. exact (f_equal S IH). Qed.
Lemma noslash_app a b : noslash a → noslash b → noslash (a +:+ b).
Proof. unfold noslash. rewrite chars_app, elem_of_app. tauto. Qed.

Lemma split_tail a b : noslash b → ∃ l x, split (a +:+ b) = l ++ [x +:+ b].
Proof.
  intros Hb. induction a as [|c a (l & x & IH)].
  - exists [], "". by apply split_plain.
  - change (String c a +:+ b) with (String c (a +:+ b)). cbn [split]. rewrite IH. case_decide.
    + by exists ("" :: l), x.
    + destruct l as [|y l]; [by exists [], (String c x)|]. by exists (String c y :: l), x.
Qed.
Lemma walk_tail d a b : noslash b → 3 ≤ String.length b → ∃ d' x, walk d (a +:+ b) = d' ++ [x +:+ b].
Proof.
  intros Hb Hl. unfold walk. destruct (split_tail a b Hb) as (l & x & ->). rewrite foldl_app. cbn.
  eexists _, x. unfold walk_step at 1.
  assert (3 ≤ length (chars (x +:+ b))) as H. { rewrite chars_app, app_length, (chars_length b). lia. }
  rewrite decide_False by (intros [E | E]; rewrite E in H; cbn in H; lia).
  rewrite decide_False by (intros E; rewrite E in H; cbn in H; lia). done.
Qed.
Lemma place_tail cwd a b : noslash b → 3 ≤ String.length b → ∃ d' x, place cwd (a +:+ b) = d' ++ [x +:+ b].
Proof. intros Hb Hl. unfold place. destruct (starts_slash _); by apply walk_tail. Qed.
Lemma join_tail a b c : c ≠ "" → ∃ x, join a (b +:+ c) = x +:+ c.
Proof.
  intros Hc. unfold join. destruct (starts_slash _); [by eexists|]. destruct (_ || _).
  - eexists. by rewrite <-app_assoc_str.
  - eexists (a +:+ "/" +:+ b). by rewrite !app_assoc_str.
Qed.

Definition kind_suffix (k : pkind) : string :=
  match k with KIndex | KIdxMan | KRecMan => ".parquet" | KRecord _ => ".array_record" | _ => ".txtpb" end.
Lemma suffix_noslash k : noslash (kind_suffix k).
Proof. apply (bool_decide_unpack _). by destruct k; vm_compute. Qed.
Lemma created_tail location k u p :
  u ≠ "" → created_path location k u = Some p → ∃ x, p = x +:+ (u +:+ kind_suffix k).
Proof.
  intros Hu H. assert (∀ s, u +:+ s ≠ "") as Hne by (by destruct u).
  destruct k; cbn in H; try discriminate; injection H as <-; cbn [kind_suffix]; try (apply join_tail; apply Hne).
  destruct (join_tail (data_dir location) (field +:+ "_") (u +:+ ".array_record") (Hne _)) as [x Hx].
  exists x. rewrite <-Hx. unfold new_record_file_path. by rewrite app_assoc_str.
Qed.
Lemma same_tail x u s x' u' s' :
  String.length u = String.length u' → String.length s = String.length s' →
  x +:+ (u +:+ s) = x' +:+ (u' +:+ s') → u = u'.
Proof.
  intros Hu Hs H. apply (f_equal chars) in H. rewrite !chars_app in H. rewrite <-!chars_length in *.
  apply app_inj_2 in H as [_ H]; [|rewrite !app_length; lia]. apply app_inj_1 in H as [H _]; [|done]. by apply chars_inj.
Qed.
Lemma last_tail x s x' s' a a' :
  x +:+ s = x' +:+ s' → last (chars s) = Some a → last (chars s') = Some a' → a = a'.
Proof.
  intros H Ha Ha'. apply (f_equal (λ t, last (chars t))) in H. rewrite !chars_app, !last_app, Ha, Ha' in H. congruence.
Qed.
Lemma created_distinct cwd location location' k k' u u' p p' :
  uuid_like u → uuid_like u' → u ≠ u' →
  created_path location k u = Some p → created_path location' k' u' = Some p' →
  place cwd p ≠ place cwd p'.
Proof.
  intros [Hl Hn] [Hl' Hn'] Hne Hp Hp' E.
  assert (u ≠ "" ∧ u' ≠ "") as [Hu Hu'] by (split; intros ->; done).
  destruct (created_tail _ _ _ _ Hu Hp) as [x ->]. destruct (created_tail _ _ _ _ Hu' Hp') as [x' ->].
  assert (∀ v k, String.length v = 36 → noslash v → noslash (v +:+ kind_suffix k) ∧ 3 ≤ String.length (v +:+ kind_suffix k)) as H.
  { intros v k0 ? ?. split; [apply noslash_app; [done|apply suffix_noslash]|].
    rewrite <-chars_length, chars_app, app_length, chars_length. lia. }
  destruct (H u k Hl Hn) as [H1 H2], (H u' k' Hl' Hn') as [H3 H4].
  destruct (place_tail cwd x _ H1 H2) as (d & y & Hy). destruct (place_tail cwd x' _ H3 H4) as (d' & y' & Hy').
  rewrite Hy, Hy' in E. apply app_inj_2 in E as [_ E]; [|done]. injection E as E.
  assert (String.length (kind_suffix k) = String.length (kind_suffix k')) as Hs.
  { rewrite <-!app_assoc_str in E. destruct k, k'; try done; exfalso; (eapply last_tail in E; [|done|done]; done). }
  apply Hne. eapply same_tail; [by rewrite Hl|exact Hs|exact E].
Qed.
Lemma created_not_entry cwd location location' k u p :
  uuid_like u → created_path location k u = Some p → place cwd p ≠ place cwd (entry_point_path location').
Proof.
  intros [Hl Hn] Hp E. assert (u ≠ "") as Hu by (by intros ->).
  destruct (created_tail _ _ _ _ Hu Hp) as [x ->].
  assert (noslash (u +:+ kind_suffix k)) as H1 by (apply noslash_app; [done|apply suffix_noslash]).
  assert (3 ≤ String.length (u +:+ kind_suffix k)) as H2 by (rewrite <-chars_length, chars_app, app_length, chars_length; lia).
  destruct (place_tail cwd x _ H1 H2) as (d & y & Hy). rewrite Hy in E.
  unfold entry_point_path in E. rewrite place_join in E by done.
  change (walk ?d "entrypoint.txtpb") with (d ++ ["entrypoint.txtpb"]) in E.
  apply app_inj_2 in E as [_ E]; [|done]. injection E as E.
  apply (f_equal (λ t, String.length t)) in E. rewrite <-!chars_length, !chars_app, !app_length, (chars_length u), Hl in E.
  cbn in E. lia.
Qed.
