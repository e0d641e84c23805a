(** Random access. *)
From stdpp Require Import sorting.
From Verif.Spec Require Import Access.
From Verif.Proofs Require Import Lib Serialize World Resolve ReadSpec SysInv ReadRun Effects Observe Calls Reads Durable.

(** * File instructions *)
Lemma sorted_ext (l l' : list Z) :
  StronglySorted Z.lt l → StronglySorted Z.lt l' → (∀ x, x ∈ l ↔ x ∈ l') → l = l'.
Proof.
  intros Hl. revert l'. induction Hl as [|x l Hl IH Hx]; intros l' Hl' Hiff.
  { destruct l' as [|y l']; [done|]. destruct (Hiff y) as [_ H]. by apply elem_of_nil in H; [|left]. }
  destruct Hl' as [|y l' Hl' Hy].
  { destruct (Hiff x) as [H _]. by apply elem_of_nil in H; [|left]. }
  rewrite Forall_forall in Hx, Hy.
  assert (x = y) as ->.
  { destruct (Hiff x) as [H1 _], (Hiff y) as [_ H2].
    destruct (proj1 (elem_of_cons _ _ _) (H1 (elem_of_list_here _ _))) as [->|Hx']; [done|].
    destruct (proj1 (elem_of_cons _ _ _) (H2 (elem_of_list_here _ _))) as [->|Hy']; [done|].
    pose proof (Hx _ Hy'). pose proof (Hy _ Hx'). lia. }
  f_equal. apply IH; [done|]. intros z. split; intros Hz.
  - destruct (proj1 (elem_of_cons _ _ _) (proj1 (Hiff z) (elem_of_list_further _ _ _ Hz))) as [->|?]; [|done].
    pose proof (Hx _ Hz). lia.
  - destruct (proj1 (elem_of_cons _ _ _) (proj2 (Hiff z) (elem_of_list_further _ _ _ Hz))) as [->|?]; [|done].
    pose proof (Hy _ Hz). lia.
Qed.
Lemma lt_sorted_NoDup (l : list Z) : StronglySorted Z.lt l → NoDup l.
Proof.
  induction 1 as [|x l _ IH Hx]; constructor; [|done]. rewrite Forall_forall in Hx. intros Hin. pose proof (Hx _ Hin). lia.
Qed.
Definition range (a b : Z) : list Z := (fun k => a + Z.of_nat k)%Z <$> seq 0 (Z.to_nat (b - a + 1)).
Lemma elem_of_range a b x : x ∈ range a b ↔ (a ≤ x ≤ b)%Z.
Proof.
  unfold range. rewrite elem_of_list_fmap. setoid_rewrite elem_of_seq. split.
  - intros (k&->&?). lia.
  - intros ?. exists (Z.to_nat (x - a)). lia.
Qed.
Lemma sorted_seq a n m : StronglySorted Z.lt ((fun k => a + Z.of_nat k)%Z <$> seq m n).
Proof.
  revert m. induction n as [|n IH]; intros m; [constructor|]. cbn. constructor; [apply IH|].
  apply Forall_forall. intros x (k&->&Hk%elem_of_seq)%elem_of_list_fmap. lia.
Qed.
Lemma sorted_range a b : StronglySorted Z.lt (range a b).
Proof. apply sorted_seq. Qed.
Lemma sorted_app (l l' : list Z) :
  StronglySorted Z.lt l → StronglySorted Z.lt l' → (∀ x y, x ∈ l → y ∈ l' → (x < y)%Z) → StronglySorted Z.lt (l ++ l').
Proof.
  induction 1 as [|x l Hl IH Hx]; intros Hl' H; [done|]. cbn. constructor.
  - apply IH; [done|]. intros. apply H; [by right|done].
  - apply Forall_app. split; [done|]. apply Forall_forall. intros y Hy. apply H; [left|done].
Qed.
Lemma file_runs_enumerated p total l start idx :
  StronglySorted Z.le (idx :: l) → (start ≤ idx)%Z →
  ∃ X, enumerated (file_runs p total start (idx :: l)) = pair p <$> X ∧ StronglySorted Z.lt X
    ∧ (∀ k, k ∈ X ↔ (start ≤ k ≤ idx)%Z ∨ k ∈ l)
    ∧ Forall (fun x => (0 < fi_take x)%Z) (file_runs p total start (idx :: l)).
Proof.
  assert (Hone : ∀ a b, enumerated [make_instruction p a b total] = pair p <$> range a b).
  { intros a b. unfold enumerated. cbn. rewrite app_nil_r. unfold range. by rewrite <-list_fmap_compose. }
  revert start idx. induction l as [|next l IH]; intros start idx Hs Hle.
  { exists (range start idx). split; [apply Hone|]. split; [apply sorted_range|]. split.
    - intros k. rewrite elem_of_range, elem_of_nil. tauto.
    - repeat constructor. cbn. lia. }
  assert (Hs' : StronglySorted Z.le (next :: l)) by (by inversion Hs).
  assert (Hn : (idx ≤ next)%Z) by (inversion Hs as [|? ? _ Hf]; by inversion Hf).
  change (file_runs p total start (idx :: next :: l)) with
    (if (idx + 1 <? next)%Z then make_instruction p start idx total :: file_runs p total next (next :: l)
     else file_runs p total start (next :: l)).
  destruct (Z.ltb_spec (idx + 1) next) as [Hlt|Hge].
  - destruct (IH next next Hs') as (X&HX&HsX&HinX&Htake); [lia|]. exists (range start idx ++ X).
    split; [|split; [|split]].
    + change (enumerated (?x :: ?l)) with (enumerated [x] ++ enumerated l) || idtac.
      unfold enumerated in *. rewrite bind_cons, HX, fmap_app. f_equal. rewrite <-Hone. unfold enumerated. by rewrite bind_cons, app_nil_r.
    + apply sorted_app; [apply sorted_range|done|]. intros x y Hx%elem_of_range [?|Hy]%HinX; [lia|].
      inversion Hs' as [|? ? _ Hf]. rewrite Forall_forall in Hf. pose proof (Hf _ Hy). lia.
    + intros k. rewrite elem_of_app, elem_of_range, HinX, elem_of_cons. intuition lia.
    + constructor; [cbn; lia|done].
  - destruct (IH start next Hs') as (X&HX&HsX&HinX&Htake); [lia|]. exists X. split_and!; try done.
    intros k. rewrite HinX, elem_of_cons. split.
    + intros [?|?]; [|tauto]. destruct (decide (k ≤ idx)%Z); [left; lia|right; left; lia].
    + intros [?|[->|?]]; [left; lia|left; lia|tauto].
Qed.
Lemma nub_NoDup {A} `{EqDecision A} (l : list A) : NoDup (nub l).
Proof.
  induction l as [|x l IH]; [constructor|]. cbn. constructor; [|by apply NoDup_filter]. by rewrite elem_of_list_filter; intros [? _].
Qed.
Lemma instructions_enumerated addrs :
  ∃ X : path → list Z, enumerated (build_file_instructions addrs) = (nub addrs.*1 ≫= fun p => pair p <$> X p)
    ∧ Forall (fun x => (0 < fi_take x)%Z) (build_file_instructions addrs)
    ∧ ∀ p, StronglySorted Z.lt (X p) ∧ ∀ k, k ∈ X p ↔ (p, k) ∈ addrs.
Proof.
  set (ids := fun p => merge_sort Z.le (snd <$> filter (fun a : path * Z => a.1 = p) addrs)).
  assert (Hids : ∀ p k, k ∈ ids p ↔ (p, k) ∈ addrs).
  { intros p k. unfold ids. rewrite merge_sort_Permutation, elem_of_list_fmap. split.
    - intros ([q k']&->&[Hq Hin]%elem_of_list_filter). cbn in *. by subst.
    - intros Hin. exists (p, k). split; [done|]. by apply elem_of_list_filter. }
  assert (Hsort : ∀ p, StronglySorted Z.le (ids p)).
  { intros p. apply StronglySorted_merge_sort; [|apply _]. intros x y. lia. }
  set (one := fun p => let indexes := ids p in match indexes, last indexes with start :: _, Some l => file_runs p (l + 1) start indexes | _, _ => [] end).
  assert (Hone : ∀ p, ∃ X, enumerated (one p) = pair p <$> X ∧ StronglySorted Z.lt X ∧ (∀ k, k ∈ X ↔ (p, k) ∈ addrs)
    ∧ Forall (fun x => (0 < fi_take x)%Z) (one p)).
  { intros p. unfold one. destruct (ids p) as [|start l] eqn:Hl.
    { exists []. split_and!; [done|constructor| |constructor]. intros k. by rewrite <-Hids, Hl. }
    destruct (last (start :: l)) as [z|] eqn:Hz; [|by apply last_None in Hz].
    destruct (file_runs_enumerated p (z + 1) l start start) as (X&HX&Hs&Hin&Ht); [by rewrite <-Hl|lia|].
    exists X. split_and!; try done. intros k. rewrite Hin, <-Hids, Hl, elem_of_cons. intuition lia. }
  exists (fun p => (enumerated (one p)).*2). split; [|split].
  - change (build_file_instructions addrs) with (nub addrs.*1 ≫= one). unfold enumerated at 1.
    induction (nub addrs.*1) as [|p l IH]; [done|]. rewrite bind_cons, bind_app, bind_cons, IH. f_equal.
    destruct (Hone p) as (X&HX&_). fold (enumerated (one p)). rewrite HX. f_equal. rewrite <-list_fmap_compose. symmetry. by apply list_fmap_id.
  - change (build_file_instructions addrs) with (nub addrs.*1 ≫= one).
    apply Forall_forall. intros x (p&Hx&_)%elem_of_list_bind. destruct (Hone p) as (_&_&_&_&Ht). rewrite Forall_forall in Ht. auto.
  - intros p. destruct (Hone p) as (X&HX&?&?&_). rewrite HX.
    replace ((pair p <$> X).*2) with X; [done|]. rewrite <-list_fmap_compose. symmetry. by apply list_fmap_id.
Qed.
Lemma blocks_NoDup (ps : list path) (X : path → list Z) :
  NoDup ps → (∀ p, NoDup (X p)) → NoDup (ps ≫= fun p => pair p <$> X p).
Proof.
  intros Hps HX. induction Hps as [|p ps Hp _ IH]; [constructor|]. rewrite bind_cons. apply NoDup_app. split_and!; [|intros a Ha Hb|done].
  - apply NoDup_fmap_2; [|done]. by intros ?? [=].
  - apply elem_of_list_fmap in Ha as (k&->&_). apply elem_of_list_bind in Hb as (q&(k'&[= -> ->]&_)%elem_of_list_fmap&Hq). done.
Qed.
Lemma instructions_cover addrs :
  NoDup (enumerated (build_file_instructions addrs))
  ∧ ∀ a, a ∈ enumerated (build_file_instructions addrs) ↔ a ∈ addrs.
Proof.
  destruct (instructions_enumerated addrs) as (X&->&_&HX). split.
  - apply blocks_NoDup; [apply nub_NoDup|]. intros p. apply lt_sorted_NoDup, HX.
  - intros [p k]. rewrite elem_of_list_bind. split.
    + intros (q&(k'&[= -> ->]&Hk)%elem_of_list_fmap&_). by apply HX.
    + intros Hin. exists p. split; [apply elem_of_list_fmap; exists k; split; [done|]; by apply HX|].
      apply elem_of_nub, elem_of_list_fmap. by exists (p, k).
Qed.
Lemma list_filter_all {A} (P : A → Prop) `{∀ x, Decision (P x)} (l : list A) : (∀ x, x ∈ l → P x) → filter P l = l.
Proof.
  induction l as [|x l IH]; [done|]. intros Hl. rewrite filter_cons, decide_True by (apply Hl; left). f_equal. apply IH. intros. apply Hl. by right.
Qed.
Lemma instructions_distinct addrs : NoDup addrs → enumerated (build_file_instructions addrs) ≡ₚ addrs.
Proof. intros Hnd. destruct (instructions_cover addrs) as [H1 H2]. by apply NoDup_Permutation. Qed.
Lemma instructions_take addrs x : x ∈ build_file_instructions addrs → (0 < fi_take x)%Z.
Proof. destruct (instructions_enumerated addrs) as (X&_&H&_). rewrite Forall_forall in H. apply H. Qed.
Lemma nub_app {A} `{EqDecision A} (l l' : list A) : nub (l ++ l') = nub l ++ filter (fun x => x ∉ l) (nub l').
Proof.
  induction l as [|x l IH]; cbn.
  - symmetry. apply list_filter_all. intros y _. apply not_elem_of_nil.
  - f_equal. rewrite IH, filter_app. f_equal. rewrite list_filter_filter. apply filter_ext_in. intros y _.
    rewrite not_elem_of_cons. tauto.
Qed.
Lemma nub_same {A} `{EqDecision A} (x : A) l : l ≠ [] → (∀ y, y ∈ l → y = x) → nub l = [x].
Proof.
  destruct l as [|y l]; [done|]. intros _ Hl. assert (y = x) as -> by (apply Hl; left). cbn. f_equal.
  destruct (filter _ _) as [|z l'] eqn:Hf; [done|]. exfalso.
  assert (Hz : z ∈ z :: l') by left. rewrite <-Hf in Hz. apply elem_of_list_filter in Hz as [Hz Hin%elem_of_nub].
  apply Hz, Hl, elem_of_cons. right. by rewrite !elem_of_nub in Hin.
Qed.
Lemma nub_blocks (blocks : list (path * list Z)) :
  NoDup blocks.*1 → Forall (fun b => b.2 ≠ []) blocks →
  nub ((blocks ≫= fun b => pair b.1 <$> b.2).*1) = blocks.*1.
Proof.
  intros Hnd Hne. induction blocks as [|[p ks] blocks IH]; [done|]. cbn in Hnd. apply NoDup_cons in Hnd as [Hp Hnd].
  apply Forall_cons in Hne as [Hks Hne]. rewrite bind_cons, fmap_app, nub_app, IH by done. cbn.
  rewrite (nub_same p).
  - cbn. f_equal. apply list_filter_all. intros q Hq (k&->&(k'&->&_)%elem_of_list_fmap)%elem_of_list_fmap. done.
  - by destruct ks.
  - intros q (k&->&(k'&->&_)%elem_of_list_fmap)%elem_of_list_fmap. done.
Qed.
Lemma instructions_order addrs :
  enumerated (build_file_instructions addrs) = addrs ↔ in_file_order addrs.
Proof.
  destruct (instructions_enumerated addrs) as (X&->&_&HX). split.
  - intros Heq. exists ((fun p => (p, X p)) <$> nub addrs.*1). split_and!.
    + rewrite <-list_fmap_compose. rewrite list_fmap_id by done. apply nub_NoDup.
    + apply Forall_fmap, Forall_forall. intros p Hp. rewrite elem_of_nub in Hp. cbn. split; [|apply HX].
      apply elem_of_list_fmap in Hp as ([q k]&->&Hin). apply HX in Hin. cbn. intros Hnil. rewrite Hnil in Hin. by apply elem_of_nil in Hin.
    + rewrite <-Heq at 1. clear. induction (nub addrs.*1) as [|p l IH]; [done|]. by rewrite bind_cons, IH, fmap_cons, bind_cons.
  - intros (blocks&Hnd&Hb&->). rewrite nub_blocks; [|done|by eapply Forall_impl; [exact Hb|intros ? [? _]]].
    assert (Hin : ∀ b, b ∈ blocks → X b.1 = b.2).
    { intros [p ks] Hin. rewrite Forall_forall in Hb. destruct (Hb _ Hin) as [_ Hs]. destruct (HX p) as [HsX HiX].
      apply sorted_ext; [done..|]. intros k. rewrite HiX, elem_of_list_bind. cbn. split.
      - intros ([q ks']&(k'&[= -> ->]&Hk)%elem_of_list_fmap&Hin'). cbn in *.
        replace ks with ks'; [done|]. clear -Hnd Hin Hin'. induction blocks as [|b bs IH]; [by apply elem_of_nil in Hin|].
        cbn in Hnd. apply NoDup_cons in Hnd as [Hn Hnd]. apply elem_of_cons in Hin as [<-|Hin], Hin' as [Heq|Hin']; try congruence; [| |auto].
        + exfalso. apply Hn. apply elem_of_list_fmap. by exists (q, ks').
        + subst b. exfalso. apply Hn. apply elem_of_list_fmap. by exists (q, ks).
      - intros Hk. exists (p, ks). split; [|done]. apply elem_of_list_fmap. by exists k. }
    clear -Hin. induction blocks as [|b bs IH]; [done|]. rewrite fmap_cons, !bind_cons, IH by (intros; apply Hin; by right).
    by rewrite Hin by left.
Qed.
Lemma locate_enumerated instrs i :
  Forall (fun x => (0 < fi_take x)%Z) instrs → locate instrs (Z.of_nat i) = enumerated instrs !! i.
Proof.
  intros Hpos. revert i. induction Hpos as [|x instrs Hx _ IH]; intros i; [done|]. cbn [locate]. unfold enumerated. rewrite bind_cons.
  destruct (Z.ltb_spec (Z.of_nat i) (fi_take x)) as [Hlt|Hge].
  - rewrite lookup_app_l by (rewrite fmap_length, seq_length; lia). rewrite list_lookup_fmap, lookup_seq_lt by lia. done.
  - rewrite lookup_app_r by (rewrite fmap_length, seq_length; lia). rewrite fmap_length, seq_length.
    replace (Z.of_nat i - fi_take x)%Z with (Z.of_nat (i - Z.to_nat (fi_take x))) by lia. apply IH.
Qed.
Lemma ar_length_enumerated instrs :
  Forall (fun x => (0 < fi_take x)%Z) instrs → Z.to_nat (ar_length instrs) = length (enumerated instrs).
Proof.
  unfold ar_length. induction 1 as [|x instrs Hx Hall IH]; [done|]. unfold enumerated. rewrite bind_cons, app_length, fmap_length, seq_length.
  fold (enumerated instrs). rewrite <-IH. change (Zsum (fi_take <$> x :: instrs)) with (fi_take x + Zsum (fi_take <$> instrs))%Z.
  assert (0 ≤ Zsum (fi_take <$> instrs))%Z; [|lia].
  clear -Hall. induction Hall as [|x l Hx _ IH]; [done|].
  change (Zsum (fi_take <$> x :: l)) with (fi_take x + Zsum (fi_take <$> l))%Z. lia.
Qed.

(** * Items *)
Definition names_record (fs : fsys) (c : cell) (b : string) : Prop :=
  resolve_cell (records_in fs) c = Some (CVal (SStr b)).
Lemma names_record_addr fs c b :
  names_record fs c b → ∃ p k rs, c = CAddr p k ∧ (0 ≤ k)%Z ∧ fs !! p = Some (FRecord rs) ∧ rs !! Z.to_nat k = Some b.
Proof.
  unfold names_record, resolve_cell, records_in. destruct c as [| |p k|]; try done. case_decide; [|done].
  destruct (fs !! p) as [[]|] eqn:Hp; try done. cbn. destruct (records !! Z.to_nat k) eqn:Hk; [|done]. cbn. intros [= ->]. eauto 10.
Qed.
Lemma resolve_cell_shape rv c c' : resolve_cell rv c = Some c' → ∃ b, c' = CVal (SStr b).
Proof.
  unfold resolve_cell. destruct c as [| |p k|]; try done. case_decide; [|done]. destruct (rv p); [|done]. cbn.
  destruct (_ !! _); [|done]. cbn. intros [= <-]. eauto.
Qed.
Lemma names_record_keeps fs fs' c b :
  (∀ p rs, fs !! p = Some (FRecord rs) → fs' !! p = Some (FRecord rs)) → names_record fs c b → names_record fs' c b.
Proof.
  intros Hk (p&k&rs&->&H0&Hp&Hb)%names_record_addr. unfold names_record, resolve_cell, records_in.
  rewrite decide_True, (Hk _ _ Hp) by done. cbn. by rewrite Hb.
Qed.
Lemma read_record_run w p k rs b :
  (0 ≤ k)%Z → w_fs w !! p = Some (FRecord rs) → rs !! Z.to_nat k = Some b → read_record p k w = (w, Ok b).
Proof.
  intros H0 Hp Hb. unfold read_record, read_records, read_file, bind. rewrite Hp. cbn. unfold lift, record_at.
  destruct (Z.ltb_spec k 0); [lia|]. by rewrite Hb.
Qed.
(** Row [a] of the address table and row [r] of the full read belong together. *)
Definition linked (fs : fsys) (fields : list string) (a r : row) : Prop :=
  ∀ f, f ∈ fields → ∃ c b, rget f a = Some c ∧ names_record fs c b ∧ rget f r = Some (CVal (SStr b)).

Lemma mapM_st_cons_run {S A B} (f : A → ST S B) x l w w' w'' y ys :
  f x w = (w', Ok y) → mapM_st f l w' = (w'', Ok ys) → mapM_st f (x :: l) w = (w'', Ok (y :: ys)).
Proof. intros Hx Hl. cbn. unfold bind. rewrite Hx, Hl. done. Qed.

Section items.
Context {V : Type} (raw : string → V) (sers : option (gmap string (field_serializer V))).

Lemma maybe_deserialize_decode f b : maybe_deserialize raw sers f b = decode raw sers f b.
Proof. done. Qed.
Lemma arrow_getitem_run w addrs fields i a r :
  addrs !! i = Some a → linked (w_fs w) fields a r →
  arrow_getitem raw sers addrs fields i w = (w, dict_of raw sers fields r).
Proof.
  intros Ha Hl. unfold arrow_getitem, dict_of.
  assert (∃ recs, mapM_st (fun f =>
      let! c := lift (arrow_cell addrs f i) in
      let! (p, k) := lift (cell_addr c) in
      let! b := read_record p k in
      ret (f, b)) fields w = (w, Ok recs)
    ∧ Forall2 (fun f fb => fb.1 = f ∧ rget f r = Some (CVal (SStr fb.2))) fields recs) as (recs&Hm&Hr).
  { induction fields as [|f fields IH]; [exists []; split; [done|constructor]|].
    destruct IH as (recs&Hm&Hr); [intros g Hg; apply Hl; by right|].
    destruct (Hl f) as (c&b&Hc&Hn&Hb); [left|]. destruct (names_record_addr _ _ _ Hn) as (p&k&rs&->&H0&Hp&Hbk).
    exists ((f, b) :: recs). split; [|by constructor]. eapply mapM_st_cons_run; [|exact Hm].
    unfold bind, lift, arrow_cell. rewrite Ha. cbn. rewrite Hc. cbn. rewrite (read_record_run _ _ _ _ _ H0 Hp Hbk). done. }
  rewrite (bind_run _ _ _ _ _ Hm). unfold lift. f_equal. clear -Hr. induction Hr as [|f [f' b] fields recs [Hf Hb] _ IH]; [done|].
  cbn in *. subst f'. rewrite Hb, IH. done.
Qed.
Lemma arrow_getitem_none w addrs fields i :
  addrs !! i = None → fields ≠ [] → ∃ e, arrow_getitem raw sers addrs fields i w = (w, Err e).
Proof.
  intros Ha Hf. destruct fields as [|f fields]; [done|]. unfold arrow_getitem. cbn. unfold bind, lift, arrow_cell. rewrite Ha. cbn. eauto.
Qed.

Lemma dict_of_get fields r d f :
  NoDup fields → dict_of raw sers fields r = Ok d → f ∈ fields →
  ∃ b v, rget f r = Some (CVal (SStr b)) ∧ decode raw sers f b = Ok v ∧ dict_get f d = Some v.
Proof.
  intros Hnd Hd Hf. unfold dict_of in Hd. apply rmapM_ok in Hd.
  assert (Hk : d.*1 = fields).
  { clear -Hd. induction Hd as [|g [g' v] fields d Hg _ IH]; [done|]. cbn. rewrite IH. f_equal.
    destruct (rget g r) as [[|[]| |]|]; try done. destruct (decode _ _ _ _); [|done]. cbn in Hg. congruence. }
  apply elem_of_list_lookup in Hf as [j Hj]. destruct (Forall2_lookup_l _ _ _ _ _ Hd Hj) as ([g v]&Hv&Hg).
  destruct (rget f r) as [[|[]| |]|] eqn:Hr; try done. destruct (decode raw sers f s) as [v'|] eqn:Hdec; [|done]. cbn in Hg.
  injection Hg as <- <-. exists s, v'. split_and!; [done..|]. apply elem_of_list_to_map_1; [by rewrite Hk|].
  by apply elem_of_list_lookup_2 in Hv.
Qed.
Definition text_of (f : string) (r : row) : string := match rget f r with Some (CVal (SStr b)) => b | _ => "" end.
Lemma arrow_getitems_eq w addrs fields is rows :
  Forall2 (fun i r => ∃ a, addrs !! i = Some a ∧ linked (w_fs w) fields a r) is rows →
  arrow_getitems raw sers addrs fields is w
  = (w, match sers with
        | None => Ok ((fun f => (f, (raw ∘ text_of f) <$> rows)) <$> fields)
        | Some m => deserialize_dict m ((fun f => (f, (raw ∘ text_of f) <$> rows)) <$> fields)
        end).
Proof.
  intros Hrows. unfold arrow_getitems.
  assert (Hm : mapM_st (fun f =>
      let! cs := lift (rmapM (arrow_cell addrs f) is) in
      let! vals := read_record_column cs in
      let! bs := lift (rmapM (cell_raw raw) vals) in
      ret (f, bs)) fields w = (w, Ok ((fun f => (f, (raw ∘ text_of f) <$> rows)) <$> fields))).
  { apply mapM_st_pure. intros f Hf.
    assert (Hcs : ∃ cs, rmapM (arrow_cell addrs f) is = Ok cs
      ∧ Forall2 (fun c r => resolve_cell (records_in (w_fs w)) c = Some (CVal (SStr (text_of f r)))) cs rows).
    { clear -Hrows Hf. induction Hrows as [|i r is rows (a&Ha&Hl) _ (cs&Hcs&Hall)]; [exists []; split; [done|constructor]|].
      destruct (Hl f Hf) as (c&b&Hc&Hn&Hb). exists (c :: cs). cbn. unfold arrow_cell at 1. rewrite Ha. cbn. rewrite Hc. cbn. rewrite Hcs.
      split; [done|]. constructor; [|done]. unfold text_of. rewrite Hb. exact Hn. }
    destruct Hcs as (cs&Hcs&Hall). unfold bind at 1, lift at 1. rewrite Hcs.
    unfold bind at 1. rewrite (read_record_column_spec w cs ((fun r => CVal (SStr (text_of f r))) <$> rows)).
    2:{ apply Forall2_fmap_r. exact Hall. }
    unfold bind at 1, lift at 1.
    replace (rmapM (cell_raw raw) _) with (@Ok (list V) ((raw ∘ text_of f) <$> rows)); [done|].
    clear. induction rows as [|r rows IH]; [done|]. cbn. rewrite <-IH. done. }
  rewrite (bind_run _ _ _ _ _ Hm). by destruct sers.
Qed.
Lemma arrow_getitems_run w addrs fields is rows dicts :
  NoDup fields →
  Forall2 (fun i r => ∃ a, addrs !! i = Some a ∧ linked (w_fs w) fields a r) is rows →
  Forall2 (fun r d => dict_of raw sers fields r = Ok d) rows dicts →
  arrow_getitems raw sers addrs fields is w = (w, Ok ((fun f => (f, omap (dict_get f) dicts)) <$> fields)).
Proof.
  intros Hnd Hrows Hd. rewrite (arrow_getitems_eq _ _ _ _ _ Hrows). f_equal.
  assert (Hcol : ∀ f, f ∈ fields → Forall2 (fun r v => decode raw sers f (text_of f r) = Ok v) rows (omap (dict_get f) dicts)).
  { intros f Hf. clear -Hd Hnd Hf. induction Hd as [|r d rows dicts Hr _ IH]; [constructor|].
    destruct (dict_of_get fields r d f Hnd Hr Hf) as (b&v&Hb&Hv&Hg). cbn. rewrite Hg. constructor; [|done].
    unfold text_of. by rewrite Hb. }
  destruct sers as [m|] eqn:Hsers.
  - unfold deserialize_dict. rewrite process_dict_eq.
    2:{ rewrite <-list_fmap_compose. rewrite list_fmap_id; done. }
    clear Hnd Hd Hrows. induction fields as [|f fields IH]; [done|]. cbn.
    rewrite IH by (intros; apply Hcol; by right). specialize (Hcol f (elem_of_list_here _ _)). unfold decode in Hcol.
    destruct (m !! f) as [s|] eqn:Hm.
    + assert (rmapM (fun v => fde s v) ((raw ∘ text_of f) <$> rows) = Ok (omap (dict_get f) dicts)) as ->; [|done].
      apply rmapM_ok. apply Forall2_fmap_l. exact Hcol.
    + inversion Hcol; [|done]. done.
  - f_equal. apply map_ext_in. intros f Hf%elem_of_list_In. f_equal. specialize (Hcol f Hf). cbn in Hcol.
    clear -Hcol. induction Hcol as [|r v rows vs Hv _ IH]; [done|]. cbn. rewrite IH. congruence.
Qed.

(** A batch that succeeds is made of items that succeed. *)
Lemma arrow_getitems_inv w addrs fields is rows cols :
  fields ≠ [] → NoDup fields → (∀ m, sers = Some m → ∀ f, f ∈ fields → is_Some (m !! f)) →
  length rows = length addrs → (∀ i a r, addrs !! i = Some a → rows !! i = Some r → linked (w_fs w) fields a r) →
  (arrow_getitems raw sers addrs fields is w).2 = Ok cols →
  ∃ dicts, Forall2 (fun i d => arrow_getitem raw sers addrs fields i w = (w, Ok d)) is dicts
    ∧ cols = (fun f => (f, omap (dict_get f) dicts)) <$> fields.
Proof.
  intros Hne Hnd Hs Hlen Hl Hok.
  assert (Hin : ∃ sel, Forall2 (fun i r => (∃ a, addrs !! i = Some a ∧ linked (w_fs w) fields a r) ∧ rows !! i = Some r) is sel).
  { destruct fields as [|f fields]; [done|]. unfold arrow_getitems in Hok. cbn in Hok.
    destruct (rmapM (arrow_cell addrs f) is) as [cs|e] eqn:Hcs; [|by cbn in Hok; unfold bind, lift in Hok].
    apply rmapM_ok in Hcs. clear Hok Hnd Hs. induction Hcs as [|i c is cs Hc _ [sel IH]]; [exists []; constructor|].
    unfold arrow_cell in Hc. destruct (addrs !! i) as [a|] eqn:Ha; [|done].
    destruct (rows !! i) as [r|] eqn:Hr; [|apply lookup_ge_None in Hr; apply lookup_lt_Some in Ha; lia].
    exists (r :: sel). constructor; [|done]. eauto. }
  destruct Hin as [sel Hsel].
  assert (Hd : ∃ dicts, Forall2 (fun r d => dict_of raw sers fields r = Ok d) sel dicts).
  { rewrite (arrow_getitems_eq w addrs fields is sel) in Hok
      by (eapply Forall2_impl; [exact Hsel|]; by intros ? ? [??]).
    assert (Hcell : ∀ f r, f ∈ fields → r ∈ sel → ∃ v, decode raw sers f (text_of f r) = Ok v).
    { intros f r Hf Hr. destruct sers as [m|]; [|by eexists]. destruct (Hs m eq_refl f Hf) as [s Hm]. cbn. rewrite Hm.
      cbn in Hok. unfold deserialize_dict in Hok. rewrite process_dict_eq in Hok
        by (rewrite <-list_fmap_compose, list_fmap_id; done).
      apply rmapM_ok in Hok. apply elem_of_list_lookup in Hf as [j Hj]. apply elem_of_list_lookup in Hr as [n Hn].
      destruct (Forall2_lookup_l _ _ _ j (f, (raw ∘ text_of f) <$> sel) Hok) as (y&_&Hy); [by rewrite list_lookup_fmap, Hj|].
      cbn in Hy. rewrite Hm in Hy. destruct (rmapM _ _) as [vs|] eqn:Hvs in Hy; [|done]. apply rmapM_ok in Hvs.
      destruct (Forall2_lookup_l _ _ _ n (raw (text_of f r)) Hvs) as (v&_&Hv); [by rewrite list_lookup_fmap, Hn|]. eauto. }
    clear Hok Hs Hnd Hl Hlen.
    assert (Hall : Forall (fun r => ∃ d, dict_of raw sers fields r = Ok d) sel).
    { apply Forall_forall. intros r Hr. assert (Hhas : ∀ f, f ∈ fields → rget f r = Some (CVal (SStr (text_of f r)))).
      { intros f Hf. apply elem_of_list_lookup in Hr as [n Hn].
        destruct (Forall2_lookup_r _ _ _ _ _ Hsel Hn) as (i&_&(a&_&Hl)&_). destruct (Hl f Hf) as (c&b&_&_&Hb).
        unfold text_of. by rewrite Hb. }
      specialize (fun f Hf => Hcell f r Hf Hr). clear -Hhas Hcell. unfold dict_of.
      induction fields as [|f fields IH]; [by eexists|]. destruct IH as [d Hd]; [intros; apply Hcell; by right|intros; apply Hhas; by right|].
      destruct (Hcell f (elem_of_list_here _ _)) as [v Hv]. exists ((f, v) :: d). cbn.
      rewrite (Hhas f (elem_of_list_here _ _)), Hd, Hv. done. }
    clear -Hall. induction Hall as [|r sel [d Hd] _ [ds IH]]; [exists []; constructor|]. exists (d :: ds). by constructor. }
  destruct Hd as [dicts Hd]. exists dicts. split.
  - clear -Hsel Hd. revert is Hsel. induction Hd as [|r d sel dicts Hr _ IH]; intros is Hsel; inversion Hsel as [|i r' is' sel' ((a&Ha&Hl)&Hi) Hsel' E1 E2]; subst; constructor.
    + rewrite (arrow_getitem_run _ _ _ _ _ _ Ha Hl). by rewrite Hr.
    + by apply IH.
  - rewrite (arrow_getitems_run w addrs fields is sel dicts) in Hok; [cbn in Hok; congruence|done| |done].
    eapply Forall2_impl; [exact Hsel|]. by intros ? ? [??].
Qed.

Lemma locate_eq instrs i : Forall (fun x => (0 < fi_take x)%Z) instrs → locate instrs (Z.of_nat i) = enumerated instrs !! i.
Proof. exact (locate_enumerated instrs i). Qed.
Lemma ar_getitem_run w f instrs i p k b :
  Forall (fun x => (0 < fi_take x)%Z) instrs → enumerated instrs !! i = Some (p, k) → names_record (w_fs w) (CAddr p k) b →
  ar_getitem raw sers f instrs i w = (w, decode raw sers f b).
Proof.
  intros Hp He (p'&k'&rs&[= <- <-]&H0&Hp'&Hb)%names_record_addr. unfold ar_getitem. rewrite locate_eq, He by done. cbn.
  rewrite (bind_run _ _ _ _ _ (read_record_run _ _ _ _ _ H0 Hp' Hb)). done.
Qed.
Lemma ar_getitem_none w f instrs i :
  Forall (fun x => (0 < fi_take x)%Z) instrs → enumerated instrs !! i = None →
  ∃ e, ar_getitem raw sers f instrs i w = (w, Err e).
Proof. intros Hp He. unfold ar_getitem. rewrite locate_eq, He by done. cbn. eauto. Qed.
End items.
