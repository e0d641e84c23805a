(** Flattening addresses, joining and folding them again. *)
From Verif.Model Require Import JoinFold.
From Verif.Spec Require Import Joins JoinFolds.
From Verif.Proofs Require Import Lib Resolve.

(** * Names *)
Lemma string_length_app a b : String.length (a +:+ b) = String.length a + String.length b.
Proof. induction a as [|c a IH]; [done|]. exact (f_equal S IH). Qed.
Lemma string_app_same_end a b t : a +:+ t = b +:+ t → a = b.
Proof.
  revert b. induction a as [|c a IH]; intros [|d b] H; [done|..].
  - apply (f_equal String.length) in H. rewrite !string_length_app in H. cbn [String.length] in H. lia.
  - apply (f_equal String.length) in H. rewrite !string_length_app in H. cbn [String.length] in H. lia.
  - cbn in H. injection H as -> H. by rewrite (IH b H).
Qed.
Lemma file_field_inj f g : file_field f = file_field g → f = g.
Proof. apply string_app_same_end. Qed.
Lemma id_field_inj f g : id_field f = id_field g → f = g.
Proof. apply string_app_same_end. Qed.
Lemma file_id_field f g : file_field f ≠ id_field g.
Proof.
  unfold file_field, id_field. revert g. induction f as [|c f IH]; intros [|d g] H.
  - done.
  - apply (f_equal String.length) in H. rewrite !string_length_app in H. cbn in H. lia.
  - pose proof (f_equal String.length H) as Hl. rewrite !string_length_app in Hl. cbn in Hl.
    destruct f as [|c' [|? ?]]; cbn in Hl; try lia. done.
  - cbn in H. injection H as -> H. by apply (IH g).
Qed.

(** * Columns *)
Lemma only_perm n t t' : t ≡ₚ t' → only n t = only n t'.
Proof.
  intros Hp. unfold only. assert (Hf : filter (fun c => c.1 = n) t ≡ₚ filter (fun c => c.1 = n) t') by by rewrite Hp.
  destruct (filter _ t) as [|a [|a' l]].
  - by apply Permutation_nil_l in Hf as <-.
  - by apply Permutation_singleton_l in Hf as <-.
  - apply Permutation_length in Hf. by destruct (filter _ t') as [|b [|b' l']].
Qed.
Lemma only_head n c t : n ∉ t.*1 → only n ((n, c) :: t) = Ok c.
Proof.
  intros Hn. unfold only. rewrite filter_cons, decide_True by done.
  assert (filter (fun c => c.1 = n) t = []) as ->; [|done].
  induction t as [|[m d] t IH]; [done|]. cbn in Hn. apply not_elem_of_cons in Hn as [Hne Hn].
  rewrite filter_cons, decide_False by (cbn; congruence). by apply IH.
Qed.

Notation address := (string * (path * Z))%type.
Definition halves (a : address) : flat_row := [(file_field a.1, FFile a.2.1); (id_field a.1, FId a.2.2)].
Definition whole (a : address) : string * flat_cell := (a.1, FCell (CAddr a.2.1 a.2.2)).
Lemma halves_names n (A : list address) : n ∈ (A ≫= halves).*1 → ∃ f, f ∈ A.*1 ∧ (n = file_field f ∨ n = id_field f).
Proof.
  intros ((m&c)&->&((f&p&i)&H&Hin)%elem_of_list_bind)%elem_of_list_fmap. exists f.
  split; [apply elem_of_list_fmap; by exists (f, (p, i))|]. cbn in H.
  apply elem_of_cons in H as [[= -> ->]|H]; [by left|]. apply elem_of_list_singleton in H as [= -> ->]. by right.
Qed.
Lemma fold_one_ok f p i t u :
  t ≡ₚ halves (f, (p, i)) ++ u → file_field f ∉ u.*1 → id_field f ∉ u.*1 →
  ∃ v, fold_one t f = Ok v ∧ v ≡ₚ whole (f, (p, i)) :: u.
Proof.
  intros Ht H1 H2. cbn [halves fst snd app] in Ht. unfold fold_one.
  rewrite (only_perm _ _ _ Ht), only_head; cycle 1.
  { cbn. apply not_elem_of_cons. split; [apply file_id_field|done]. }
  cbn [rbind]. rewrite (only_perm (id_field f) t ((id_field f, FId i) :: (file_field f, FFile p) :: u)); cycle 1.
  { rewrite Ht. apply perm_swap. }
  rewrite only_head; cycle 1.
  { cbn. apply not_elem_of_cons. split; [intros H; by apply (file_id_field f f)|done]. }
  cbn [rbind]. eexists. split; [done|]. rewrite Ht. rewrite filter_cons, decide_False by (cbn; intros [? ?]; done).
  rewrite filter_cons, decide_False by (cbn; intros [? ?]; done). rewrite Permutation_app_comm. cbn [app]. unfold whole. cbn [fst snd].
  apply perm_skip. clear Ht. induction u as [|[m c] u IH]; [done|]. cbn in H1, H2.
  apply not_elem_of_cons in H1 as [? ?]. apply not_elem_of_cons in H2 as [? ?].
  rewrite filter_cons, decide_True by (cbn; split; congruence). apply perm_skip. by apply IH.
Qed.
Lemma fold_all_ok (A : list address) : ∀ t u,
  t ≡ₚ (A ≫= halves) ++ u → NoDup A.*1 →
  (∀ f n, f ∈ A.*1 → n ∈ u.*1 ∨ n ∈ A.*1 → n ≠ file_field f ∧ n ≠ id_field f) →
  ∃ v, fold_addresses A.*1 t = Ok v ∧ v ≡ₚ (whole <$> A) ++ u.
Proof.
  induction A as [|[f [p i]] A IH]; intros t u Ht Hnd Hcl; [exists t; by split|].
  rewrite bind_cons, <-(assoc_L (++)) in Ht. cbn in Hnd. apply NoDup_cons in Hnd as [Hf Hnd].
  assert (Hout : ∀ n, n = file_field f ∨ n = id_field f → n ∉ ((A ≫= halves) ++ u).*1).
  { intros n Hn. rewrite fmap_app. intros [(g&Hg&Hng)%halves_names|Hu]%elem_of_app.
    - assert (f = g) as ->; [|done]. destruct Hn as [-> | ->], Hng as [H|H].
      + by apply file_field_inj.
      + by apply file_id_field in H.
      + symmetry in H. by apply file_id_field in H.
      + by apply id_field_inj.
    - destruct (Hcl f n) as [? ?]; [by left|by left|]. by destruct Hn. }
  destruct (fold_one_ok f p i t _ Ht) as (v&Hv&Hpv); [apply Hout; by left|apply Hout; by right|].
  destruct (IH v (whole (f, (p, i)) :: u)) as (w&Hw&Hpw).
  - rewrite Hpv. apply Permutation_middle.
  - done.
  - intros g n Hg Hn. apply Hcl; [by right|]. cbn in Hn. destruct Hn as [Hn|Hn]; [|right; by right].
    apply elem_of_cons in Hn as [->|Hn]; [right; by left|by left].
  - exists w. split; [cbn; by rewrite Hv|]. rewrite Hpw. cbn. by rewrite <-Permutation_middle.
Qed.

(** * Rows *)
(** The columns of a row as it was read: addresses are exactly those of [recs]. *)
Definition as_read (recs : list string) (x : row) : Prop :=
  ∀ n c, (n, c) ∈ x → n ∈ recs ↔ ∃ p i, c = CAddr p i.
Definition plain_cell (nc : string * cell) : string * flat_cell := (nc.1, FCell nc.2).
Lemma addresses_out recs : ∀ x, NoDup x.*1 → NoDup recs → as_read recs x → (∀ f, f ∈ recs → f ∈ x.*1) →
  ∃ (A : list address) rest, A.*1 = recs ∧ x ≡ₚ ((fun a => (a.1, CAddr a.2.1 a.2.2)) <$> A) ++ rest ∧ as_read [] rest.
Proof.
  induction recs as [|f recs IH]; intros x Hx Hr Ha Hin.
  { exists [], x. split_and!; [done..|]. intros n c Hnc. by apply Ha. }
  apply NoDup_cons in Hr as [Hf Hr]. destruct (proj1 (elem_of_list_fmap _ _ _) (Hin f ltac:(by left))) as ((f'&c)&Hf'&Hc).
  cbn in Hf'. subst f'. destruct (proj1 (Ha f c Hc) ltac:(by left)) as (p&i&->).
  apply elem_of_Permutation in Hc as (x'&Hx'). rewrite Hx' in Hx. cbn in Hx. apply NoDup_cons in Hx as [Hfx Hx].
  destruct (IH x') as (A&rest&HA&Hp&Hrest); [done|done|..].
  - intros n c Hnc. rewrite <-(Ha n c); [|rewrite Hx'; by right]. rewrite elem_of_cons. split; [by right|].
    intros [->|?]; [|done]. exfalso. apply Hfx. apply elem_of_list_fmap. by exists (f, c).
  - intros g Hg. assert (Hgx : g ∈ x.*1) by (apply Hin; by right). rewrite Hx' in Hgx. cbn in Hgx.
    apply elem_of_cons in Hgx as [->|?]; done.
  - exists ((f, (p, i)) :: A), rest. split_and!; [cbn; by rewrite HA| |done]. cbn. by rewrite Hx', Hp.
Qed.
Lemma flatten_plain ref x : as_read [] x → flatten_row ref x = plain_cell <$> x.
Proof.
  intros Ha. unfold flatten_row. destruct ref; [|done]. induction x as [|[n c] x IH]; [done|].
  rewrite bind_cons, IH by (intros m d Hm; apply Ha; by right).
  assert (flatten_cell (n, c) = [(n, FCell c)]) as ->; [|done]. unfold flatten_cell. cbn.
  destruct c as [| |p i|]; try done. exfalso. assert (n ∈ []) as H; [|by apply elem_of_nil in H]. apply (Ha n (CAddr p i)); [by left|eauto].
Qed.
Lemma flatten_split (ref : bool) recs x : NoDup x.*1 → NoDup recs → (ref = false → recs = []) → as_read recs x → (∀ f, f ∈ recs → f ∈ x.*1) →
  ∃ (A : list address) rest, A.*1 = recs ∧ flatten_row ref x ≡ₚ (A ≫= halves) ++ (plain_cell <$> rest)
    ∧ (whole <$> A) ++ (plain_cell <$> rest) ≡ₚ plain_cell <$> x ∧ (∀ n, n ∈ rest.*1 → n ∈ x.*1).
Proof.
  intros Hx Hr Href Ha Hin. destruct (addresses_out recs x) as (A&rest&HA&Hp&Hrest); [done..|].
  exists A, rest. split_and!; [done|..].
  - destruct ref.
    + unfold flatten_row. rewrite Hp, bind_app. apply Permutation_app.
      * clear. induction A as [|[f [p i]] A IH]; [done|]. cbn. by rewrite IH.
      * by rewrite <-(flatten_plain true rest Hrest).
    + rewrite (Href eq_refl) in HA. destruct A; [|done]. cbn in *. unfold flatten_row. by rewrite Hp.
  - rewrite Hp, fmap_app. apply Permutation_app; [|done]. by rewrite <-list_fmap_compose.
  - intros n Hn. rewrite Hp, fmap_app, elem_of_app. by right.
Qed.
Lemma flatten_without key ref x : (∀ n c, (n, c) ∈ x → (∃ p i, c = CAddr p i) → n ≠ key ∧ key ≠ file_field n ∧ key ≠ id_field n) →
  filter (fun c => c.1 ≠ key) (flatten_row ref x) = flatten_row ref (filter (fun c => c.1 ≠ key) x).
Proof.
  intros H. unfold flatten_row. destruct ref; cycle 1.
  { clear. induction x as [|[n c] x IH]; [done|]. rewrite fmap_cons, !filter_cons. cbn [fst]. case_decide; rewrite ?fmap_cons, IH; done. }
  induction x as [|[n c] x IH]; [done|]. rewrite bind_cons, filter_app, IH by (intros m d Hm; apply H; by right).
  rewrite (filter_cons _ (n, c)). cbn [fst]. destruct c as [|v|p i|ls].
  3: { destruct (H n (CAddr p i)) as (?&?&?); [by left|eauto|]. rewrite decide_True by done. rewrite bind_cons. f_equal.
       cbn [flatten_cell fst snd]. rewrite filter_cons, decide_True by (cbn; congruence). rewrite filter_cons, decide_True by (cbn; congruence). done. }
  all: cbn [flatten_cell fst snd]; rewrite filter_cons; cbn [fst]; case_decide; by rewrite ?bind_cons.
Qed.

(** The row that comes out. *)
Lemma only_rget n (z : row) t : t ≡ₚ plain_cell <$> z → NoDup z.*1 →
  n ∈ z.*1 → ∃ c, rget n z = Some c ∧ only n t = Ok (FCell c).
Proof.
  intros Ht Hz Hn. apply rget_some in Hn as [c Hc]. exists c. split; [done|]. rewrite (only_perm _ _ _ Ht).
  apply rget_in in Hc. apply elem_of_Permutation in Hc as (z'&Hz'). rewrite Hz' in Hz. cbn in Hz. apply NoDup_cons in Hz as [Hn _].
  rewrite (only_perm n _ (plain_cell <$> (n, c) :: z')) by by rewrite Hz'. cbn. apply only_head.
  rewrite <-list_fmap_compose. done.
Qed.
Lemma select_ok out z t : t ≡ₚ plain_cell <$> z → NoDup z.*1 → (∀ n, n ∈ out → n ∈ z.*1) → flat_select out t = rsel out z.
Proof.
  intros Ht Hz Hout. unfold flat_select, rsel. induction out as [|n out IH]; [done|]. cbn [rmapM].
  destruct (only_rget n z t Ht Hz) as (c&Hc&Ho); [apply Hout; by left|]. rewrite Ho, Hc. cbn [rbind].
  by rewrite IH by (intros; apply Hout; by right).
Qed.
Lemma rsel_ext out (z z' : row) : (∀ n, n ∈ out → rget n z = rget n z') → rsel out z = rsel out z'.
Proof.
  intros H. unfold rsel. induction out as [|n out IH]; [done|]. cbn [rmapM]. rewrite H by by left.
  by rewrite IH by (intros; apply H; by right).
Qed.
Lemma rget_filter key n (y : row) : n ≠ key → rget n (filter (fun c => c.1 ≠ key) y) = rget n y.
Proof.
  intros Hn. induction y as [|[m c] y IH]; [done|]. rewrite filter_cons. cbn [fst]. case_decide as Hm.
  - cbn. by rewrite IH.
  - cbn. rewrite decide_False; [done|]. intros ->. by destruct Hm.
Qed.
(** One side. *)
Record side_row (key : string) (s : schema) (i : join_input) (x : row) : Prop := {
  sw_names : x.*1 ≡ₚ side_fields s i;
  sw_read : as_read (folded_recs s i) x }.
Record side_recs (key : string) (s : schema) (i : join_input) : Prop := {
  sr_nodup : NoDup (folded_recs s i);
  sr_in : ∀ f, f ∈ folded_recs s i → f ∈ side_fields s i;
  sr_recs : ∀ f, f ∈ folded_recs s i → ji_ref i = true ∧ f ∈ s_recs s;
  sr_ref : ji_ref i = false → folded_recs s i = [];
  sr_key : key ∉ folded_recs s i }.
Lemma joined_row_ok key sl sr l r x y :
  side_recs key sl l → side_recs key sr r → distinct_columns key sl sr l r → parts_free sl sr l r →
  key ∈ side_fields sl l → side_row key sl l x → side_row key sr r y →
  joined_row key sl sr l r x y = rsel (output_fields key sl sr l r) (x ++ y).
Proof.
  intros Hl Hr (Hnl&Hnr&_&_&Hsh) Hfree Hkl [Hx Hax] [Hy Hay]. unfold joined_row. cbv zeta.
  assert (Hnx : NoDup x.*1) by by rewrite Hx. assert (Hny : NoDup y.*1) by by rewrite Hy.
  set (y' := filter (fun c => c.1 ≠ key) y).
  assert (Hiny : ∀ n, n ∈ y'.*1 ↔ n ∈ side_fields sr r ∧ n ≠ key).
  { intros n. rewrite <-(elem_of_Permutation_proper n _ _ Hy). unfold y'. rewrite !elem_of_list_fmap. split.
    - intros ((m&c)&->&[? ?]%elem_of_list_filter). split; [by exists (m, c)|done].
    - intros (((m&c)&->&?)&?). exists (m, c). split; [done|]. by apply elem_of_list_filter. }
  assert (Hinx : ∀ n, n ∈ x.*1 ↔ n ∈ side_fields sl l) by (intros n; apply (elem_of_Permutation_proper n _ _ Hx)).
  assert (Hny' : NoDup y'.*1).
  { unfold y'. clear -Hny. induction y as [|[m c] y IH]; [apply NoDup_nil_2|]. cbn in Hny. apply NoDup_cons in Hny as [Hm Hny].
    rewrite filter_cons. case_decide; [|by apply IH]. cbn. apply NoDup_cons. split; [|by apply IH].
    intros ((m'&c')&Hmm&[_ Hin]%elem_of_list_filter)%elem_of_list_fmap. apply Hm, elem_of_list_fmap. by exists (m', c'). }
  assert (Hfl : ∀ f n, f ∈ folded_recs sl l ∨ f ∈ folded_recs sr r → n ∈ side_fields sl l ∨ n ∈ side_fields sr r → n ≠ file_field f ∧ n ≠ id_field f).
  { intros f n Hf Hn. apply Hfree; [|done]. destruct Hf as [Hf|Hf]; [left; by apply (sr_recs _ _ _ Hl)|right; by apply (sr_recs _ _ _ Hr)]. }
  rewrite flatten_without; cycle 1.
  { intros n c Hnc Hc. apply (Hay n c Hnc) in Hc. split; [intros ->; by apply (sr_key _ _ _ Hr)|]. apply Hfl; [by right|by left]. }
  fold y'.
  destruct (flatten_split (ji_ref l) (folded_recs sl l) x) as (A&ra&HA&HpA&HwA&Hra); [done|apply Hl|apply Hl|done|intros f Hf; by apply Hinx, Hl|].
  destruct (flatten_split (ji_ref r) (folded_recs sr r) y') as (B&rb&HB&HpB&HwB&Hrb); [done|apply Hr|apply Hr|..].
  { intros n c Hnc. apply Hay. by apply elem_of_list_filter in Hnc as [_ ?]. }
  { intros f Hf. apply Hiny. split; [by apply Hr|]. intros ->. by apply (sr_key _ _ _ Hr). }
  assert (Hplain : ∀ (z : row), (plain_cell <$> z).*1 = z.*1) by (intros z; by rewrite <-list_fmap_compose).
  assert (Hwhole : ∀ (z : list address), (whole <$> z).*1 = z.*1) by (intros z; by rewrite <-list_fmap_compose).
  assert (HAB : ∀ f, f ∈ A.*1 → f ∈ B.*1 → False).
  { intros f HfA HfB. rewrite HA in HfA. rewrite HB in HfB. apply (sr_key _ _ _ Hl).
    rewrite <-(Hsh f); [done|by apply Hl|by apply Hr]. }
  rewrite <-HA, <-HB.
  destruct (fold_all_ok A (flatten_row (ji_ref l) x ++ flatten_row (ji_ref r) y')
    ((plain_cell <$> ra) ++ flatten_row (ji_ref r) y')) as (v&Hv&Hpv).
  { by rewrite HpA, <-(assoc_L (++)). }
  { rewrite HA. apply Hl. }
  { intros f n Hf Hn. assert (Hcase : n ∈ side_fields sl l ∨ n ∈ side_fields sr r ∨ n ∈ (B ≫= halves).*1).
    { rewrite HpB, !fmap_app, !Hplain, !elem_of_app in Hn. destruct Hn as [[Hn|[Hn|Hn]]|Hn].
      - left. by apply Hinx, Hra.
      - right; by right.
      - right; left. by apply Hiny, Hrb.
      - left. apply Hl. by rewrite <-HA. }
    destruct Hcase as [?|[?|(g&Hg&Hng)%halves_names]]; [apply Hfl; [left; by rewrite <-HA|tauto]..|].
    assert (g ≠ f) by (intros ->; by eapply HAB). split; intros E; destruct Hng as [E'|E']; rewrite E in E'.
    - by apply file_field_inj in E' as ->.
    - by apply file_id_field in E'.
    - symmetry in E'. by apply file_id_field in E'.
    - by apply id_field_inj in E' as ->. }
  rewrite Hv. cbn [rbind].
  destruct (fold_all_ok B v ((whole <$> A) ++ (plain_cell <$> ra) ++ (plain_cell <$> rb))) as (w&Hw&Hpw).
  { rewrite Hpv, HpB. solve_Permutation. }
  { rewrite HB. apply Hr. }
  { intros f n Hf Hn. apply Hfl; [right; by rewrite <-HB|]. rewrite !fmap_app, !Hplain, !Hwhole, !elem_of_app in Hn.
    destruct Hn as [[Hn|[Hn|Hn]]|Hn].
    - left. apply Hl. by rewrite <-HA.
    - left. by apply Hinx, Hra.
    - right. by apply Hiny, Hrb.
    - right. apply Hr. by rewrite <-HB. }
  rewrite Hw. cbn [rbind].
  assert (Hz : w ≡ₚ plain_cell <$> (x ++ y')).
  { rewrite Hpw, fmap_app, <-HwA, <-HwB. solve_Permutation. }
  rewrite (select_ok _ (x ++ y') _ Hz).
  - apply rsel_ext. intros n Hn. rewrite !rget_app. destruct (rget n x) eqn:Hnx'; [done|]. unfold y'. apply rget_filter. intros ->.
    apply Hinx, rget_some in Hkl as [? Hkx]. congruence.
  - rewrite fmap_app. apply NoDup_app. split_and!; [done| |done]. intros n Hn [Hn' Hne]%Hiny. apply Hne, Hsh; [by apply Hinx|done].
  - intros n Hn. rewrite fmap_app, elem_of_app, Hiny, Hinx. unfold output_fields in Hn.
    apply elem_of_cons in Hn as [->|[[? ?]%elem_of_list_filter|[? ?]%elem_of_list_filter]%elem_of_app]; [by left|by left|by right].
Qed.
