(** Soundness of manifest filters. *)
From Verif.Model Require Import Falsify Manifests.
From Verif.Spec Require Import Pruning.
From Verif.Proofs Require Import Order.

(** The statistics of a manifest row bound a row's primary keys. *)
Definition key_bounds (en : fenv) (sl : statref → option scalar) (look : string → option scalar) : Prop :=
  ∀ n i v, n ∈ fe_pks en → fe_ids en !! n = Some i → look n = Some v →
    ∃ a b, sl (i, SMin) = Some a ∧ sl (i, SMax) = Some b ∧ is_nan a = false ∧ is_nan b = false
         ∧ is_nan v = false ∧ sle a v ∧ sle v b.

(** Every field is found at its own name. *)
Definition aligned (en : fenv) (ns : list string) : Prop :=
  ∀ n k, n ∈ ns → index_of n (fe_top en) = Some k → fe_flat en !! k = Some n.

Lemma min_max_inv en n mn mx pk :
  aligned en [n] → min_max en n = Some (mn, mx, pk) →
  ∃ i, fe_ids en !! n = Some i ∧ mn = EField (i, SMin) ∧ mx = EField (i, SMax)
       ∧ pk = bool_decide (n ∈ fe_pks en).
Proof.
  intros Hal. unfold min_max. destruct (index_of n (fe_top en)) as [k|] eqn:Hk; [|done]. simpl.
  rewrite (Hal n k); [|set_solver|done]. simpl.
  destruct (fe_ids en !! n) as [i|] eqn:Hi; [|done]. simpl.
  intros [= <- <- <-]. eauto.
Qed.

Lemma aligned_app en a b : aligned en (a ++ b) → aligned en a ∧ aligned en b.
Proof. intros Hal. split; intros n k Hn; apply Hal; set_solver. Qed.

Lemma eval_cmp_true {F} (look : F → option scalar) op a b :
  eval look (EBin (FnCmp op) a b) = Some (SBool true) →
  ∃ x y, eval look a = Some x ∧ eval look b = Some y ∧ cmp_holds op x y = true.
Proof.
  simpl. destruct (eval look a), (eval look b); simpl; try done.
  intros [= ?]; eauto.
Qed.

Lemma cmp_gt_true x y : cmp_holds OpGt x y = true →
  is_nan x = false ∧ is_nan y = false ∧ ¬ sle x y.
Proof.
  unfold cmp_holds. destruct (is_nan x), (is_nan y); simpl; try done.
  destruct (scmp x y) eqn:E; try done. intros _. repeat split. by apply scmp_gt_sle.
Qed.
Lemma cmp_ge_true x y : cmp_holds OpGe x y = true →
  is_nan x = false ∧ is_nan y = false ∧ sle y x.
Proof.
  unfold cmp_holds, sle. rewrite (scmp_antisym x y).
  destruct (is_nan x), (is_nan y); simpl; try done.
  by destruct (scmp x y) eqn:E.
Qed.
Lemma cmp_lt_true x y : cmp_holds OpLt x y = true →
  is_nan x = false ∧ is_nan y = false ∧ ¬ sle y x.
Proof.
  unfold cmp_holds. destruct (is_nan x), (is_nan y); simpl; try done.
  destruct (scmp x y) eqn:E; try done. intros _. repeat split. by apply scmp_lt_sle.
Qed.
Lemma cmp_le_true x y : cmp_holds OpLe x y = true →
  is_nan x = false ∧ is_nan y = false ∧ sle x y.
Proof.
  unfold cmp_holds, sle.
  destruct (is_nan x), (is_nan y); simpl; try done.
  by destruct (scmp x y) eqn:E.
Qed.
Lemma cmp_eq_true x y : cmp_holds OpEq x y = true →
  is_nan x = false ∧ is_nan y = false ∧ x = y.
Proof.
  unfold cmp_holds.
  destruct (is_nan x), (is_nan y); simpl; try done.
  destruct (scmp x y) eqn:E; try done. intros _. repeat split. by apply scmp_eq_nan.
Qed.
Lemma cmp_ne_true x y : is_nan x = false → is_nan y = false → cmp_holds OpNe x y = true → x ≠ y.
Proof.
  intros Hx Hy. unfold cmp_holds. rewrite Hx, Hy. simpl.
  intros Hc ->. rewrite scmp_refl in Hc; done.
Qed.

Lemma cmp_gt_false x y : (is_nan x = false → is_nan y = false → sle x y) → cmp_holds OpGt x y = false.
Proof.
  intros Hle. destruct (cmp_holds OpGt x y) eqn:E; [|done].
  apply cmp_gt_true in E as (?&?&[]); auto.
Qed.
Lemma cmp_ge_false x y : (is_nan x = false → is_nan y = false → ¬ sle y x) → cmp_holds OpGe x y = false.
Proof.
  intros Hle. destruct (cmp_holds OpGe x y) eqn:E; [|done].
  apply cmp_ge_true in E as (?&?&?). exfalso; eapply Hle; eauto.
Qed.
Lemma cmp_lt_false x y : (is_nan x = false → is_nan y = false → sle y x) → cmp_holds OpLt x y = false.
Proof.
  intros Hle. destruct (cmp_holds OpLt x y) eqn:E; [|done].
  apply cmp_lt_true in E as (?&?&[]); auto.
Qed.
Lemma cmp_le_false x y : (is_nan x = false → is_nan y = false → ¬ sle x y) → cmp_holds OpLe x y = false.
Proof.
  intros Hle. destruct (cmp_holds OpLe x y) eqn:E; [|done].
  apply cmp_le_true in E as (?&?&?). exfalso; eapply Hle; eauto.
Qed.

Lemma undecidable_none en e top ff :
  aligned en (filter_fields e) →
  undecidable_part (fe_pks en) e = true → falsify en top e = FOk ff → ff = None.
Proof.
  revert top ff. induction e as [v|f|f a IHa|f a IHa b IHb|sem|hf sem]; intros top ff Hal Hu; try done.
  - destruct f; try done. simpl in *.
    destruct (falsify en false a) as [[x|]| |] eqn:E; try done.
    + apply IHa in E; done.
    + by intros [= <-].
  - simpl in Hal. apply aligned_app in Hal as [Hala Halb].
    destruct f as [| | |op|]; try done.
    + simpl in Hu. apply andb_true_iff in Hu as [Hua Hub].
      assert (Hfa : is_fn a = true).
      { destruct a as [| |[]| | |]; try done. }
      simpl. rewrite Hfa. simpl.
      destruct (falsify en false a) as [la| |] eqn:Ea; try done.
      destruct (falsify en false b) as [lb| |] eqn:Eb; try done.
      rewrite (IHa _ _ Hala Hua Ea), (IHb _ _ Halb Hub Eb). simpl. by intros [= <-].
    + simpl in Hu. apply andb_true_iff in Hu as [Hua Hub].
      assert (Hfa : is_fn a = true).
      { destruct a as [| |[]| | |]; try done. }
      simpl. rewrite Hfa. simpl.
      destruct (falsify en false a) as [la| |] eqn:Ea; try done.
      destruct (falsify en false b) as [lb| |] eqn:Eb; try done.
      rewrite (IHa _ _ Hala Hua Ea), (IHb _ _ Halb Hub Eb). simpl. by intros [= <-].
    + simpl in Hu. simpl.
      destruct a as [v|x| | | |], b as [w|y| | | |]; simpl in *; try done.
      * unfold cond_field_literal.
        destruct (min_max en y) as [[[mn mx] pk]|] eqn:Em; [|done].
        apply min_max_inv in Em as (i&_&_&_&->); [|done].
        destruct (bool_decide (y ∈ fe_pks en)); [done|]. by intros [= <-].
      * unfold cond_field_literal.
        destruct (min_max en x) as [[[mn mx] pk]|] eqn:Em; [|done].
        apply min_max_inv in Em as (i&_&_&_&->); [|done].
        destruct (bool_decide (x ∈ fe_pks en)); [done|]. by intros [= <-].
      * unfold cond_fields.
        destruct (min_max en x) as [[[mn mx] pk]|] eqn:Em; [|done].
        destruct (min_max en y) as [[[mn' mx'] pk']|] eqn:Em'; [|done].
        apply min_max_inv in Em as (i&_&_&_&->); [|done].
        apply min_max_inv in Em' as (i'&_&_&_&->); [|done].
        destruct (bool_decide (x ∈ fe_pks en)), (bool_decide (y ∈ fe_pks en)); try done;
        by intros [= <-].
Qed.

Lemma as_bool_true v : is_true v = true → v = Some (SBool true).
Proof. by destruct v as [[|[]| |]|]. Qed.

Local Ltac bool_tac :=
  repeat match goal with
  | |- context [cmp_holds OpGt ?x ?y] => rewrite (cmp_gt_false x y)
  | |- context [cmp_holds OpGe ?x ?y] => rewrite (cmp_ge_false x y)
  | |- context [cmp_holds OpLt ?x ?y] => rewrite (cmp_lt_false x y)
  | |- context [cmp_holds OpLe ?x ?y] => rewrite (cmp_le_false x y)
  end.

Lemma ff_field_literal_sound f (fmin fmax : sexpr) sl (v : scalar) ff a b x :
  eval sl fmin = Some a → eval sl fmax = Some b →
  is_nan a = false → is_nan b = false → is_nan x = false → sle a x → sle x b →
  (match f with FnCmp op => cmp_holds op x v = true | _ => False end) →
  ff_field_literal f fmin fmax (ELit (Some v)) = FOk (Some ff) →
  eval sl ff = Some (SBool false).
Proof.
  intros Ea Eb Ha Hb Hx Hax Hxb Hc.
  destruct f as [| | |op|]; try done. destruct op; simpl; intros [= <-]; simpl; rewrite ?Ea, ?Eb; simpl.
  - apply cmp_gt_true in Hc as (_&Hv&Hc). do 2 f_equal. bool_tac; [done|].
    intros _ _ Hbv. apply Hc. by eapply sle_trans.
  - apply cmp_ge_true in Hc as (_&Hv&Hc). do 2 f_equal. bool_tac; [done|].
    intros _ _. by eapply sle_trans.
  - apply cmp_lt_true in Hc as (_&Hv&Hc). do 2 f_equal. bool_tac; [done|].
    intros _ _ Hbv. apply Hc. by eapply sle_trans.
  - apply cmp_le_true in Hc as (_&Hv&Hc). do 2 f_equal. bool_tac; [done|].
    intros _ _. by eapply sle_trans.
  - apply cmp_eq_true in Hc as (_&Hv&->).
    bool_tac; [done| |]; intros; done.
  - destruct (is_nan v) eqn:Hv.
    { unfold cmp_holds. rewrite Ha, Hv. simpl. done. }
    apply cmp_ne_true in Hc; [|done|done].
    destruct (cmp_holds OpEq a v) eqn:E1; [|by destruct (cmp_holds OpEq b v)].
    destruct (cmp_holds OpEq b v) eqn:E2; [|done].
    apply cmp_eq_true in E1 as (_&_&->). apply cmp_eq_true in E2 as (_&_&->).
    destruct Hc. by apply sle_antisym.
Qed.

Lemma falsify_sound en sl look e top ff :
  key_bounds en sl look →
  aligned en (filter_fields e) →
  prunable (fe_pks en) e = true →
  eval look e = Some (SBool true) →
  falsify en top e = FOk (Some ff) →
  eval sl ff = Some (SBool false).
Proof.
  intros Hkb. revert top ff.
  induction e as [v|f|f a IHa|f a IHa b IHb|sem|hf sem]; intros top ff Hal Hsafe Htrue.
  - simpl in *. subst v. simpl. intros [= <-]. done.
  - done.
  - destruct f; try done. simpl in *. apply andb_prop_elim in Hsafe || idtac.
    destruct (falsify en false a) as [[x|]| |] eqn:E; try done.
    exfalso. by apply (undecidable_none _ _ _ _ Hal Hsafe) in E.
  - simpl in Hal. pose proof (aligned_app _ _ _ Hal) as [Hala Halb].
    destruct (is_fn a || is_fn b) eqn:Hfn.
    + simpl. rewrite Hfn. unfold combine.
      destruct (falsify en false a) as [la| |] eqn:Ea; try done.
      destruct (falsify en false b) as [lb| |] eqn:Eb; try done.
      destruct f; try done; simpl in Hsafe; apply andb_true_iff in Hsafe as [Hsa Hsb].
      * simpl in Htrue.
        assert (eval look a = Some (SBool true) ∧ eval look b = Some (SBool true)) as [Ta Tb].
        { destruct (eval look a) as [[|[]| |]|], (eval look b) as [[|[]| |]|]; done. }
        destruct la as [la|], lb as [lb|]; intros [= <-]; simpl; eauto.
        rewrite (IHa _ _ Hala Hsa Ta Ea), (IHb _ _ Halb Hsb Tb Eb). done.
      * simpl in Htrue.
        destruct la as [la|], lb as [lb|]; intros [= <-]; simpl.
        assert (eval look a = Some (SBool true) ∨ eval look b = Some (SBool true)) as [T|T].
        { destruct (eval look a) as [[|[]| |]|], (eval look b) as [[|[]| |]|]; simpl in *; auto; done. }
        -- rewrite (IHa _ _ Hala Hsa T Ea). done.
        -- rewrite (IHb _ _ Halb Hsb T Eb). by destruct (eval sl la) as [[|[]| |]|].
    + simpl. rewrite Hfn. clear IHa IHb.
      destruct a as [v|x| | | |], b as [w|y| | | |]; try done.
      * (* literals *)
        simpl in *. destruct v as [v|], w as [w|]; simpl; try done.
        destruct f as [| | |op|]; try done. simpl in Htrue. injection Htrue as Hc.
        destruct op; simpl; intros [= <-]; simpl; do 2 f_equal.
        -- apply cmp_gt_true in Hc as (?&?&?). by apply cmp_le_false.
        -- apply cmp_ge_true in Hc as (?&?&?). by apply cmp_lt_false.
        -- apply cmp_lt_true in Hc as (?&?&?). by apply cmp_ge_false.
        -- apply cmp_le_true in Hc as (?&?&?). by apply cmp_gt_false.
        -- apply cmp_eq_true in Hc as (?&Hw&->). unfold cmp_holds. rewrite Hw. simpl.
           by rewrite scmp_refl.
        -- destruct (cmp_holds OpEq v w) eqn:E; [|done].
           apply cmp_eq_true in E as (Hv&_&->). apply cmp_ne_true in Hc; done.
      * (* literal, field *)
        simpl in *. unfold cond_field_literal.
        destruct (min_max en y) as [[[mn mx] pk]|] eqn:Em; [|done].
        apply min_max_inv in Em as (i&Hi&->&->&->); [|done].
        case_bool_decide as Hpk; [|done].
        destruct v as [v|]; simpl; [|done].
        destruct f as [| | |op|]; try done.
        apply (eval_cmp_true look op (ELit (Some v)) (EField y)) in Htrue as (x0&x&Hv&Hx&Hc).
        simpl in Hv, Hx. injection Hv as <-.
        destruct (Hkb _ _ _ Hpk Hi Hx) as (a&b&Ha&Hb&Hna&Hnb&Hnx&Hax&Hxb).
        intros Hff. eapply ff_field_literal_sound; [..|exact Hff]; simpl; eauto.
        destruct op; simpl in *.
        -- revert Hc. unfold cmp_holds. rewrite orb_comm, (scmp_antisym v x).
           destruct (_ || _); [done|]. by destruct (scmp v x).
        -- revert Hc. unfold cmp_holds. rewrite orb_comm, (scmp_antisym v x).
           destruct (_ || _); [done|]. by destruct (scmp v x).
        -- revert Hc. unfold cmp_holds. rewrite orb_comm, (scmp_antisym v x).
           destruct (_ || _); [done|]. by destruct (scmp v x).
        -- revert Hc. unfold cmp_holds. rewrite orb_comm, (scmp_antisym v x).
           destruct (_ || _); [done|]. by destruct (scmp v x).
        -- revert Hc. unfold cmp_holds. rewrite orb_comm, (scmp_antisym v x).
           destruct (_ || _); [done|]. by destruct (scmp v x).
        -- revert Hc. unfold cmp_holds. rewrite orb_comm, (scmp_antisym v x).
           destruct (_ || _); [done|]. by destruct (scmp v x).
      * (* field, literal *)
        simpl in *. unfold cond_field_literal.
        destruct (min_max en x) as [[[mn mx] pk]|] eqn:Em; [|done].
        apply min_max_inv in Em as (i&Hi&->&->&->); [|done].
        case_bool_decide as Hpk; [|done].
        destruct w as [v|]; simpl; [|done].
        destruct f as [| | |op|]; try done.
        apply (eval_cmp_true look op (EField x) (ELit (Some v))) in Htrue as (x0&x1&Hx&Hv&Hc).
        simpl in Hv, Hx. injection Hv as <-.
        destruct (Hkb _ _ _ Hpk Hi Hx) as (a&b&Ha&Hb&Hna&Hnb&Hnx&Hax&Hxb).
        intros Hff. eapply ff_field_literal_sound; [..|exact Hff]; simpl; eauto.
      * (* fields *)
        simpl. unfold cond_fields.
        destruct (min_max en x) as [[[mn mx] pk]|] eqn:Em; [|done].
        destruct (min_max en y) as [[[mn' mx'] pk']|] eqn:Em'; [|done].
        apply min_max_inv in Em as (i&Hi&->&->&->); [|done].
        apply min_max_inv in Em' as (i'&Hi'&->&->&->); [|done].
        case_bool_decide as Hpk; [|done]. case_bool_decide as Hpk'; [|done]. simpl.
        destruct f as [| | |op|]; try done.
        apply eval_cmp_true in Htrue as (u&v&Hx&Hy&Hc). simpl in Hx, Hy.
        destruct (Hkb _ _ _ Hpk Hi Hx) as (a&b&Ha&Hb&Hna&Hnb&Hnx&Hax&Hxb).
        destruct (Hkb _ _ _ Hpk' Hi' Hy) as (a'&b'&Ha'&Hb'&Hna'&Hnb'&Hny&Hay&Hyb).
        destruct op; simpl in Hsafe; simpl; intros [= <-]; simpl;
          rewrite ?Ha, ?Hb, ?Ha', ?Hb'; simpl.
        -- apply cmp_gt_true in Hc as (_&_&Hc). rewrite cmp_le_false; [done|].
           intros _ _ Hle. apply Hc. apply (sle_trans _ b); [done|]. by apply (sle_trans _ a').
        -- apply cmp_ge_true in Hc as (_&_&Hc). rewrite cmp_lt_false; [done|].
           intros _ _. apply (sle_trans _ v); [done|]. by apply (sle_trans _ u).
        -- apply cmp_lt_true in Hc as (_&_&Hc). rewrite cmp_ge_false; [done|].
           intros _ _ Hle. apply Hc. apply (sle_trans _ b'); [done|]. by apply (sle_trans _ a).
        -- apply cmp_le_true in Hc as (_&_&Hc). rewrite cmp_gt_false; [done|].
           intros _ _. apply (sle_trans _ u); [done|]. by apply (sle_trans _ v).
        -- apply cmp_eq_true in Hc as (_&_&->).
           rewrite !cmp_lt_false; [done| |]; intros _ _; by eapply sle_trans.
        -- rewrite !bool_decide_eq_true_2 in Hsafe by done. done.
  - done.
  - by destruct top, hf.
Qed.

(** A file holding a matching row is never pruned. *)
Theorem manifest_filter_keeps en m look e mf :
  key_bounds en (stat_look m) look →
  aligned en (filter_fields e) →
  prunable (fe_pks en) e = true →
  is_true (eval look e) = true →
  build_manifest_filter en e = Ok mf →
  mrow_matches mf m = true.
Proof.
  intros Hkb Hal Hs Ht. apply as_bool_true in Ht. unfold build_manifest_filter.
  destruct (fields_exist _ _); [|done].
  destruct (falsify en true e) as [[ff|]| |] eqn:Hf; try done; intros [= <-]; try done.
  unfold mrow_matches, s_not. simpl.
  by rewrite (falsify_sound _ _ _ _ _ _ Hkb Hal Hs Ht Hf).
Qed.
