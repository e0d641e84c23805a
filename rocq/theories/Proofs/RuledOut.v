(** Which files a filter leaves. *)
From Verif.Model Require Import System.
From Verif.Spec Require Import Logical Api Pruning Keys Typed RuledOut.
From Verif.Proofs Require Import Lib World Resolve Order FalsifySound Stats Bounds SchemaFacts Keys Total AppendSpec
  Wf Inv FileSet SysInv Effects Observe Calls Evolve History Serial Recorded ReadRun Reads View Diff NoOp Replay Txn.

Definition lt (a b : scalar) : Prop := ¬ sle b a.
Lemma cmp_dec op x y : is_nan x = false → is_nan y = false →
  cmp_holds op x y = true ↔
  match op with OpGt => lt y x | OpGe => sle y x | OpLt => lt x y | OpLe => sle x y | OpEq => x = y | OpNe => x ≠ y end.
Proof.
  intros Hx Hy. unfold cmp_holds, lt. rewrite Hx, Hy. cbn. pose proof (scmp_antisym x y) as Ha.
  pose proof (scmp_refl x Hx) as Hr. pose proof (scmp_eq x y Hx) as He.
  unfold sle. destruct op; destruct (scmp x y) eqn:Hc; rewrite ?Ha; cbn; split; try done; try congruence; try (intros H; exfalso; by apply H).
  all: try (intros _; by apply He). all: try (intros H; exfalso; by apply H, He). all: intros _ ->; congruence.
Qed.
Lemma cmp_dec_false op x y : is_nan x = false → is_nan y = false →
  cmp_holds op x y = false ↔
  match op with OpGt => sle x y | OpGe => lt x y | OpLt => sle y x | OpLe => lt y x | OpEq => x ≠ y | OpNe => x = y end.
Proof.
  intros Hx Hy. rewrite <-not_true_iff_false, cmp_dec by done. unfold lt.
  assert (Hnn : ∀ a b, ¬ ¬ sle a b → sle a b) by (intros a b H Hc; apply H; intros Hs; by apply Hs).
  destruct op; try done; try (split; [apply Hnn|tauto]).
  split; [|intros ->; by intros H]. intros H. destruct (decide (x = y)); [done|]. by destruct H.
Qed.
Lemma sle_dec x y : sle x y ∨ lt y x.
Proof. unfold lt, sle. destruct (scmp x y); auto. Qed.
Lemma lt_sle x y : lt x y → sle x y.
Proof. intros H. destruct (sle_total x y); [done|]. by destruct H. Qed.

Definition says (look : statref → option scalar) (f : fres) (P : Prop) : Prop :=
  match f with
  | FOk None => ¬ P
  | FOk (Some e) => ∃ b, eval look e = Some (SBool b) ∧ (b = true ↔ P)
  | _ => False
  end.
Lemma says_iff look f P Q : (P ↔ Q) → says look f P → says look f Q.
Proof. intros H. destruct f as [[e|]| |]; cbn; [|tauto|done..]. intros (b&?&?). exists b. split; [done|tauto]. Qed.
Lemma or_bool a b : k_or (Some a) (Some b) = Some (a || b).
Proof. by destruct a, b. Qed.
Lemma and_bool a b : k_and (Some a) (Some b) = Some (a && b).
Proof. by destruct a, b. Qed.

Definition within (lo hi x : scalar) : Prop := is_nan x = false ∧ sle lo x ∧ sle x hi.
Lemma field_literal look op fmin fmax lo hi v :
  eval look fmin = Some lo → eval look fmax = Some hi → is_nan lo = false → is_nan hi = false → sle lo hi → is_nan v = false →
  says look (ff_field_literal (FnCmp op) fmin fmax (ELit (Some v))) (∀ x, within lo hi x → cmp_holds op x v = false).
Proof.
  intros Hmin Hmax Hlo Hhi Hle Hv.
  assert (Hl : within lo hi lo) by (split; [done|]; split; [apply sle_refl|done]).
  assert (Hh : within lo hi hi) by (split; [done|]; split; [done|apply sle_refl]).
  assert (Hc : (∀ x, within lo hi x → cmp_holds op x v = false) ↔
    match op with OpGt => sle hi v | OpGe => lt hi v | OpLt => sle v lo | OpLe => lt v lo
      | OpEq => lt hi v ∨ lt v lo | OpNe => lo = v ∧ hi = v end).
  { destruct op; split.
    - intros H. by apply (cmp_dec_false OpGt), H.
    - intros H x (Hx&_&Hxh). apply (cmp_dec_false OpGt); [done..|]. by eapply sle_trans.
    - intros H. by apply (cmp_dec_false OpGe), H.
    - intros H x (Hx&_&Hxh). apply (cmp_dec_false OpGe); [done..|]. intros Hc. apply H. by eapply sle_trans.
    - intros H. by apply (cmp_dec_false OpLt), H.
    - intros H x (Hx&Hlx&_). apply (cmp_dec_false OpLt); [done..|]. by eapply sle_trans.
    - intros H. by apply (cmp_dec_false OpLe), H.
    - intros H x (Hx&Hlx&_). apply (cmp_dec_false OpLe); [done..|]. intros Hc. apply H. by eapply sle_trans.
    - intros H. destruct (sle_dec v hi) as [H1|]; [|by left]. destruct (sle_dec lo v) as [H2|]; [|by right].
      assert (v ≠ v); [|done]. by apply (cmp_dec_false OpEq), H.
    - intros H x (Hx&Hlx&Hxh). apply (cmp_dec_false OpEq); [done..|]. intros ->. by destruct H as [H|H]; apply H.
    - intros H. split; by apply (cmp_dec_false OpNe), H.
    - intros [-> ->] x (Hx&Hlx&Hxh). apply (cmp_dec_false OpNe); [done..|]. by apply sle_antisym. }
  eapply says_iff; [symmetry; exact Hc|].
  destruct op; cbn [ff_field_literal says]; eexists; cbn [eval s_cmp s_or s_and]; rewrite ?Hmin, ?Hmax; cbn [eval_cmp as_bool];
    rewrite ?or_bool, ?and_bool; (split; [reflexivity|]); rewrite ?orb_true_iff, ?andb_true_iff, ?cmp_dec by done; tauto.
Qed.
Lemma rev_holds op v x : cmp_holds op v x = match rev_fn (FnCmp op) with FnCmp op' => cmp_holds op' x v | _ => false end.
Proof.
  unfold cmp_holds. rewrite (orb_comm (is_nan v)), (scmp_antisym x v).
  destruct op; cbn; destruct (_ || _); try done; by destruct (scmp x v).
Qed.
Lemma literal_field look op fmin fmax lo hi v :
  eval look fmin = Some lo → eval look fmax = Some hi → is_nan lo = false → is_nan hi = false → sle lo hi → is_nan v = false →
  says look (ff_field_literal (rev_fn (FnCmp op)) fmin fmax (ELit (Some v))) (∀ x, within lo hi x → cmp_holds op v x = false).
Proof.
  intros. assert (∃ op', rev_fn (FnCmp op) = FnCmp op') as [op' Hop] by (destruct op; cbn; eauto).
  rewrite Hop. eapply says_iff; [|by eapply field_literal].
  apply forall_proper. intros x. pose proof (rev_holds op v x) as Hr. rewrite Hop in Hr. by rewrite Hr.
Qed.
Lemma fields look op lmin lmax rmin rmax a b c d :
  op ≠ OpNe → eval look lmin = Some a → eval look lmax = Some b → eval look rmin = Some c → eval look rmax = Some d →
  is_nan a = false → is_nan b = false → is_nan c = false → is_nan d = false → sle a b → sle c d →
  says look (ff_fields (FnCmp op) lmin lmax rmin rmax) (∀ x y, within a b x → within c d y → cmp_holds op x y = false).
Proof.
  intros Hne Ha Hb Hc Hd Hna Hnb Hnc Hnd Hab Hcd.
  assert (Wa : within a b a) by (split; [done|]; split; [apply sle_refl|done]).
  assert (Wb : within a b b) by (split; [done|]; split; [done|apply sle_refl]).
  assert (Wc : within c d c) by (split; [done|]; split; [apply sle_refl|done]).
  assert (Wd : within c d d) by (split; [done|]; split; [done|apply sle_refl]).
  assert (Hcc : (∀ x y, within a b x → within c d y → cmp_holds op x y = false) ↔
    match op with OpGt => sle b c | OpGe => lt b c | OpLt => sle d a | OpLe => lt d a | OpEq => lt b c ∨ lt d a | OpNe => False end).
  { destruct op; [..|done]; split.
    - intros H. by apply (cmp_dec_false OpGt), H.
    - intros H x y (Hx&_&Hxh) (Hy&Hly&_). apply (cmp_dec_false OpGt); [done..|]. eapply sle_trans; [done|]. by eapply sle_trans.
    - intros H. by apply (cmp_dec_false OpGe), H.
    - intros H x y (Hx&_&Hxh) (Hy&Hly&_). apply (cmp_dec_false OpGe); [done..|]. intros Hyx. apply H.
      eapply sle_trans; [done|]. by eapply sle_trans.
    - intros H. by apply (cmp_dec_false OpLt), H.
    - intros H x y (Hx&Hlx&_) (Hy&_&Hyh). apply (cmp_dec_false OpLt); [done..|]. eapply sle_trans; [done|]. by eapply sle_trans.
    - intros H. by apply (cmp_dec_false OpLe), H.
    - intros H x y (Hx&Hlx&_) (Hy&_&Hyh). apply (cmp_dec_false OpLe); [done..|]. intros Hyx. apply H.
      eapply sle_trans; [done|]. by eapply sle_trans.
    - intros H. destruct (sle_dec c b) as [H1|]; [|by left]. destruct (sle_dec a d) as [H2|]; [|by right]. exfalso.
      destruct (sle_total a c) as [H3|H3].
      + assert (c ≠ c); [|done]. apply (cmp_dec_false OpEq); [done..|]. by apply H.
      + assert (a ≠ a); [|done]. apply (cmp_dec_false OpEq); [done..|]. by apply H.
    - intros H x y (Hx&Hlx&Hxh) (Hy&Hly&Hyh). apply (cmp_dec_false OpEq); [done..|]. intros ->.
      destruct H as [H|H]; apply H; by eapply sle_trans. }
  eapply says_iff; [symmetry; exact Hcc|].
  destruct op; [..|done]; cbn [ff_fields says]; eexists; cbn [eval s_cmp s_or s_and]; rewrite ?Ha, ?Hb, ?Hc, ?Hd; cbn [eval_cmp as_bool];
    rewrite ?or_bool, ?and_bool; (split; [reflexivity|]); rewrite ?orb_true_iff, ?andb_true_iff, ?cmp_dec by done; tauto.
Qed.
Lemma both_literals look op v w : is_nan v = false → is_nan w = false →
  says look (ff_literals (FnCmp op) (ELit (Some v)) (ELit (Some w))) (cmp_holds op v w = false).
Proof.
  intros Hv Hw. destruct op; cbn [ff_literals says]; eexists; cbn [eval s_cmp eval_cmp]; (split; [reflexivity|]);
    rewrite cmp_dec, cmp_dec_false by done; done.
Qed.

(** The filter built on statistics. *)
Section exact.
Context (s : schema) (m : mrow) (Hs : wf_schema s).
Notation sl := (stat_look m).
Notation range := (key_range s m).
Context (Hrng : ranged (s_pks s) range).

Lemma key_stats n : n ∈ s_pks s → plain_before s n → ∃ i lo hi, min_max (fenv_of s) n = Some (EField (i, SMin), EField (i, SMax), true)
  ∧ sl (i, SMin) = Some lo ∧ sl (i, SMax) = Some hi ∧ range n = Some (lo, hi)
  ∧ is_nan lo = false ∧ is_nan hi = false ∧ sle lo hi.
Proof.
  intros Hn Hp. destruct (Hrng n Hn) as (lo&hi&Hr&Hlo&Hhi&Hle). pose proof Hr as Hr'. unfold key_range in Hr'.
  destruct (list_find (fun f => f_name f = n) (s_fields s)) as [[k f]|] eqn:Hf; [|done]. cbn in Hr'.
  apply list_find_Some in Hf as (Hk&Hname&_). apply elem_of_list_lookup_2 in Hk.
  assert (Hin : n ∈ s_names s) by (rewrite <-Hname; by apply elem_of_list_fmap_1).
  destruct (min_max_some s n Hs Hin Hp) as [[[mn mx] pk] Hmm].
  destruct (min_max_inv (fenv_of s) n mn mx pk) as (i&Hi&->&->&->); [apply aligned_plain; [done|set_solver]|done|].
  cbn in Hi. rewrite (field_ids_lookup (phys_schema s) n) with (f := phys_field s f) in Hi;
    [|rewrite phys_names; apply Hs|apply elem_of_list_fmap; eauto|by rewrite phys_field_name].
  rewrite recorded_look in Hr'. assert (i = field_id f) as ->.
  { injection Hi as <-. apply phys_field_id. }
  destruct (sl (field_id f, SMin)) as [a|] eqn:Ha; [|done]. destruct (sl (field_id f, SMax)) as [b|] eqn:Hb; [|done].
  injection Hr' as -> ->. exists (field_id f), lo, hi. rewrite Hmm, bool_decide_true by done. done.
Qed.

Lemma falsify_exact e top :
  simple e = true → (∀ n, n ∈ filter_fields e → n ∈ s_names s ∧ plain_before s n) →
  says sl (falsify (fenv_of s) top e) (ruled_out (s_pks s) range e).
Proof.
  revert top. induction e as [v|n|f a IHa|f a IHa b IHb|sem|hf sem]; intros top Hsim Hf; try done.
  cbn in Hf. destruct f as [| | |op|]; try done.
  - cbn in Hsim. apply andb_true_iff in Hsim as [Sa Sb].
    assert (Ia := IHa false Sa ltac:(intros n Hn; apply Hf; apply elem_of_app; auto)).
    assert (Ib := IHb false Sb ltac:(intros n Hn; apply Hf; apply elem_of_app; auto)).
    assert (is_fn a = true) as Hfn by (by destruct a as [| | |[] ? ?| |]). cbn [falsify ruled_out]. rewrite Hfn. cbn [orb].
    unfold combine. destruct (falsify _ _ a) as [[la|]| |]; [|..]; destruct (falsify _ _ b) as [[lb|]| |]; cbn [says] in *; try done.
    + destruct Ia as (x&Ha&Hx), Ib as (y&Hb&Hy). exists (x || y). cbn [eval s_or]. rewrite Ha, Hb. cbn [as_bool]. rewrite or_bool.
      split; [done|]. rewrite orb_true_iff. tauto.
    + destruct Ia as (x&Ha&Hx). exists x. split; [done|tauto].
    + destruct Ib as (x&Hb&Hx). exists x. split; [done|tauto].
    + tauto.
  - cbn in Hsim. apply andb_true_iff in Hsim as [Sa Sb].
    assert (Ia := IHa false Sa ltac:(intros n Hn; apply Hf; apply elem_of_app; auto)).
    assert (Ib := IHb false Sb ltac:(intros n Hn; apply Hf; apply elem_of_app; auto)).
    assert (is_fn a = true) as Hfn by (by destruct a as [| | |[] ? ?| |]). cbn [falsify ruled_out]. rewrite Hfn. cbn [orb].
    unfold combine. destruct (falsify _ _ a) as [[la|]| |]; [|..]; destruct (falsify _ _ b) as [[lb|]| |]; cbn [says] in *; try done; [|tauto..].
    destruct Ia as (x&Ha&Hx), Ib as (y&Hb&Hy). exists (x && y). cbn [eval s_and]. rewrite Ha, Hb. cbn [as_bool]. rewrite and_bool.
    split; [done|]. rewrite andb_true_iff. tauto.
  - clear IHa IHb. cbn in Hsim. apply andb_true_iff in Hsim as [Hsim Hne]. apply andb_true_iff in Hsim as [Sa Sb].
    assert (Hother : ∀ n, n ∈ s_names s → plain_before s n → n ∉ s_pks s → ∃ p q, min_max (fenv_of s) n = Some (p, q, false)).
    { intros n Hn Hp Hk. destruct (min_max_some s n Hs Hn Hp) as [[[mn mx] pk] Hmm]. exists mn, mx.
      destruct (min_max_inv (fenv_of s) n mn mx pk) as (i&_&_&_&->); [apply aligned_plain; [done|set_solver]|done|].
      cbn in Hmm |- *. by rewrite bool_decide_false in Hmm. }
    destruct a as [[v|]|n| | | |], b as [[w|]|n'| | | |]; try done; cbn in Sa, Sb;
      rewrite ?negb_true_iff in Sa; rewrite ?negb_true_iff in Sb; cbn [falsify is_fn orb ruled_out keyed possible].
    + cbn [cond_literals lit_value]. eapply says_iff; [|by apply both_literals]. split; [|naive_solver].
      intros Hc. split; [done|]. split; [done|]. by intros ?? [= <-] [= <-].
    + unfold cond_field_literal. destruct (Hf n') as [Hn Hp]; [here|].
      destruct (decide (n' ∈ s_pks s)) as [Hk|Hk].
      * destruct (key_stats n' Hk Hp) as (i&lo&hi&Hmm&Hlo&Hhi&Hr&?&?&?). rewrite Hmm. cbn [lit_value].
        eapply says_iff; [|by eapply (literal_field sl op (EField (i, SMin)) (EField (i, SMax)))].
        rewrite Hr. split.
        -- intros Hc. split; [done|]. split; [done|]. intros ? x [= <-] (?&?&[= <- <-]&?&?&?). by apply Hc.
        -- intros (_&_&Hc) x (?&?&?). apply Hc; [done|]. eauto 10.
      * destruct (Hother n' Hn Hp Hk) as (?&?&->). cbn. tauto.
    + unfold cond_field_literal. destruct (Hf n) as [Hn Hp]; [here|].
      destruct (decide (n ∈ s_pks s)) as [Hk|Hk].
      * destruct (key_stats n Hk Hp) as (i&lo&hi&Hmm&Hlo&Hhi&Hr&?&?&?). rewrite Hmm. cbn [lit_value].
        eapply says_iff; [|by eapply (field_literal sl op (EField (i, SMin)) (EField (i, SMax)))].
        rewrite Hr. split.
        -- intros Hc. split; [done|]. split; [done|]. intros x ? (?&?&[= <- <-]&?&?&?) [= <-]. by apply Hc.
        -- intros (_&_&Hc) x (?&?&?). apply Hc; [|done]. eauto 10.
      * destruct (Hother n Hn Hp Hk) as (?&?&->). cbn. tauto.
    + unfold cond_fields. destruct (Hf n) as [Hn Hp]; [here|]. destruct (Hf n') as [Hn' Hp']; [here|].
      destruct (decide (n ∈ s_pks s)) as [Hk|Hk].
      * destruct (key_stats n Hk Hp) as (i&lo&hi&Hmm&Hlo&Hhi&Hr&?&?&?). rewrite Hmm.
        destruct (decide (n' ∈ s_pks s)) as [Hk'|Hk'].
        -- destruct (key_stats n' Hk' Hp') as (i'&lo'&hi'&Hmm'&Hlo'&Hhi'&Hr'&?&?&?). rewrite Hmm'. cbn [andb].
           eapply says_iff; [|eapply (fields sl op (EField (i, SMin)) (EField (i, SMax)) (EField (i', SMin)) (EField (i', SMax))); try done].
           ++ rewrite Hr, Hr'. split.
              ** intros Hc. split; [done|]. split; [done|]. intros x y (?&?&[= <- <-]&?&?&?) (?&?&[= <- <-]&?&?&?). by apply Hc.
              ** intros (_&_&Hc) x y (?&?&?) (?&?&?). apply Hc; eauto 10.
           ++ intros ->. cbn in Hne. by rewrite bool_decide_true in Hne.
        -- destruct (Hother n' Hn' Hp' Hk') as (?&?&->). cbn. tauto.
      * destruct (Hother n Hn Hp Hk) as (?&?&->). destruct (min_max_some s n' Hs Hn' Hp') as [[[? ?] ?] ->]. cbn. tauto.
Qed.
End exact.

Lemma build_exact s e : wf_schema s → buildable s e → simple e = true →
  ∃ mf, build_manifest_filter (fenv_of s) e = Ok mf
    ∧ ∀ m, ranged (s_pks s) (key_range s m) → mrow_matches mf m = true ↔ ¬ ruled_out (s_pks s) (key_range s m) e.
Proof.
  intros Hs Hb Hsim. destruct (build_total s e Hs Hb) as [mf Hmf]. exists mf. split; [done|]. intros m Hr.
  destruct Hb as (Hf&_&_). pose proof (falsify_exact s m Hs Hr e true Hsim Hf) as Hsay.
  unfold build_manifest_filter in Hmf. destruct (fields_exist _ e); [|done].
  destruct (falsify (fenv_of s) true e) as [[ff|]| |]; [..|done|done].
  - destruct Hsay as (b&He&Hb). injection Hmf as <-. cbn [mrow_matches eval s_not]. rewrite He, <-Hb. by destruct b.
  - injection Hmf as <-. done.
Qed.

Lemma kept_sublist {A} (P : A → Prop) `{!∀ x, Decision (P x)} (l : list A) : sublist (filter P l) l.
Proof. induction l as [|x l IH]; [done|]. rewrite filter_cons. case_decide; by constructor. Qed.
Lemma candidates_exact σ hid s sn e :
  reachable σ → schema_at σ hid = Some s → current σ hid = Some sn → buildable s e → simple e = true →
  (∀ q r, q ∈ sn_idx sn → r ∈ manifest_rows (w_fs (y_world σ)) q → ranged (s_pks s) (key_range s r)) →
  ∃ fset rs, result σ hid (candidates e) = Some (Ok fset)
    ∧ df_path <$> fset_files fset = mr_path <$> rs
    ∧ sublist rs (sn_idx sn ≫= manifest_rows (w_fs (y_world σ)))
    ∧ ∀ q r, q ∈ sn_idx sn → r ∈ manifest_rows (w_fs (y_world σ)) q →
        r ∈ rs ↔ ¬ ruled_out (s_pks s) (key_range s r) e.
Proof.
  intros Hr Hsc Hcur Hb Hsim Hrng. unfold current in Hcur.
  destruct (y_handles σ !! hid) as [h|] eqn:Hh; [|done]. cbn in Hcur.
  destruct (schema_seen _ _ _ _ Hr Hh Hsc) as (p&m&Hseen&Hm). rewrite Hm in Hcur. cbn in Hcur.
  pose proof Hseen as [Hs _ Hwf Hst Hmt _].
  destruct (build_exact s e (seen_schema _ _ _ _ _ _ Hseen) Hb Hsim) as (mf&Hmf&Hex).
  destruct (sync_spec s (y_world σ) p m h Hst Hmt Hwf) as (Hwf0&Hm0&_&Hbr&_).
  exists (fset_at (w_fs (y_world σ)) mf (sn_idx sn)), (filter (fun r => mrow_matches mf r = true) (sn_idx sn ≫= manifest_rows (w_fs (y_world σ)))).
  split; [|split; [|split]].
  - rewrite (result_eq _ _ _ _ Hh). unfold candidates.
    rewrite (bind_run' _ _ _ _ _ (reload_run p m h (y_world σ) Hst)), (data_files_run s) by (by rewrite Hm0).
    assert (Hget : get_snapshot (sync p m h) None = Ok sn).
    { apply (get_snapshot_snap_of _ m); [done|]. rewrite Hbr. exact Hcur. }
    rewrite Hget. cbn [snd man_filter]. by rewrite Hmf.
  - apply fset_files_filter.
  - apply kept_sublist.
  - intros q r Hq Hrow. rewrite elem_of_list_filter, (Hex r (Hrng q r Hq Hrow)). split; [tauto|]. intros ?. split; [done|].
    apply elem_of_list_bind. eauto.
Qed.

(** Checking ranges by computing. *)
Definition range_ok (o : option (scalar * scalar)) : bool :=
  match o with Some (lo, hi) => negb (is_nan lo) && (negb (is_nan hi) && bool_decide (scmp lo hi ≠ Gt)) | None => false end.
Lemma ranged_tested s fs mans :
  forallb (fun r => forallb (fun n => range_ok (key_range s r n)) (s_pks s)) (mans ≫= manifest_rows fs) = true →
  ∀ q r, q ∈ mans → r ∈ manifest_rows fs q → ranged (s_pks s) (key_range s r).
Proof.
  intros H q r Hq Hr n Hn. rewrite forallb_forall in H. specialize (H r). rewrite <-elem_of_list_In in H.
  rewrite forallb_forall in H. specialize (H ltac:(apply elem_of_list_bind; eauto) n (proj1 (elem_of_list_In _ _) Hn)).
  unfold range_ok in H. destruct (key_range s r n) as [[lo hi]|]; [|done]. exists lo, hi.
  apply andb_true_iff in H as [H1 H]. apply andb_true_iff in H as [H2 H3]. apply bool_decide_eq_true in H3.
  apply negb_true_iff in H1, H2. done.
Qed.
