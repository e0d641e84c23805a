(** Random access to a storage. *)
From stdpp Require Import sorting.
From Verif.Spec Require Import Access.
From Verif.Proofs Require Import Lib Serialize World Resolve ReadSpec SysInv ReadRun Effects Observe Calls Reads Durable Access.

Lemma linked_columns fs s fields st r :
  (∀ f, f ∈ fields → f ∈ record_names s) → resolve_row (records_in fs) (s_recs s) st = Some r → st.*1 = s_names s →
  linked fs fields (columns fields st) (columns fields r).
Proof.
  intros Hrec Hr Hst f Hf. pose proof (Hrec f Hf) as [Hr1 Hr2]%elem_of_list_filter.
  destruct (rget_some f st) as [c Hc]; [by rewrite Hst|]. pose proof (rget_resolve _ _ _ _ f Hr) as Hg. rewrite Hc in Hg.
  destruct Hg as (d&Hd&Hg). unfold resolve_field in Hd. cbn in Hd. rewrite decide_True in Hd by done.
  destruct (resolve_cell _ c) as [d'|] eqn:Hc'; [|done]. cbn in Hd. injection Hd as ->.
  destruct (resolve_cell_shape _ _ _ Hc') as [b ->]. exists c, b. split_and!.
  - rewrite rget_columns; [done|done|]. by rewrite Hc.
  - exact Hc'.
  - rewrite rget_columns; [done|done|]. by rewrite Hg.
Qed.
Lemma linked_keeps fs fs' fields a r :
  (∀ p rs, fs !! p = Some (FRecord rs) → fs' !! p = Some (FRecord rs)) → linked fs fields a r → linked fs' fields a r.
Proof.
  intros Hk Hl f Hf. destruct (Hl f Hf) as (c&b&Hc&Hn&Hb). exists c, b. split_and!; [done| |done]. by eapply names_record_keeps.
Qed.
Lemma shown_records s fields : (∀ f, f ∈ fields → f ∈ record_names s) → shown_order s fields = fields.
Proof.
  intros Hrec. unfold shown_order. induction fields as [|f fields IH]; [done|].
  pose proof (Hrec f (elem_of_list_here _ _)) as [Hf _]%elem_of_list_filter. rewrite !filter_cons.
  rewrite decide_False by (intros H; exact (H Hf)). rewrite decide_True by done.
  assert (Hn : filter (λ n, n ∉ s_recs s) fields = []).
  { apply elem_of_nil_inv. intros x [Hni Hx]%elem_of_list_filter. apply Hni. pose proof (Hrec x (elem_of_list_further _ _ _ Hx)) as [? _]%elem_of_list_filter. done. }
  specialize (IH (fun g Hg => Hrec g (elem_of_list_further _ _ _ Hg))). rewrite Hn in *. cbn in *. by rewrite IH.
Qed.

Section sources.
Context {V : Type} (raw : string → V) (sers : option (gmap string (field_serializer V))).

Lemma opened σ hid s E fields use src :
  reachable σ → schema_at σ hid = Some s → (∀ f, f ∈ fields → f ∈ record_names s) →
  result σ hid (run_random_access sers E fields use) = Some (Ok src) →
  ∃ addrs rows, make_source fields use addrs = Ok src
    ∧ Forall2 (linked (w_fs (y_world σ)) fields) addrs rows
    ∧ (∀ m, sers = Some m → ∀ f, f ∈ fields → is_Some (m !! f))
    ∧ (∀ E' b, result σ hid (run_read_all E' None (Some fields) None true b) = Some (Ok addrs))
    ∧ (∀ E' b, result σ hid (run_read_all E' None (Some fields) None false b) = Some (Ok rows)).
Proof.
  intros Hr Hs Hrec Hok. destruct (result_handle _ _ _ _ Hok) as [h Hh]. rewrite (result_eq _ _ _ _ Hh) in Hok.
  injection Hok as Hok. unfold run_random_access in Hok.
  assert (Hsers : ∀ m, sers = Some m → ∀ f, f ∈ fields → is_Some (m !! f)).
  { intros m -> f Hf. destruct (rmapM (fun f => of_opt (EUser UInput) (m !! f)) fields) as [l|e] eqn:Hl.
    - apply rmapM_ok in Hl. apply elem_of_list_lookup in Hf as [j Hj]. destruct (Forall2_lookup_l _ _ _ _ _ Hl Hj) as (y&_&Hy).
      cbn in Hy. destruct (m !! f); [by eexists|done].
    - by cbn in Hok. }
  assert (Hlift : ∃ l, match sers with
                  | Some m => rmapM (fun f => of_opt (EUser UInput) (m !! f)) fields
                  | None => Ok []
                  end = Ok l).
  { clear Hok. destruct sers as [m|]; [|by eexists]. specialize (Hsers m eq_refl). clear -Hsers.
    induction fields as [|f fields IH]; [by eexists|]. destruct IH as [l Hl]; [intros; apply Hsers; by right|].
    destruct (Hsers f (elem_of_list_here _ _)) as [x Hx]. exists (x :: l). cbn. by rewrite Hx, Hl. }
  destruct Hlift as [l Hlift]. rewrite Hlift in Hok. unfold bind at 1, lift at 1 in Hok.
  assert (Hsub : ∀ n, n ∈ read_names s (Some fields) → n ∈ s_names s).
  { intros n Hn. cbn in Hn. apply Hrec in Hn. by apply elem_of_list_filter in Hn as [_ ?]. }
  destruct (read_general σ hid s None None Hr Hs) as [[e He]|(stored&rows&Hres&Hnames&Hread)].
  { specialize (He E (Some fields) true None Hsub). rewrite (result_eq _ _ _ _ Hh) in He. injection He as He.
    unfold bind in Hok. destruct (run_read E None (Some fields) None true None (h, y_world σ)) as [s' [|]]; cbn in He; [done|].
    done. }
  exists (columns fields <$> stored), (columns fields <$> rows). split_and!.
  - destruct (Hread E (Some fields) true None Hsub) as (ts&Hts&Hc&_). rewrite (result_eq _ _ _ _ Hh) in Hts. injection Hts as Hts.
    unfold bind in Hok. destruct (run_read E None (Some fields) None true None (h, y_world σ)) as [s' [ts'|]]; cbn in Hts; [|done].
    injection Hts as ->. cbn in Hc. rewrite <-Hc. destruct ts; [done|]. exact Hok.
  - apply mapM_Some in Hres. clear -Hres Hnames Hrec.
    induction Hres as [|st r stored rows H _ IH]; [constructor|]. apply Forall_cons in Hnames as [Hst Hnames].
    constructor; [by eapply linked_columns|by apply IH].
  - done.
  - intros E' b. destruct (Hread E' (Some fields) true b Hsub) as (ts&Hts&Hc&_). rewrite result_read_all, Hts. cbn. by rewrite Hc.
  - intros E' b. destruct (Hread E' (Some fields) false b Hsub) as (ts&Hts&Hc&_). rewrite result_read_all, Hts. cbn. rewrite Hc.
    cbn [read_names default from_option id]. by rewrite shown_records.
Qed.
Lemma later_keeps σ σ' :
  reachable σ → history env_ok σ σ' →
  ∀ p rs, w_fs (y_world σ) !! p = Some (FRecord rs) → w_fs (y_world σ') !! p = Some (FRecord rs).
Proof. intros Hr Hh p rs Hp. by eapply files_kept_history. Qed.
Lemma arrow_source addrs fields use : make_source fields use addrs = Ok (ArrowSource fields addrs) ∨ ∃ f, use = true ∧ fields = [f].
Proof. destruct use, fields as [|f [|]]; cbn; eauto. Qed.

(** ** The table-backed source *)
Lemma arrow_items σ hid s E fields use fields' addrs0 σ' :
  reachable σ → schema_at σ hid = Some s → (∀ f, f ∈ fields → f ∈ record_names s) →
  result σ hid (run_random_access sers E fields use) = Some (Ok (ArrowSource fields' addrs0)) →
  history env_ok σ σ' →
  ∃ rows, (∀ E' b, result σ hid (run_read_all E' None (Some fields) None false b) = Some (Ok rows))
    ∧ length addrs0 = length rows
    ∧ ∀ i r, rows !! i = Some r →
        source_getitem raw sers (ArrowSource fields' addrs0) i (y_world σ') = (y_world σ', dict_of raw sers fields r).
Proof.
  intros Hr Hs Hrec Hok Hh. destruct (opened _ _ _ _ _ _ _ Hr Hs Hrec Hok) as (addrs&rows&Hmk&Hl&_&_&Hrd).
  destruct (arrow_source addrs fields use) as [Hmk'|(f&->&->)].
  2:{ cbn in Hmk. destruct (tcol f addrs); [|done]. cbn in Hmk. by destruct (rmapM _ _). }
  rewrite Hmk in Hmk'. injection Hmk' as -> ->. exists rows. split_and!; [done|by eapply Forall2_length|].
  intros i r Hi. destruct (Forall2_lookup_r _ _ _ _ _ Hl Hi) as (a&Ha&Hal). cbn. apply (arrow_getitem_run _ _ _ _ _ _ a); [done|].
  eapply linked_keeps; [|exact Hal]. by apply later_keeps.
Qed.

(** ** The record files as source *)
Definition item_at (fs : fsys) (f : string) (a : path * Z) : res (list (string * V)) :=
  match resolve_cell (records_in fs) (CAddr a.1 a.2) with
  | Some (CVal (SStr b)) => rmap (fun v => [(f, v)]) (decode raw sers f b)
  | _ => Err (EOther "")
  end.
Lemma linked_places fs f addrs rows src :
  Forall2 (linked fs [f]) addrs rows → make_source [f] true addrs = Ok src →
  src = ArrayRecordSource f (build_file_instructions (addresses_in f addrs))
  ∧ item_at fs f <$> addresses_in f addrs = dict_of raw sers [f] <$> rows
  ∧ Forall (fun a => ∃ b, names_record fs (CAddr a.1 a.2) b) (addresses_in f addrs).
Proof.
  intros Hl Hmk. cbn in Hmk.
  assert (Hall : ∃ cells, tcol f addrs = Ok cells ∧ rmapM cell_addr cells = Ok (addresses_in f addrs)).
  { clear Hmk. induction Hl as [|a r addrs rows Hal _ (cells&Hc&Hp)]; [by exists []|].
    destruct (Hal f) as (c&b&Hca&Hn&_); [by left|]. destruct (names_record_addr _ _ _ Hn) as (p&k&rs&->&_).
    exists (CAddr p k :: cells). unfold tcol. cbn. rewrite Hca. cbn. unfold tcol in Hc. rewrite Hc. split; [done|]. by rewrite Hp. }
  destruct Hall as (cells&Hc&Hp). rewrite Hc in Hmk. cbn in Hmk. rewrite Hp in Hmk. cbn in Hmk. injection Hmk as <-.
  split; [done|]. clear Hc Hp. induction Hl as [|a r addrs rows Hal _ [IH1 IH2]]; [split; [done|constructor]|].
  destruct (Hal f) as (c&b&Hca&Hn&Hb); [by left|]. destruct (names_record_addr _ _ _ Hn) as (p&k&rs&->&_).
  unfold addresses_in in *. cbn. rewrite Hca. cbn. rewrite IH1. split.
  - f_equal. unfold item_at, dict_of. cbn [fst snd]. unfold names_record in Hn. rewrite Hn. cbn. rewrite Hb. by destruct (decode raw sers f b).
  - constructor; [by exists b|done].
Qed.
Lemma instructions_positive addrs : Forall (fun x => (0 < fi_take x)%Z) (build_file_instructions addrs).
Proof. by destruct (instructions_enumerated addrs) as (X&_&H&_). Qed.
Lemma array_item w f places i a :
  enumerated (build_file_instructions places) !! i = Some a → Forall (fun a => ∃ b, names_record (w_fs w) (CAddr a.1 a.2) b) places →
  source_getitem raw sers (ArrayRecordSource f (build_file_instructions places)) i w = (w, item_at (w_fs w) f a).
Proof.
  intros Ha Hall. rewrite Forall_forall in Hall. destruct (Hall a) as [b Hb].
  { apply instructions_cover. by apply elem_of_list_lookup_2 in Ha. }
  cbn. unfold item_at. unfold names_record in Hb. rewrite Hb. destruct a as [p k]. unfold bind.
  rewrite (ar_getitem_run raw sers w f _ i p k b (instructions_positive _) Ha Hb). by destruct (decode raw sers f b).
Qed.
Lemma array_opened σ hid s E f src σ' :
  reachable σ → schema_at σ hid = Some s → f ∈ record_names s →
  result σ hid (run_random_access sers E [f] true) = Some (Ok src) → history env_ok σ σ' →
  ∃ addrs rows, src = ArrayRecordSource f (build_file_instructions (addresses_in f addrs))
    ∧ (∀ E' b, result σ hid (run_read_all E' None (Some [f]) None true b) = Some (Ok addrs))
    ∧ (∀ E' b, result σ hid (run_read_all E' None (Some [f]) None false b) = Some (Ok rows))
    ∧ item_at (w_fs (y_world σ')) f <$> addresses_in f addrs = dict_of raw sers [f] <$> rows
    ∧ Forall (fun a => ∃ b, names_record (w_fs (y_world σ')) (CAddr a.1 a.2) b) (addresses_in f addrs).
Proof.
  intros Hr Hs Hf Hok Hh. destruct (opened σ hid s E [f] true src Hr Hs) as (addrs&rows&Hmk&Hl&_&Hra&Hrd); [|done|].
  { by intros g ->%elem_of_list_singleton. }
  assert (Hl' : Forall2 (linked (w_fs (y_world σ')) [f]) addrs rows).
  { eapply Forall2_impl; [exact Hl|]. intros a r. apply linked_keeps. by apply later_keeps. }
  destruct (linked_places _ _ _ _ _ Hl' Hmk) as (->&H1&H2). eauto 10.
Qed.
Lemma array_in_order σ hid s E E' b f src addrs rows σ' :
  reachable σ → schema_at σ hid = Some s → f ∈ record_names s →
  result σ hid (run_random_access sers E [f] true) = Some (Ok src) →
  result σ hid (run_read_all E' None (Some [f]) None true b) = Some (Ok addrs) →
  result σ hid (run_read_all E' None (Some [f]) None false b) = Some (Ok rows) →
  in_file_order (addresses_in f addrs) → history env_ok σ σ' →
  source_length src = length rows
  ∧ ∀ i r, rows !! i = Some r → source_getitem raw sers src i (y_world σ') = (y_world σ', dict_of raw sers [f] r).
Proof.
  intros Hr Hs Hf Hok Ha Hrows Ho Hh.
  destruct (array_opened _ _ _ _ _ _ _ Hr Hs Hf Hok Hh) as (addrs'&rows'&->&Ha'&Hr'&Hit&Hn).
  rewrite Ha' in Ha. injection Ha as ->. rewrite Hr' in Hrows. injection Hrows as ->.
  pose proof (proj2 (instructions_order _) Ho) as He. split.
  - cbn. rewrite ar_length_enumerated, He by apply instructions_positive.
    apply (f_equal length) in Hit. rewrite !fmap_length in Hit. done.
  - intros i r Hi. assert (Hi' : (item_at (w_fs (y_world σ')) f <$> addresses_in f addrs) !! i = Some (dict_of raw sers [f] r)).
    { by rewrite Hit, list_lookup_fmap, Hi. }
    rewrite list_lookup_fmap in Hi'. destruct (addresses_in f addrs !! i) as [a|] eqn:Hai; [|done]. injection Hi' as <-.
    apply array_item; [by rewrite He|done].
Qed.
Lemma array_same_records σ hid s E E' b f src addrs rows σ' :
  reachable σ → schema_at σ hid = Some s → f ∈ record_names s →
  result σ hid (run_random_access sers E [f] true) = Some (Ok src) →
  result σ hid (run_read_all E' None (Some [f]) None true b) = Some (Ok addrs) →
  result σ hid (run_read_all E' None (Some [f]) None false b) = Some (Ok rows) →
  NoDup (addresses_in f addrs) → history env_ok σ σ' →
  ∃ items, items ≡ₚ dict_of raw sers [f] <$> rows ∧ source_length src = length items
  ∧ ∀ i d, items !! i = Some d → source_getitem raw sers src i (y_world σ') = (y_world σ', d).
Proof.
  intros Hr Hs Hf Hok Ha Hrows Ho Hh.
  destruct (array_opened _ _ _ _ _ _ _ Hr Hs Hf Hok Hh) as (addrs'&rows'&->&Ha'&Hr'&Hit&Hn).
  rewrite Ha' in Ha. injection Ha as ->. rewrite Hr' in Hrows. injection Hrows as ->.
  set (places := addresses_in f addrs) in *.
  assert (Hp : enumerated (build_file_instructions places) ≡ₚ places).
  { destruct (instructions_cover places) as [H1 H2]. by apply NoDup_Permutation. }
  exists (item_at (w_fs (y_world σ')) f <$> enumerated (build_file_instructions places)). split_and!.
  - rewrite <-Hit. by apply fmap_Permutation.
  - cbn. rewrite fmap_length. apply ar_length_enumerated, instructions_positive.
  - intros i d Hi. rewrite list_lookup_fmap in Hi. destruct (enumerated _ !! i) as [a|] eqn:Ha; [|done]. injection Hi as <-.
    by apply array_item.
Qed.

(** ** Batches *)
Lemma mapM_st_reads {S A B} (f : A → ST S B) l w :
  (∀ x, (f x w).1 = w) → ∀ ys, mapM_st f l w = (w, Ok ys) ↔ Forall2 (fun x y => f x w = (w, Ok y)) l ys.
Proof.
  intros Hf. induction l as [|x l IH]; intros ys; cbn.
  { unfold ret. split; [intros [= <-]; constructor|]. by inversion 1. }
  unfold bind. specialize (Hf x). destruct (f x w) as [w1 [y|e]] eqn:Hx; cbn in Hf; subst w1.
  - split.
    + destruct (mapM_st f l w) as [w2 [ys'|e]] eqn:Hl; [|done]. intros [= -> <-]. constructor; [done|]. by apply IH.
    + inversion 1 as [|? y' ? ys' Hy Hys]; subst. apply IH in Hys. rewrite Hys. cbn. unfold ret. congruence.
  - split; [done|]. inversion 1; subst. congruence.
Qed.
Lemma batches σ hid s E fields use src σ' is cols :
  reachable σ → schema_at σ hid = Some s → (∀ f, f ∈ fields → f ∈ record_names s) → fields ≠ [] → NoDup fields →
  result σ hid (run_random_access sers E fields use) = Some (Ok src) → history env_ok σ σ' →
  source_getitems raw sers src is (y_world σ') = (y_world σ', Ok cols)
  ↔ ∃ dicts, Forall2 (fun i d => source_getitem raw sers src i (y_world σ') = (y_world σ', Ok d)) is dicts
      ∧ cols = (fun f => (f, omap (dict_get f) dicts)) <$> fields.
Proof.
  intros Hr Hs Hrec Hne Hnd Hok Hh.
  destruct (opened _ _ _ _ _ _ _ Hr Hs Hrec Hok) as (addrs&rows&Hmk&Hl&Hser&_).
  destruct (arrow_source addrs fields use) as [Hmk'|(f&->&->)].
  - rewrite Hmk in Hmk'. injection Hmk' as ->. clear Hmk. cbn.
    assert (Hlk : ∀ i a r, addrs !! i = Some a → rows !! i = Some r → linked (w_fs (y_world σ')) fields a r).
    { intros i a r Ha Hi. eapply linked_keeps; [by apply later_keeps|]. by eapply Forall2_lookup_lr. }
    pose proof (Forall2_length _ _ _ Hl) as Hlen. split.
    + intros Hb. apply (arrow_getitems_inv raw sers _ addrs fields is rows); [done..| |].
      * by intros ? ? ? ? ?; eapply Hlk.
      * by rewrite Hb.
    + intros (dicts&Hd&->).
      assert (∃ sel, Forall2 (fun i r => ∃ a, addrs !! i = Some a ∧ linked (w_fs (y_world σ')) fields a r) is sel
        ∧ Forall2 (fun r d => dict_of raw sers fields r = Ok d) sel dicts) as (sel&H1&H2).
      { clear -Hd Hlk Hlen Hne. induction Hd as [|i d is dicts Hi _ (sel&H1&H2)]; [exists []; split; constructor|].
        destruct (addrs !! i) as [a|] eqn:Ha.
        2:{ destruct (arrow_getitem_none raw sers (y_world σ') addrs fields i Ha Hne) as [e He]. congruence. }
        destruct (rows !! i) as [r|] eqn:Hi'; [|apply lookup_ge_None in Hi'; apply lookup_lt_Some in Ha; lia].
        pose proof (Hlk i a r Ha Hi') as Hal. rewrite (arrow_getitem_run raw sers _ _ _ _ _ _ Ha Hal) in Hi.
        exists (r :: sel). split; constructor; [by exists a|done|congruence|done]. }
      by apply (arrow_getitems_run raw sers _ addrs fields is sel).
  - destruct (array_opened _ _ _ _ _ _ _ Hr Hs (Hrec f (elem_of_list_here _ _)) Hok Hh) as (addrs'&rows'&->&_&_&_&Hn).
    set (places := addresses_in f addrs') in *. cbn [source_getitems source_getitem].
    assert (Hpure : ∀ i, (ar_getitem raw sers f (build_file_instructions places) i (y_world σ')).1 = y_world σ').
    { intros i. destruct (enumerated (build_file_instructions places) !! i) as [[p k]|] eqn:Hi.
      - rewrite Forall_forall in Hn. destruct (Hn (p, k)) as [b Hb]; [apply instructions_cover; by apply elem_of_list_lookup_2 in Hi|].
        by rewrite (ar_getitem_run raw sers _ f _ i p k b (instructions_positive _) Hi Hb).
      - destruct (ar_getitem_none raw sers (y_world σ') f _ i (instructions_positive places) Hi) as [e ->]. done. }
    assert (Hone : ∀ i d, (let! v := ar_getitem raw sers f (build_file_instructions places) i in ret [(f, v)]) (y_world σ')
                   = (y_world σ', Ok d) ↔ ∃ v, ar_getitem raw sers f (build_file_instructions places) i (y_world σ') = (y_world σ', Ok v) ∧ d = [(f, v)]).
    { intros i d. unfold bind. specialize (Hpure i). destruct (ar_getitem _ _ _ _ _ _) as [w1 [v|e]]; cbn in Hpure; subst; cbn.
      - unfold ret. split; [intros [= <-]; eauto|]. intros (v'&[= ->]&->). done.
      - split; [done|]. by intros (?&?&_). }
    unfold ar_getitems. transitivity (∃ vs, mapM_st (ar_getitem raw sers f (build_file_instructions places)) is (y_world σ') = (y_world σ', Ok vs) ∧ cols = [(f, vs)]).
    { unfold bind. assert (Hp : (mapM_st (ar_getitem raw sers f (build_file_instructions places)) is (y_world σ')).1 = y_world σ').
      { clear -Hpure. induction is as [|i is IH]; [done|]. cbn. unfold bind. specialize (Hpure i) as Hi.
        destruct (ar_getitem _ _ _ _ _ _) as [w1 [v|e]]; cbn in Hi; subst; [|done].
        destruct (mapM_st _ _ _) as [w2 [vs|e]]; cbn in IH; subst; done. }
      destruct (mapM_st _ _ _) as [w1 [vs|e]]; cbn in Hp; subst; cbn.
      - unfold ret. split; [intros [= <-]; eauto|]. intros (v'&[= ->]&->). done.
      - split; [done|]. by intros (?&?&_). }
    split.
    + intros (vs&Hvs&->). rewrite (mapM_st_reads _ _ _ Hpure) in Hvs. exists ((fun v => [(f, v)]) <$> vs). split.
      * apply Forall2_fmap_r. eapply Forall2_impl; [exact Hvs|]. intros i v Hv. apply Hone. by exists v.
      * cbn. do 2 f_equal. clear. induction vs as [|v vs IH]; [done|]. cbn. unfold dict_get at 1. cbn. rewrite lookup_insert. by rewrite <-IH.
    + intros (dicts&Hd&->).
      assert (∃ vs, dicts = (fun v => [(f, v)]) <$> vs ∧ Forall2 (fun i v => ar_getitem raw sers f (build_file_instructions places) i (y_world σ') = (y_world σ', Ok v)) is vs) as (vs&->&Hvs).
      { clear -Hd Hone. induction Hd as [|i d is dicts Hi _ (vs&->&Hvs)]; [exists []; split; [done|constructor]|].
        apply Hone in Hi as (v&Hv&->). exists (v :: vs). split; [done|by constructor]. }
      exists vs. split; [by apply mapM_st_reads|]. cbn. do 2 f_equal. clear. induction vs as [|v vs IH]; [done|]. cbn.
      unfold dict_get at 1. cbn. rewrite lookup_insert. by rewrite IH.
Qed.
End sources.
