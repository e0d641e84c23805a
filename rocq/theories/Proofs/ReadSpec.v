(** Specification of FileSetReadOp. *)
From Verif.Model Require Import ReadOp.
From Verif.Spec Require Import Logical.
From Verif.Proofs Require Import Lib World Resolve AppendSpec SchemaFacts.

Lemma mapM_st_pure {S A B} (f : A → ST S B) (g : A → B) l w :
  (∀ x, x ∈ l → f x w = (w, Ok (g x))) → mapM_st f l w = (w, Ok (g <$> l)).
Proof.
  induction l as [|x l IH]; simpl; intros Hf; [done|].
  rewrite (bind_run _ _ w w (g x)) by (apply Hf; set_solver).
  rewrite (bind_run _ _ w w (g <$> l)); [done|]. apply IH. set_solver.
Qed.
Lemma mapM_st_rel {S A B} (f : A → ST S B) (R : A → B → Prop) l w :
  (∀ x, x ∈ l → ∃ y, f x w = (w, Ok y) ∧ R x y) → ∃ k, mapM_st f l w = (w, Ok k) ∧ Forall2 R l k.
Proof.
  induction l as [|x l IH]; simpl; intros Hf; [by exists []|].
  destruct (Hf x) as (y&Hy&HR); [set_solver|].
  destruct IH as (k&Hk&HRk); [set_solver|].
  exists (y :: k). split; [|by constructor].
  rewrite (bind_run _ _ w w y) by done. by rewrite (bind_run _ _ w w k).
Qed.

(** * Reading record columns *)
Lemma elem_of_nub {A} `{EqDecision A} (l : list A) x : x ∈ nub l ↔ x ∈ l.
Proof.
  induction l as [|y l IH]; simpl; [done|]. rewrite !elem_of_cons, elem_of_list_filter, IH.
  destruct (decide (x = y)); naive_solver.
Qed.

Lemma place_spec kv out (V : nat → string) :
  (∀ k v, (k, v) ∈ kv → v = V k ∧ k < length out) →
  length (place out kv) = length out ∧
  ∀ k, place out kv !! k = if decide (k ∈ kv.*1) then Some (Some (V k)) else out !! k.
Proof.
  unfold place. revert out. induction kv as [|[k0 v0] kv IH]; intros out Hkv; [done|].
  cbn [foldl]. destruct (IH (<[k0 := Some v0]> out)) as [Hlen Hlk].
  { intros k v Hin. rewrite insert_length. apply Hkv. set_solver. }
  rewrite insert_length in Hlen. split; [done|]. intros k. rewrite Hlk. cbn [fmap list_fmap fst].
  destruct (Hkv k0 v0) as [-> Hk0]; [set_solver|].
  destruct (decide (k ∈ kv.*1)) as [Hin|Hin].
  - rewrite decide_True by set_solver. done.
  - destruct (decide (k = k0)) as [->|Hne].
    + rewrite decide_True by set_solver. by rewrite list_lookup_insert.
    + rewrite decide_False by set_solver. by rewrite list_lookup_insert_ne.
Qed.
Lemma places_spec gs out (V : nat → string) :
  (∀ kv k v, kv ∈ gs → (k, v) ∈ kv → v = V k ∧ k < length out) →
  length (foldl place out gs) = length out ∧
  ∀ k, foldl place out gs !! k = if decide (k ∈ (concat gs).*1) then Some (Some (V k)) else out !! k.
Proof.
  revert out. induction gs as [|kv gs IH]; intros out Hkv; [done|].
  cbn [foldl]. destruct (place_spec kv out V) as [Hl0 Hk0].
  { intros. eapply Hkv; [|done]. set_solver. }
  destruct (IH (place out kv)) as [Hl Hk].
  { intros kv' k v ??. rewrite Hl0. eapply Hkv; [|done]. set_solver. }
  split; [congruence|]. intros k. rewrite Hk, Hk0. cbn [concat]. rewrite fmap_app.
  repeat case_decide; set_solver.
Qed.

Lemma fmap_zip_fst {A B C} (f : A → B) (l : list A) (k : list C) :
  length k = length l → (zip (f <$> l) k).*1 = f <$> l.
Proof. intros Hl. apply fst_zip. rewrite fmap_length. lia. Qed.

Lemma read_record_column_spec w addrs vals :
  Forall2 (fun a c => resolve_cell (records_in (w_fs w)) a = Some c) addrs vals →
  read_record_column addrs w = (w, Ok vals).
Proof.
  intros Hres.
  assert (Hex : ∃ ais bs, rmapM cell_addr addrs = Ok ais ∧ vals = (CVal ∘ SStr) <$> bs
      ∧ Forall2 (fun a b => ∃ rs, w_fs w !! a.1 = Some (FRecord rs) ∧ (0 ≤ a.2)%Z
                  ∧ rs !! Z.to_nat a.2 = Some b) ais bs).
  { induction Hres as [|a c addrs vals Hac _ (ais&bs&Ha&->&Hf)].
    - exists [], []. repeat split. constructor.
    - destruct a as [| |p i|]; simpl in Hac; try done. case_decide; [|done].
      unfold records_in in Hac. destruct (w_fs w !! p) as [[]|] eqn:Hp; simpl in Hac; try done.
      destruct (records !! Z.to_nat i) as [b|] eqn:Hb; simpl in Hac; [|done]. injection Hac as <-.
      exists ((p, i) :: ais), (b :: bs). simpl. rewrite Ha. simpl. repeat split.
      constructor; [|done]. exists records. done. }
  destruct Hex as (ais&bs&Hais&->&Hf). clear Hres.
  assert (Hlen : length ais = length addrs) by (by eapply rmapM_ok_length).
  assert (Hlen2 : length bs = length ais) by (symmetry; by eapply Forall2_length).
  unfold read_record_column.
  rewrite (bind_run _ _ w w ais) by (by unfold lift; rewrite Hais).
  set (keyed := imap (fun k a => (k, a)) ais).
  set (V := fun k => default "" (bs !! k)).
  assert (Hkeyed : ∀ k a, (k, a) ∈ keyed ↔ ais !! k = Some a).
  { intros k a. unfold keyed. rewrite elem_of_lookup_imap. split; [intros (?&?&[= <- <-]&?); done|eauto]. }
  set (grp := fun p => zip ((filter (fun ka : nat * (path * Z) => ka.2.1 = p) keyed).*1)
                 (V <$> (filter (fun ka : nat * (path * Z) => ka.2.1 = p) keyed).*1)).
  rewrite (bind_run _ _ w w (grp <$> nub ais.*1)).
  2:{ apply mapM_st_pure. intros p Hp. rewrite elem_of_nub in Hp.
      apply elem_of_list_fmap in Hp as ([p' i]&->&Hin). simpl.
      apply elem_of_list_lookup in Hin as [k Hk].
      destruct (Forall2_lookup_l _ _ _ _ _ Hf Hk) as (b&Hb&rs&Hrs&_). simpl in Hrs.
      rewrite (bind_run _ _ w w rs).
      2:{ unfold read_records, bind, read_file. rewrite Hrs. done. }
      rewrite (bind_run _ _ w w (V <$> (filter (fun ka : nat * (path * Z) => ka.2.1 = p') keyed).*1)); [done|].
      unfold lift. f_equal. rewrite <-list_fmap_compose. apply rmapM_total.
      intros [k2 [p2 i2]] [Hpp Hin]%elem_of_list_filter. simpl in *. subst p2.
      apply Hkeyed in Hin. destruct (Forall2_lookup_l _ _ _ _ _ Hf Hin) as (b2&Hb2&rs2&Hrs2&Hpos&Hat).
      simpl in *. rewrite Hrs in Hrs2. injection Hrs2 as <-. unfold record_at.
      destruct (i2 <? 0)%Z eqn:Hneg; [apply Z.ltb_lt in Hneg; lia|]. rewrite Hat. simpl.
      unfold V. by rewrite Hb2. }
  unfold ret. f_equal. f_equal.
  destruct (places_spec (grp <$> nub ais.*1) (replicate (length addrs) None) V) as [Hl Hk].
  { intros kv k v (p&->&_)%elem_of_list_fmap Hin. unfold grp in Hin.
    apply elem_of_list_lookup in Hin as [j Hj]. rewrite lookup_zip_with in Hj.
    destruct ((filter _ keyed).*1 !! j) as [k'|] eqn:Hk'; simpl in Hj; [|done].
    rewrite list_lookup_fmap, Hk' in Hj. simpl in Hj. injection Hj as <- <-. split; [done|].
    rewrite replicate_length, <-Hlen.
    apply elem_of_list_lookup_2 in Hk'. apply elem_of_list_fmap in Hk' as ([k2 a]&->&[_ Hin]%elem_of_list_filter).
    apply Hkeyed in Hin. by eapply lookup_lt_Some. }
  rewrite replicate_length in Hl.
  apply list_eq. intros k. rewrite !list_lookup_fmap, Hk.
  destruct (ais !! k) as [a|] eqn:Ha.
  - rewrite decide_True.
    + destruct (Forall2_lookup_l _ _ _ _ _ Hf Ha) as (b&Hb&_). rewrite Hb. simpl.
      unfold V. by rewrite Hb.
    + apply elem_of_list_fmap. exists (k, V k). split; [done|]. apply elem_of_list_In, in_concat.
      exists (grp a.1). split.
      * apply elem_of_list_In, elem_of_list_fmap. exists a.1. split; [done|]. apply elem_of_nub.
        apply elem_of_list_fmap. exists a. split; [done|]. by eapply elem_of_list_lookup_2.
      * apply elem_of_list_In. unfold grp.
        assert (Hin : (k, a) ∈ filter (fun ka : nat * (path * Z) => ka.2.1 = a.1) keyed).
        { apply elem_of_list_filter. split; [done|]. by apply Hkeyed. }
        apply elem_of_list_lookup in Hin as [j Hj]. apply elem_of_list_lookup. exists j.
        rewrite lookup_zip_with, !list_lookup_fmap, Hj. done.
  - assert (Hge : length ais ≤ k) by by apply lookup_ge_None.
    rewrite (lookup_ge_None_2 bs) by lia. rewrite decide_False.
    + rewrite (lookup_ge_None_2 (replicate _ _)) by (rewrite replicate_length; lia). done.
    + intros ([k' v]&Heq&Hin)%elem_of_list_fmap. simpl in Heq. subst k'.
      apply elem_of_list_In, in_concat in Hin as (kv&Hkv&Hin).
      apply elem_of_list_In, elem_of_list_fmap in Hkv as (p&->&_). apply elem_of_list_In in Hin.
      apply elem_of_list_lookup in Hin as [j Hj]. unfold grp in Hj. rewrite lookup_zip_with in Hj.
      destruct ((filter _ keyed).*1 !! j) as [k'|] eqn:Hk'; simpl in Hj; [|done].
      rewrite list_lookup_fmap, Hk' in Hj. simpl in Hj. injection Hj as -> <-.
      apply elem_of_list_lookup_2 in Hk'. apply elem_of_list_fmap in Hk' as ([k2 a]&->&[_ Hin]%elem_of_list_filter).
      apply Hkeyed in Hin. simpl in *. congruence.
Qed.

(** * Projection *)
Lemma rsel_rsel A B r r1 :
  rsel A r = Ok r1 → (∀ n, n ∈ B → n ∈ A) → rsel B r1 = rsel B r.
Proof.
  intros HA HB. assert (Hg : ∀ n, n ∈ A → rget n r1 = rget n r).
  { apply rsel_ok in HA. clear HB. induction HA as [|n [m c] A r1 [Hm Hc] _ IH]; simpl in *; [set_solver|].
    subst m. intros n' Hn'. case_decide; [subst; done|]. apply IH. set_solver. }
  unfold rsel. induction B as [|n B IH]; simpl; [done|].
  rewrite Hg by set_solver. rewrite IH by set_solver. done.
Qed.
Lemma tsel_tsel A B t t1 :
  tsel A t = Ok t1 → (∀ n, n ∈ B → n ∈ A) → tsel B t1 = tsel B t.
Proof.
  intros HA%tsel_ok HB. unfold tsel. induction HA as [|r r1 t t1 Hr _ IH]; simpl; [done|].
  rewrite (rsel_rsel _ _ _ _ Hr HB), IH. done.
Qed.
Lemma tsel_total names t : (∀ r n, r ∈ t → n ∈ names → n ∈ r.*1) → ∃ t', tsel names t = Ok t'.
Proof.
  induction t as [|r t IH]; intros Hin; [by exists []|].
  destruct (rsel_total names r) as [r' Hr]; [intros; apply (Hin r); set_solver|].
  destruct IH as [t' Ht]; [intros; apply (Hin r0); set_solver|].
  exists (r' :: t'). apply tsel_ok. constructor; [done|]. by apply tsel_ok.
Qed.
Lemma tcol_total n t : (∀ r, r ∈ t → n ∈ r.*1) → ∃ c, tcol n t = Ok c.
Proof.
  induction t as [|r t IH]; intros Hin; [by exists []|].
  destruct (rget_some n r) as [c Hc]; [apply Hin; set_solver|].
  destruct IH as [cs Hcs]; [intros; apply Hin; set_solver|].
  exists (c :: cs). apply tcol_ok. constructor; [done|]. by apply tcol_ok.
Qed.
Lemma tappend_tsel A n t acc col :
  tsel A t = Ok acc → tcol n t = Ok col → tsel (A ++ [n]) t = Ok (tappend n col acc).
Proof.
  intros HA%tsel_ok Hc%tcol_ok. apply tsel_ok. revert col Hc.
  induction HA as [|r a t acc Hr _ IH]; intros col Hc; inversion Hc; subst; simpl; constructor.
  - apply rsel_app. eexists _, [(n, y)]. split; [done|]. split; [|done].
    apply rsel_ok. constructor; [done|constructor].
  - apply IH. done.
Qed.
Lemma tsel_length names t t' : tsel names t = Ok t' → length t' = length t.
Proof. apply rmapM_ok_length. Qed.

(** Column order of a read: index columns first, then record columns. *)
Definition read_order (s : schema) (L : list string) : list string :=
  filter (fun n => n ∉ s_recs s) L ++ filter (fun n => n ∈ s_recs s) L.
Lemma elem_of_read_order s L n : n ∈ read_order s L ↔ n ∈ L.
Proof.
  unfold read_order. rewrite elem_of_app, !elem_of_list_filter.
  destruct (decide (n ∈ s_recs s)); naive_solver.
Qed.

Definition classes_of (s : schema) (L : list string) : list (string * option string) :=
  (fun n => (n, if decide (n ∈ s_recs s) then Some n else None)) <$> L.
Lemma classes_idx s L :
  omap (fun c => match c.2 with None => Some c.1 | _ => None end) (classes_of s L)
  = filter (fun n => n ∉ s_recs s) L.
Proof.
  induction L as [|n L IH]; [done|]. rewrite filter_cons. unfold classes_of in *. simpl.
  destruct (decide (n ∈ s_recs s)); simpl.
  - rewrite decide_False by auto. done.
  - rewrite decide_True by auto. by f_equal.
Qed.
Lemma classes_recs s L :
  omap (fun c => match c.2 with Some f => Some (c.1, f) | _ => None end) (classes_of s L)
  = (fun n => (n, n)) <$> filter (fun n => n ∈ s_recs s) L.
Proof.
  induction L as [|n L IH]; [done|]. rewrite filter_cons. unfold classes_of in *. simpl.
  destruct (decide (n ∈ s_recs s)); simpl; [by f_equal|done].
Qed.

Lemma tsel_resolve_index rv recs names t lt :
  resolve_rows rv recs t = Some lt → (∀ n, n ∈ names → n ∉ recs) → tsel names lt = tsel names t.
Proof.
  intros Hr%mapM_Some Hn. unfold tsel. induction Hr as [|r l t lt Hl _ IH]; simpl; [done|].
  rewrite IH. f_equal. clear IH. unfold rsel. induction names as [|n names IH]; simpl; [done|].
  pose proof (rget_resolve _ _ _ _ n Hl) as Hg. destruct (rget n r) as [c|].
  - destruct Hg as (d&Hd&->). unfold resolve_field in Hd. rewrite decide_False in Hd by (apply Hn; set_solver).
    injection Hd as <-. rewrite IH by set_solver. done.
  - rewrite Hg. done.
Qed.
Lemma tcol_resolve rv recs n t lt addrs :
  resolve_rows rv recs t = Some lt → n ∈ recs → tcol n t = Ok addrs →
  ∃ vals, tcol n lt = Ok vals ∧ Forall2 (fun a c => resolve_cell rv a = Some c) addrs vals.
Proof.
  intros Hr%mapM_Some Hn Hc%tcol_ok. revert addrs Hc.
  induction Hr as [|r l t lt Hl _ IH]; intros addrs Hc; inversion Hc as [|? a ? addrs' Ha Hrest]; subst.
  - exists []. split; [done|constructor].
  - destruct (IH _ Hrest) as (vals&Hv&Hf). pose proof (rget_resolve _ _ _ _ n Hl) as Hg.
    rewrite Ha in Hg. destruct Hg as (d&Hd&Hgl). unfold resolve_field in Hd.
    rewrite decide_True in Hd by done. simpl in Hd.
    destruct (resolve_cell rv a) as [d'|] eqn:Hra; simpl in Hd; [|done]. injection Hd as <-.
    exists (d' :: vals). split; [|by constructor]. apply tcol_ok. constructor; [done|]. by apply tcol_ok.
Qed.

Lemma read_index_and_record_spec s L w t lt :
  (∀ r n, r ∈ t → n ∈ L → n ∈ r.*1) →
  resolve_rows (records_in (w_fs w)) (s_recs s) t = Some lt →
  ∃ out, read_index_and_record (classes_of s L) t w = (w, Ok out)
       ∧ tsel (read_order s L) lt = Ok out.
Proof.
  intros Hin Hr. unfold read_index_and_record. rewrite classes_idx, classes_recs.
  destruct (tsel_total (filter (fun n => n ∉ s_recs s) L) t) as [base Hbase].
  { intros r n Hrt [_ ?]%elem_of_list_filter. eauto. }
  rewrite (bind_run _ _ w w base) by (by unfold lift; rewrite Hbase).
  assert (Hb : tsel (filter (fun n => n ∉ s_recs s) L) lt = Ok base).
  { erewrite tsel_resolve_index; [done|done|]. by intros n [? _]%elem_of_list_filter. }
  unfold read_order. revert Hb. generalize (filter (fun n => n ∉ s_recs s) L) as A. clear Hbase.
  assert (Hrec : ∀ n, n ∈ filter (fun n => n ∈ s_recs s) L → n ∈ s_recs s ∧ n ∈ L)
    by (by intros n [? ?]%elem_of_list_filter).
  revert Hrec. generalize (filter (fun n => n ∈ s_recs s) L) as R.
  intros R. revert base. induction R as [|n R IH]; intros base HR A Hb; simpl.
  - exists base. rewrite app_nil_r. done.
  - destruct (HR n) as [Hn HnL]; [set_solver|].
    destruct (tcol_total n t) as [addrs Ha]; [intros; eauto|].
    destruct (tcol_resolve _ _ _ _ _ _ Hr Hn Ha) as (vals&Hv&Hf).
    rewrite (bind_run _ _ w w (tappend n vals base)).
    + destruct (IH (tappend n vals base)) with (A := A ++ [n]) as (out&Hout&Hsel).
      * intros; apply HR; set_solver.
      * by apply tappend_tsel.
      * exists out. split; [done|]. by rewrite <-app_assoc in Hsel.
    + rewrite (bind_run _ _ w w addrs) by (by unfold lift; rewrite Ha).
      rewrite (bind_run _ _ w w vals); [done|]. by apply read_record_column_spec.
Qed.

(** * One file *)
(** A file that can be read: its columns and the physical rows. *)
Definition readable (s : schema) (fs : fsys) (p : path) (rows : list row) : Prop :=
  ∃ cols gs, fs !! p = Some (FIndex cols gs) ∧ rows = concat gs ∧ cols_ok s cols
    ∧ Forall (fun r => row_conforms s r = true) rows.
Lemma conforms_names s r : row_conforms s r = true → r.*1 = s_names s.
Proof.
  unfold row_conforms. intros [Hn _]%andb_true_iff. apply bool_decide_eq_true in Hn.
  by rewrite phys_names in Hn.
Qed.

(** The rows of a file after filter, bitmap and slice, all columns. *)
Definition pick_rows (flt : option filter_expr) (df : data_file) (rows : list row) : list row :=
  let kept := match flt with
              | None => rows
              | Some e => filter (fun r => matches e r = true) rows
              end in
  match df_bitmap df with
  | Some bits => snd <$> filter (fun ir => ir.1 ∈ filter (fun i => in_slice (df_slice df) i = true) bits)
                           (imap pair kept)
  | None => match df_slice df with
            | Some (a, b) => take (b - a) (drop a kept)
            | None => kept
            end
  end.
(** A bitmap lies within the rows it is applied to. *)
Definition mask_ok (flt : option filter_expr) (df : data_file) (rows : list row) : Prop :=
  match df_bitmap df with
  | Some bits => flt = None ∧ Forall (fun i => i < length rows) bits
  | None => True
  end.
Lemma pick_rows_in flt df rows r : r ∈ pick_rows flt df rows → r ∈ rows.
Proof.
  unfold pick_rows. set (kept := match flt with None => _ | Some e => _ end).
  intros Hr. assert (Hk : r ∈ kept).
  { destruct (df_bitmap df) as [bits|].
    - apply elem_of_list_fmap in Hr as ([i r']&->&[_ Hin]%elem_of_list_filter).
      apply elem_of_lookup_imap in Hin as (j&x&[= -> ->]&Hx). by eapply elem_of_list_lookup_2.
    - destruct (df_slice df) as [[a b]|]; [|done]. 
      apply elem_of_take in Hr as (i&Hi&_). rewrite lookup_drop in Hi. by eapply elem_of_list_lookup_2. }
  unfold kept in Hk. destruct flt; [|done]. by apply elem_of_list_filter in Hk as [_ ?].
Qed.

Lemma tsel_filter_pos names (P : nat → Prop) `{∀ i, Decision (P i)} t t' :
  tsel names t = Ok t' →
  tsel names (snd <$> filter (fun ir => P ir.1) (imap pair t))
  = Ok (snd <$> filter (fun ir => P ir.1) (imap pair t')).
Proof.
  intros Ht%tsel_ok. apply tsel_ok.
  cut (∀ k, Forall2 (fun r r' => rsel names r = Ok r')
     (snd <$> filter (fun ir => P ir.1) (imap (fun i r => (k + i, r)) t))
     (snd <$> filter (fun ir => P ir.1) (imap (fun i r => (k + i, r)) t'))).
  { intros Hk. exact (Hk 0). }
  induction Ht as [|r r' t t' Hr _ IH]; intros k; [constructor|].
  rewrite !imap_cons, !filter_cons. simpl.
  assert (He : ∀ l : list row, imap ((λ (i : nat) (r0 : row), (k + i, r0)) ∘ S) l
             = imap (λ (i : nat) (r0 : row), (S k + i, r0)) l).
  { intros l. apply imap_ext. intros. simpl. f_equal. lia. }
  rewrite !He. case_decide; [simpl; constructor; [done|apply (IH (S k))]|apply IH].
Qed.
Lemma tsel_take names n t t' : tsel names t = Ok t' → tsel names (take n t) = Ok (take n t').
Proof. intros Ht%tsel_ok. apply tsel_ok. by apply Forall2_take. Qed.
Lemma tsel_drop names n t t' : tsel names t = Ok t' → tsel names (drop n t) = Ok (drop n t').
Proof. intros Ht%tsel_ok. apply tsel_ok. by apply Forall2_drop. Qed.

Lemma file_table_spec s o df cols rows gs :
  cols_ok s cols → rows = concat gs → Forall (fun r => row_conforms s r = true) rows →
  (∀ n, n ∈ selected_fields s o → n ∈ s_names s) → mask_ok (ro_filter o) df rows →
  ∃ t, file_table s o cols gs df = Ok t ∧ tsel (selected_fields s o) (pick_rows (ro_filter o) df rows) = Ok t.
Proof.
  intros Hc -> Hrows Hsel Hmask. unfold file_table.
  assert (forallb (fun n => bool_decide (n ∈ cols.*1)) (selected_fields s o) = true) as ->.
  { apply forallb_forall. intros n Hn%elem_of_list_In. apply bool_decide_eq_true.
    rewrite (cols_ok_names _ _ Hc). auto. }
  unfold pick_rows. set (kept := match ro_filter o with None => _ | Some e => _ end).
  destruct (tsel_total (selected_fields s o) kept) as [t Ht].
  { intros r n Hr Hn. assert (Hr' : r ∈ concat gs).
    { unfold kept in Hr. destruct (ro_filter o); [|done]. by apply elem_of_list_filter in Hr as [_ ?]. }
    rewrite (conforms_names s r); [auto|]. by eapply Forall_forall in Hrows. }
  rewrite Ht. simpl. unfold mask_ok in Hmask. destruct (df_bitmap df) as [bits|].
  - destruct Hmask as [Hnone Hbits]. unfold apply_mask.
    assert (forallb (fun i => bool_decide (i < length t))
              (filter (fun i => in_slice (df_slice df) i = true) bits) = true) as ->.
    { apply forallb_forall. intros i [_ Hi]%elem_of_list_In%elem_of_list_filter.
      apply bool_decide_eq_true. rewrite (tsel_length _ _ _ Ht). unfold kept. rewrite Hnone.
      by eapply Forall_forall in Hbits. }
    eexists. split; [done|].
    generalize (filter (fun i => in_slice (df_slice df) i = true) bits). intros sel.
    exact (tsel_filter_pos _ (fun i => i ∈ sel) _ _ Ht).
  - destruct (df_slice df) as [[a b]|]; [|eauto]. eexists. split; [done|].
    by apply tsel_take, tsel_drop.
Qed.

Lemma resolve_rows_sub rv recs rows lrows sub :
  resolve_rows rv recs rows = Some lrows → (∀ r, r ∈ sub → r ∈ rows) →
  ∃ lsub, resolve_rows rv recs sub = Some lsub.
Proof.
  intros Hr%mapM_Some Hsub. induction sub as [|r sub IH]; [by exists []|].
  assert (Hin : r ∈ rows) by (apply Hsub; set_solver).
  apply elem_of_list_lookup in Hin as [i Hi].
  destruct (Forall2_lookup_l _ _ _ _ _ Hr Hi) as (l&_&Hl).
  destruct IH as [lsub Hls]; [set_solver|]. exists (l :: lsub). unfold resolve_rows in *. simpl.
  by rewrite Hl, Hls.
Qed.

Lemma classes_ok s o cols :
  wf_schema s → cols_ok s cols → (∀ n, n ∈ selected_fields s o → n ∈ s_names s) →
  rmapM (classify_column s o cols) (selected_fields s o) = Ok (classes_of s (selected_fields s o)).
Proof.
  intros Hw Hc Hsel. apply rmapM_total. intros n Hn. apply classify_column_ok; auto.
Qed.

Lemma mapM_concat_Some {A B} (f : A → option B) ls k :
  mapM f (concat ls) = Some k → ∃ ks, Forall2 (fun l k => mapM f l = Some k) ls ks ∧ k = concat ks.
Proof.
  revert k. induction ls as [|l ls IH]; intros k; simpl.
  - intros [= <-]. exists []. split; [constructor|done].
  - intros (k1&k2&H1&H2&->)%mapM_app_Some. destruct (IH _ H2) as (ks&?&->).
    exists (k1 :: ks). split; [by constructor|done].
Qed.
Lemma tsel_concat names lts outs :
  Forall2 (fun lt out => tsel names lt = Ok out) lts outs → tsel names (concat lts) = Ok (concat outs).
Proof.
  induction 1 as [|lt out lts outs Ho _ IH]; [done|]. simpl. apply rmapM_app. eauto.
Qed.
Lemma rmapM_sub {A B} (f : A → res B) l l' k : rmapM f l = Ok l' → (∀ x, x ∈ k → x ∈ l) → ∃ k', rmapM f k = Ok k'.
Proof.
  intros Hl Hk. induction k as [|x k IH]; [by exists []|].
  assert (Hin : x ∈ l) by (apply Hk; set_solver). apply elem_of_list_lookup in Hin as [i Hi].
  apply rmapM_ok in Hl. destruct (Forall2_lookup_l _ _ _ _ _ Hl Hi) as (y&_&Hy).
  destruct IH as [k' Hk']; [set_solver|]. exists (y :: k'). simpl. by rewrite Hy, Hk'.
Qed.

Lemma in_concat_chunks {A} (sizes : list nat) n (t : list A) :
  concat (concat (chunks n <$> chop sizes t)) = t.
Proof.
  rewrite <-(concat_chop sizes t) at 2. generalize (chop sizes t). intros ls.
  induction ls as [|l ls IH]; [done|]. rewrite fmap_cons. cbn [concat].
  rewrite concat_app, IH, concat_chunks. done.
Qed.
Lemma chunks_chop_bound {A} (sizes : list nat) n (t : list A) :
  1 ≤ n → Forall (fun c => length c ≤ n) (concat (chunks n <$> chop sizes t)).
Proof.
  intros Hn. apply Forall_concat, Forall_fmap, Forall_true. intros x. by apply chunks_bound.
Qed.
Lemma batch_size_pos o : 1 ≤ batch_size o.
Proof. destruct o as [[|]|]; simpl; lia. Qed.

Lemma read_one_spec E s o df w rows lrows :
  wf_schema s → readable s (w_fs w) (df_path df) rows →
  (∀ n, n ∈ selected_fields s o → n ∈ s_names s) → mask_ok (ro_filter o) df rows →
  resolve_rows (records_in (w_fs w)) (s_recs s) (pick_rows (ro_filter o) df rows) = Some lrows →
  ∃ ts, read_one E s o df w = (w, Ok ts)
    ∧ (if ro_ref o
       then tsel (selected_fields s o) (pick_rows (ro_filter o) df rows) = Ok (concat ts)
       else tsel (read_order s (selected_fields s o)) lrows = Ok (concat ts))
    ∧ (df_slice df = None → ro_ref o = false → Forall (fun t => length t ≤ batch_size (ro_batch o)) ts).
Proof.
  intros Hw (cols&gs&Hfs&Hgs&Hc&Hconf) Hsel Hmask Hres. unfold read_one.
  rewrite (bind_run _ _ w w (cols, gs)).
  2:{ unfold read_index, bind, read_file. by rewrite Hfs. }
  destruct (file_table_spec s o df cols rows gs Hc Hgs Hconf Hsel Hmask) as (t&Ht&Htsel).
  rewrite (bind_run _ _ w w t) by (by unfold lift; rewrite Ht).
  destruct (ro_ref o) eqn:Href.
  { exists [t]. split_and!; [done|simpl; by rewrite app_nil_r|done]. }
  rewrite (bind_run _ _ w w _) by (by unfold lift; rewrite classes_ok).
  destruct (tsel_resolve _ _ _ _ _ _ Hres Htsel) as (lt&Hlt&Hltsel).
  assert (Hcols : ∀ r n, r ∈ t → n ∈ selected_fields s o → n ∈ r.*1).
  { intros r n Hr Hn. apply tsel_ok in Htsel. apply elem_of_list_lookup in Hr as [i Hi].
    destruct (Forall2_lookup_r _ _ _ _ _ Htsel Hi) as (r0&_&Hr0). by rewrite (rsel_names _ _ _ Hr0). }
  assert (Hro : tsel (read_order s (selected_fields s o)) lt = tsel (read_order s (selected_fields s o)) lrows).
  { eapply tsel_tsel; [done|]. intros n. apply elem_of_read_order. }
  destruct (df_slice df) as [[a b]|] eqn:Hslice.
  - destruct (read_index_and_record_spec s (selected_fields s o) w t lt Hcols Hlt) as (out&Hout&Hosel).
    exists [out]. rewrite (bind_run _ _ w w out) by done.
    split_and!; [done|simpl; rewrite app_nil_r; by rewrite <-Hro|done].
  - set (tabs := concat (chunks (batch_size (ro_batch o)) <$> chop (e_chunks E t) t)).
    assert (Htabs : concat tabs = t) by apply in_concat_chunks.
    assert (Hbound : Forall (fun c => length c ≤ batch_size (ro_batch o)) tabs)
      by apply chunks_chop_bound, batch_size_pos.
    rewrite <-Htabs in Hlt. destruct (mapM_concat_Some _ _ _ Hlt) as (lts&Hlts&->).
    assert (Hex : ∃ outs, mapM_st (read_index_and_record (classes_of s (selected_fields s o))) tabs w = (w, Ok outs)
               ∧ Forall2 (fun lt out => tsel (read_order s (selected_fields s o)) lt = Ok out) lts outs
               ∧ Forall2 (fun tb out => length out = length (tb : list row)) tabs outs).
    { assert (Hsub : ∀ tb r, tb ∈ tabs → r ∈ tb → r ∈ t).
      { intros tb r Htb Hr. rewrite <-Htabs. apply elem_of_list_In, in_concat. exists tb.
        split; by apply elem_of_list_In. }
      clear -Hlts Hcols Hsub. induction Hlts as [|tb lt tabs lts Hl _ IH].
      - exists []. split_and!; [done|constructor|constructor].
      - destruct IH as (outs&Hm&Hf&Hlen). { intros. eapply Hsub; [|done]. set_solver. }
        destruct (read_index_and_record_spec s (selected_fields s o) w tb lt) as (out&Ho&Hos); [|done|].
        { intros r n Hr Hn. apply Hcols; [|done]. eapply Hsub; [|done]. set_solver. }
        exists (out :: outs). split_and!.
        + simpl. rewrite (bind_run _ _ w w out) by done. by rewrite (bind_run _ _ w w outs).
        + by constructor.
        + constructor; [|done]. rewrite (tsel_length _ _ _ Hos). by eapply rows_length. }
    destruct Hex as (outs&Hm&Hf&Hlen). exists outs. split_and!; [done| |].
    + rewrite <-Hro. by apply tsel_concat.
    + intros _ _. clear -Hlen Hbound. induction Hlen; inversion Hbound; subst; constructor; [lia|auto].
Qed.

Lemma read_files_spec E s o dfs w (rowsof : data_file → list row) lrows :
  wf_schema s → (∀ n, n ∈ selected_fields s o → n ∈ s_names s) →
  (∀ df, df ∈ dfs → readable s (w_fs w) (df_path df) (rowsof df) ∧ mask_ok (ro_filter o) df (rowsof df)) →
  resolve_rows (records_in (w_fs w)) (s_recs s)
    (dfs ≫= (fun df => pick_rows (ro_filter o) df (rowsof df))) = Some lrows →
  ∃ ts, read_files E s o dfs w = (w, Ok ts)
    ∧ (if ro_ref o
       then tsel (selected_fields s o) (dfs ≫= (fun df => pick_rows (ro_filter o) df (rowsof df))) = Ok (concat ts)
       else tsel (read_order s (selected_fields s o)) lrows = Ok (concat ts))
    ∧ ((∀ df, df ∈ dfs → df_slice df = None) → ro_ref o = false →
         Forall (fun t => length t ≤ batch_size (ro_batch o)) ts).
Proof.
  intros Hw Hsel Hdfs Hres. unfold read_files.
  cut (∃ tss, mapM_st (read_one E s o) dfs w = (w, Ok tss)
    ∧ (if ro_ref o
       then tsel (selected_fields s o) (dfs ≫= (fun df => pick_rows (ro_filter o) df (rowsof df))) = Ok (concat (concat tss))
       else tsel (read_order s (selected_fields s o)) lrows = Ok (concat (concat tss)))
    ∧ ((∀ df, df ∈ dfs → df_slice df = None) → ro_ref o = false →
         Forall (fun t => length t ≤ batch_size (ro_batch o)) (concat tss))).
  { intros (tss&Hm&Hrest). exists (concat tss). by rewrite (bind_run _ _ w w tss). }
  revert lrows Hres. induction dfs as [|df dfs IH]; intros lrows Hres.
  - simpl in Hres. injection Hres as <-. exists []. split_and!; [done|by destruct (ro_ref o)|constructor].
  - unfold resolve_rows in Hres. simpl in Hres. apply mapM_app_Some in Hres as (l1&l2&H1&H2&->).
    destruct (IH ltac:(intros; apply Hdfs; set_solver) l2 H2) as (tss&Hm&Hsels&Hb).
    destruct (Hdfs df) as [Hrd Hmk]; [set_solver|].
    destruct (read_one_spec E s o df w (rowsof df) l1) as (ts&Hts&Hs1&Hb1); auto.
    exists (ts :: tss). split_and!.
    + simpl. rewrite (bind_run _ _ w w ts) by done. by rewrite (bind_run _ _ w w tss).
    + simpl. rewrite concat_app. destruct (ro_ref o).
      * apply rmapM_app. eauto.
      * apply rmapM_app. eauto.
    + intros Hns Href. simpl. apply Forall_app. split; [apply Hb1; [apply Hns; set_solver|done]|].
      apply Hb; [|done]. intros; apply Hns; set_solver.
Qed.
